(** Buffers over shared byte arrays.

    [BaseModel.v] models slices by value.  Here a slice is a window of an array
    in a heap, so that two buffers, or two entries of one journal, can share
    bytes and a write through one shows in the other.  Modelled this way: the
    operations of [BaseImpl] that re-slice, allocate or keep slices
    (query/base/base.go) and [NoLayer.U] (query/base/directreader.go), which
    writes in place.

    Simplification: the journal itself ([]Diff) is still a list by value. *)
From Coq Require Import ZArith List Bool.
From Coq Require Import Strings.Byte.
From Verif Require Import GoLib BaseModel.
Import ListNotations.
Open Scope Z_scope.

Definition heap := list (list byte).

(** A window of array [a_id]: [a_len] visible bytes from [a_off] on and room for
    [a_cap].  The nil slice is [nil_hsl]. *)
Record hsl := mkHsl { a_id : nat; a_off : Z; a_len : Z; a_cap : Z }.
Definition nil_hsl : hsl := mkHsl 0 0 0 0.

Definition array (h : heap) (s : hsl) : list byte := nth (a_id s) h nil.

(** [s[a:]], [s[a:b]], [s[:b:c]] *)
Definition hs_from (s : hsl) (a : Z) : res hsl :=
  if (0 <=? a) && (a <=? a_len s)
  then Ok (mkHsl (a_id s) (a_off s + a) (a_len s - a) (a_cap s - a))
  else Panic.

Definition hs_range (s : hsl) (a b : Z) : res hsl :=
  if (0 <=? a) && (a <=? b) && (b <=? a_cap s)
  then Ok (mkHsl (a_id s) (a_off s + a) (b - a) (a_cap s - a))
  else Panic.

Definition hs_upto (s : hsl) (b : Z) : res hsl := hs_range s 0 b.

Definition hs_upto3 (s : hsl) (b c : Z) : res hsl :=
  if (0 <=? b) && (b <=? c) && (c <=? a_cap s)
  then Ok (mkHsl (a_id s) (a_off s) b c)
  else Panic.

(** A new array holding [l]; [n] of its bytes are visible. *)
Definition h_new (h : heap) (l : list byte) (n : Z) : heap * hsl :=
  (h ++ [l], mkHsl (length h) 0 n (zlen l)).

(** [copy(s, p)] *)
Definition h_put (h : heap) (s : hsl) (p : list byte) : heap :=
  let q := zfirst (a_len s) p in
  if zlen q =? 0 then h
  else firstn (a_id s) h ++ copy_at (array h s) (a_off s) q :: skipn (S (a_id s)) h.

Record hdiff := mkHdiff { hd_off : Z; hd_sl : hsl }.

Record hbase := mkHbase {
  hb_bytes : hsl;
  hb_rdiffs : list hdiff;
  hb_diffs : list hdiff;
  hb_check : bool;
  hb_seek : Z
}.

Definition hset_diffs (b : hbase) (ds : list hdiff) : hbase :=
  mkHbase (hb_bytes b) (hb_rdiffs b) ds (hb_check b) (hb_seek b).
Definition hset_bytes (b : hbase) (s : hsl) : hbase :=
  mkHbase s (hb_rdiffs b) (hb_diffs b) (hb_check b) (hb_seek b).

(** ** What is seen of a slice and of a buffer *)
Definition view (h : heap) (s : hsl) : gslice :=
  let full := zfirst (a_cap s) (zskip (a_off s) (array h s)) in
  mkSlice (zfirst (a_len s) full) (zskip (a_len s) full).

Definition view_diff (h : heap) (d : hdiff) : diff := mkDiff (hd_off d) (view h (hd_sl d)).

Definition view_base (h : heap) (b : hbase) : base :=
  mkBase (view h (hb_bytes b)) (map (view_diff h) (hb_rdiffs b))
    (map (view_diff h) (hb_diffs b)) (hb_check b) (hb_seek b).

(** ** BaseImpl *)
Definition hcovers (off : Z) (d : hdiff) : bool :=
  (hd_off d <=? off) && (off <? hd_off d + a_len (hd_sl d)).

Fixpoint hmin_offset_gt (off : Z) (ds : list hdiff) (acc : Z) : Z :=
  match ds with
  | nil => acc
  | d :: ds' =>
      if off <? hd_off d
      then hmin_offset_gt off ds'
             (if (acc <? 0) || (hd_off d <? acc) then hd_off d else acc)
      else hmin_offset_gt off ds' acc
  end.

(** base.go:557-592 [writerR] *)
Definition hwriter_r (b : hbase) (off : Z) : res (option hsl) :=
  match last_index (hcovers off) (hb_diffs b) with
  | Some n =>
      match nth_error (hb_diffs b) n with
      | Some d => do s <- hs_from (hd_sl d) (off - hd_off d); Ok (Some s)
      | None => Panic
      end
  | None =>
      if a_len (hb_bytes b) <? off then Ok None
      else
        match hb_diffs b with
        | nil => do s <- hs_from (hb_bytes b) off; Ok (Some s)
        | _ =>
            let minoff := hmin_offset_gt off (hb_diffs b) (-1) in
            if minoff <? 0
            then do s <- hs_from (hb_bytes b) off; Ok (Some s)
            else
              do t <- hs_from (hb_bytes b) off;
              let lim := Z.min (off + a_len t) minoff in
              do s <- hs_range (hb_bytes b) off lim; Ok (Some s)
        end
  end.

Definition hopt_len (s : option hsl) : Z :=
  match s with Some x => a_len x | None => 0 end.

Definition hrcovers (off req : Z) (d : hdiff) : bool :=
  (hd_off d <=? off) && (off + req <=? hd_off d + a_len (hd_sl d)).

(** base.go:613-655 [readerR] without a stream *)
Definition hreader_r0 (b : hbase) (off req : Z) : res (option hsl) :=
  match last_index (hrcovers off req) (hb_rdiffs b) with
  | Some n =>
      match nth_error (hb_rdiffs b) n with
      | Some d => do s <- hs_from (hd_sl d) (off - hd_off d); Ok (Some s)
      | None => Panic
      end
  | None =>
      if a_len (hb_bytes b) <? off + req
      then if off + Z.max 1 req <=? a_len (hb_bytes b)
           then do s <- hs_from (hb_bytes b) off; Ok (Some s)
           else Ok None
      else do s <- hs_from (hb_bytes b) off; Ok (Some s)
  end.

(** base.go:548-555 [R] *)
Definition hb_r (b : hbase) (off req : Z) : res (option hsl) :=
  do s <- hwriter_r b off;
  if hopt_len s =? 0 then hreader_r0 b off req else Ok s.

Definition hdiffs_insert (ds : list hdiff) (idx : nat) (ads : list hdiff) : list hdiff :=
  if (length ds <? idx)%nat then ds else firstn idx ds ++ ads ++ skipn idx ds.

(** base.go:414-423 [WriteAt] *)
Definition hb_write_at (h : heap) (b : hbase) (p : list byte) (off : Z) : heap * hbase :=
  let '(h', s) := h_new h p (zlen p) in
  (h', hset_diffs b (hb_diffs b ++ [mkHdiff off s])).

(** base.go:713-750 [D], the returned entry then holding [nb] *)
Definition hb_d (b : hbase) (off size : Z) (nb : hsl) : res hbase :=
  match last_index (hcovers off) (hb_diffs b) with
  | Some sn =>
      match nth_error (hb_diffs b) sn with
      | None => Panic
      | Some d =>
          if hd_off d + a_len (hd_sl d) <=? off + size
          then Ok (hset_diffs b (hb_diffs b ++ [mkHdiff off nb]))
          else
            do after <- hs_from (hd_sl d) (off - hd_off d + size);
            do before <- hs_upto (hd_sl d) (off + size - hd_off d);
            let ds1 := firstn sn (hb_diffs b) ++ mkHdiff (hd_off d) before
                         :: skipn (S sn) (hb_diffs b) in
            let ds2 := hdiffs_insert ds1 (S sn) [mkHdiff (off + size) after] in
            Ok (hset_diffs b (ds2 ++ [mkHdiff off nb]))
      end
  | None =>
      if (off <? a_len (hb_bytes b)) && (off + size <? a_cap (hb_bytes b))
      then
        do s <- hs_range (hb_bytes b) off (off + size);
        Ok (hset_diffs b (hb_diffs b ++ [mkHdiff off s; mkHdiff off nb]))
      else Ok (hset_diffs b (hb_diffs b ++ [mkHdiff off nb]))
  end.

(** base.go:753-758 [U], then [p] written into the returned slice *)
Definition hb_u (h : heap) (b : hbase) (off size : Z) (p : list byte) : res (heap * hbase) :=
  if size <? 0 then Panic
  else if size <? zlen p then Panic
  else
    let '(h1, s) := h_new h (zeros size) size in
    do b' <- hb_d b off size s;
    Ok (h_put h1 s p, b').

(** base.go:871-895 [LenBuf] *)
Definition hlen_buf (b : hbase) : Z :=
  fold_left (fun m d => Z.max m (hd_off d + a_len (hd_sl d))) (hb_diffs b)
    (fold_left (fun m d => Z.max m (hd_off d + a_len (hd_sl d))) (hb_rdiffs b)
       (a_len (hb_bytes b))).

(** base.go:948-967 [Flatten]: allocates the new bytes, copies the old ones
    into them, then every entry *)
Definition hflatten_step (s : hsl) (acc : res heap) (d : hdiff) : res heap :=
  do h <- acc;
  do t <- hs_from s (hd_off d);
  Ok (h_put h t (sl_data (view h (hd_sl d)))).

Definition hb_flatten (h : heap) (b : hbase) : res (heap * hbase) :=
  let '(h1, s) := h_new h (zeros (hlen_buf b)) (hlen_buf b) in
  let h2 := h_put h1 s (sl_data (view h1 (hb_bytes b))) in
  do h3 <- fold_left (hflatten_step s) (hb_diffs b) (Ok h2);
  Ok (h3, mkHbase s (hb_rdiffs b) nil (hb_check b) (hb_seek b)).

(** base.go:689-708, the loop of [Copy]: the destination keeps slices of the
    source's arrays *)
Fixpoint hcopy_loop (fuel : nat) (src : hbase) (srcOff size dstOff ptr : Z)
    (ds : list hdiff) : res (list hdiff) :=
  if srcOff + size <=? ptr then Ok ds
  else match fuel with
  | O => OutOfFuel
  | S f =>
      do s <- hb_r src ptr (size - (ptr - srcOff));
      match s with
      | None => Ok ds
      | Some data =>
          if a_len data =? 0 then Ok ds
          else
            do data <- (if size - (ptr - srcOff) <? a_len data
                        then hs_upto data (size - (ptr - srcOff))
                        else Ok data);
            hcopy_loop f src srcOff size dstOff (ptr + a_len data)
              (ds ++ [mkHdiff ((ptr - srcOff) + dstOff) data])
      end
  end.

(** base.go:675-710 [Copy] *)
Definition hb_copy (b src : hbase) (srcOff size dstOff extend : Z) : res hbase :=
  do ds0 <- (if dstOff <? a_len (hb_bytes b)
             then do t <- hs_from (hb_bytes b) dstOff;
                  Ok (hdiffs_insert (hb_diffs b) 0 [mkHdiff dstOff t])
             else Ok (hb_diffs b));
  let ds1 := map (fun d => if dstOff <=? hd_off d
                           then mkHdiff (hd_off d + extend) (hd_sl d) else d) ds0 in
  do ds2 <- hcopy_loop (Z.to_nat size) src srcOff size dstOff srcOff ds1;
  Ok (hset_diffs b ds2).

(** base.go:455-481 [Dup]: every slice gets an array of its own *)
Fixpoint hdup_diffs (h : heap) (ds : list hdiff) : heap * list hdiff :=
  match ds with
  | nil => (h, nil)
  | d :: ds' =>
      let v := view h (hd_sl d) in
      let '(h1, s) := h_new h (sl_data v ++ zeros (zlen (sl_spare v))) (a_len (hd_sl d)) in
      let '(h2, r) := hdup_diffs h1 ds' in
      (h2, mkHdiff (hd_off d) s :: r)
  end.

Definition hb_dup (h : heap) (b : hbase) : heap * hbase :=
  let v := view h (hb_bytes b) in
  let '(h1, s) := h_new h (sl_data v) (zlen (sl_data v)) in
  let '(h2, ds) := hdup_diffs h1 (hb_diffs b) in
  (h2, mkHbase s nil ds true 0).

(** base.go:1047-1083 [insertSpace] *)
Definition hinclude (d : hdiff) (pos : Z) : bool :=
  (hd_off d <=? pos) && (pos <=? hd_off d + a_len (hd_sl d) - 1).

Definition hins_split (pos : Z) (acc : res (list hdiff)) (id : nat * hdiff)
  : res (list hdiff) :=
  let '(i, d) := id in
  do nds <- acc;
  if (hd_off d <? pos) && hinclude d pos
  then
    do x <- hs_upto3 (hd_sl d) (pos - hd_off d) (pos - hd_off d);
    do t <- hs_from (hd_sl d) (pos - hd_off d);
    Ok (hdiffs_insert nds (S i) [mkHdiff (hd_off d) x; mkHdiff pos t])
  else Ok nds.

Definition hins_shift (pos size : Z) (d : hdiff) : hdiff :=
  if pos <=? hd_off d then mkHdiff (hd_off d + size) (hd_sl d) else d.

Definition hb_insert_space (h : heap) (b : hbase) (pos size : Z) (isCreate : bool)
  : res (heap * hbase) :=
  do nds <- fold_left (hins_split pos)
              (combine (seq 0 (length (hb_diffs b))) (hb_diffs b))
              (Ok (hb_diffs b));
  let nds := map (hins_shift pos size) nds in
  do (bs, nds) <-
     (if pos <? a_len (hb_bytes b)
      then do t <- hs_from (hb_bytes b) pos;
           do x <- hs_upto3 (hb_bytes b) pos pos;
           Ok (x, hdiffs_insert nds 0 [mkHdiff (pos + size) t])
      else Ok (hb_bytes b, nds));
  do (h', nds) <- (if isCreate
             then if size <? 0 then Panic
                  else let '(h', s) := h_new h (zeros size) size in
                       Ok (h', nds ++ [mkHdiff pos s])
             else Ok (h, nds));
  Ok (h', mkHbase bs nil nds (hb_check b) 0).

(** ** NoLayer *)

(** directreader.go:119-121, the search of [NoLayer.D]: by capacity *)
Definition hcap_covers (off : Z) (d : hdiff) : bool :=
  (hd_off d <=? off) && (off <? hd_off d + a_cap (hd_sl d)).

Definition default_buf_cap : Z := 512.

(** directreader.go:117-163 [NoLayer.D] and [NoLayer.U], then [p] written into
    the returned slice.  [D] returns a pointer into the journal when an entry
    starts at [off] (after moving that entry to the end, base.go:1225-1252), so
    that [U] can resize the entry; in all other cases it returns a detached
    [Diff] that only shares the bytes. *)
Definition hn_u (h : heap) (b : hbase) (off size : Z) (p : list byte) : res (heap * hbase) :=
  if size <? zlen p then Panic
  else match last_index (hcap_covers off) (hb_diffs b) with
  | Some sn =>
      match nth_error (hb_diffs b) sn with
      | None => Panic
      | Some d =>
          if hd_off d =? off
          then
            let rest := firstn sn (hb_diffs b) ++ skipn (S sn) (hb_diffs b) in
            do (h1, s) <-
              (if a_cap (hd_sl d) <? size then Ok (h_new h (zeros size) size)
               else if a_len (hd_sl d) <? size
               then do s <- hs_upto3 (hd_sl d) size size; Ok (h, s)
               else Ok (h, hd_sl d));
            Ok (h_put h1 s p, hset_diffs b (rest ++ [mkHdiff off s]))
          else
            do s <- hs_range (hd_sl d) (off - hd_off d) (off - hd_off d + size);
            Ok (h_put h s p, b)
      end
  | None =>
      if off + size <=? a_len (hb_bytes b)
      then do s <- hs_from (hb_bytes b) off; Ok (h_put h s p, b)
      else if off + size <=? a_cap (hb_bytes b)
      then do bs <- hs_upto (hb_bytes b) (off + size);
           do s <- hs_from bs off;
           Ok (h_put h s p, hset_bytes b bs)
      else
        let '(h1, s) := h_new h (zeros (Z.max default_buf_cap size)) size in
        Ok (h_put h1 s p, hset_diffs b (hb_diffs b ++ [mkHdiff off s]))
  end.
