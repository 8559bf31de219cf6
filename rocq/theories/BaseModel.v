(** Model of the journaled buffer [BaseImpl] (query/base/base.go), for buffers
    without a stream behind them ([r == nil]).  The stream-backed part is in
    [StreamModel.v].

    Slices are modelled by value ([gslice]).  This is exact for [BaseImpl]:
    none of the functions below writes into a byte array that is already
    reachable from another slice ([U] allocates, [Flatten] allocates, [Copy],
    [D] and [insertSpace] only re-slice); see [C60_by_value] in [HeapProps.v]
    for the proof on a model with shared arrays. *)
From Coq Require Import ZArith List Bool.
From Coq Require Import Strings.Byte.
From Verif Require Import GoLib.
Import ListNotations.
Open Scope Z_scope.

(** base.go:188 [Diff] *)
Record diff := mkDiff { d_off : Z; d_sl : gslice }.

Definition d_data (d : diff) : list byte := sl_data (d_sl d).
Definition d_len (d : diff) : Z := gs_len (d_sl d).
Definition d_end (d : diff) : Z := d_off d + d_len d.

(** base.go:168 [BaseImpl], restricted to [r == nil]; [dirties] is omitted
    (it is written and pruned but never read for any other purpose,
    base.go:1017-1043). *)
Record base := mkBase {
  b_bytes : gslice;
  b_rdiffs : list diff;
  b_diffs : list diff;
  b_check : bool;
  b_seek : Z
}.

Definition set_diffs (b : base) (ds : list diff) : base :=
  mkBase (b_bytes b) (b_rdiffs b) ds (b_check b) (b_seek b).
Definition set_bytes (b : base) (s : gslice) : base :=
  mkBase s (b_rdiffs b) (b_diffs b) (b_check b) (b_seek b).
Definition set_seek (b : base) (k : Z) : base :=
  mkBase (b_bytes b) (b_rdiffs b) (b_diffs b) (b_check b) k.

(** base.go:426 [NewBaseImpl] *)
Definition new_base (s : gslice) : base := mkBase s nil nil true 0.

(** base.go:215 [Diff.Include] *)
Definition include (d : diff) (pos : Z) : bool :=
  (d_off d <=? pos) && (pos <=? d_off d + d_len d - 1).

(** base.go:219 [Diff.Included] *)
Definition included (d : diff) (pos size : Z) : bool :=
  (pos <=? d_off d) && (d_off d <=? pos + size - 1).

(** base.go:224 [Diff.Inner] *)
Definition inner (d : diff) (pos size : Z) : bool :=
  include d pos && (pos + size <=? d_off d + d_len d).

(** base.go:231 [Diff.Innerd] *)
Definition innerd (d : diff) (pos size : Z) : bool :=
  if d_off d <? pos then false else d_off d + d_len d <? pos + size.

(** The condition of the searches in base.go:560, 661, 715. *)
Definition covers (off : Z) (d : diff) : bool :=
  (d_off d <=? off) && (off <? d_off d + d_len d).

(** base.go:1208 [Diffs.minOffset], with the predicate of base.go:580
    ([Offset > off]).  Result -1 when there is none. *)
Fixpoint min_offset_gt (off : Z) (ds : list diff) (acc : Z) : Z :=
  match ds with
  | nil => acc
  | d :: ds' =>
      if off <? d_off d
      then min_offset_gt off ds'
             (if (acc <? 0) || (d_off d <? acc) then d_off d else acc)
      else min_offset_gt off ds' acc
  end.

(** base.go:557-592 [writerR].  [None] is Go's nil slice. *)
Definition writer_r (b : base) (off : Z) : res (option gslice) :=
  match last_index (covers off) (b_diffs b) with
  | Some n =>
      match nth_error (b_diffs b) n with
      | Some d => do s <- gs_from (d_sl d) (off - d_off d); Ok (Some s)
      | None => Panic
      end
  | None =>
      if gs_len (b_bytes b) <? off then Ok None
      else
        match b_diffs b with
        | nil => do s <- gs_from (b_bytes b) off; Ok (Some s)
        | _ =>
            let minoff := min_offset_gt off (b_diffs b) (-1) in
            if minoff <? 0
            then do s <- gs_from (b_bytes b) off; Ok (Some s)
            else
              do t <- gs_from (b_bytes b) off;
              let lim := Z.min (off + gs_len t) minoff in
              do s <- gs_range (b_bytes b) off lim; Ok (Some s)
        end
  end.

Definition opt_len (s : option gslice) : Z :=
  match s with Some x => gs_len x | None => 0 end.
Definition opt_data (s : option gslice) : list byte :=
  match s with Some x => sl_data x | None => nil end.

(** base.go:613-655 [readerR] when [r == nil]: the read cache is searched
    first; [loadBuf] returns ERR_READ_BUFFER at once (base.go:775). *)
Definition rcovers (off req : Z) (d : diff) : bool :=
  (d_off d <=? off) && (off + req <=? d_off d + d_len d).

Definition reader_r0 (b : base) (off req : Z) : res (option gslice) :=
  match last_index (rcovers off req) (b_rdiffs b) with
  | Some n =>
      match nth_error (b_rdiffs b) n with
      | Some d => do s <- gs_from (d_sl d) (off - d_off d); Ok (Some s)
      | None => Panic
      end
  | None =>
      if gs_len (b_bytes b) <? off + req
      then if off + Z.max 1 req <=? gs_len (b_bytes b)
           then do s <- gs_from (b_bytes b) off; Ok (Some s)
           else Ok None
      else do s <- gs_from (b_bytes b) off; Ok (Some s)
  end.

(** base.go:548-555 [R]; [req] is the argument of the [Size] option, 0 when
    the option is absent (base.go:116-130). *)
Definition base_r (b : base) (off req : Z) : res (option gslice) :=
  do s <- writer_r b off;
  if opt_len s =? 0 then reader_r0 b off req else Ok s.

(** base.go:1254-1273 [Diffs.insert]; on an invalid index the error is
    ignored by all callers and the list is returned unchanged. *)
Definition diffs_insert (ds : list diff) (idx : nat) (ads : list diff) : list diff :=
  if (length ds <? idx)%nat then ds else firstn idx ds ++ ads ++ skipn idx ds.

(** base.go:414-423 [WriteAt]: new buffer and reported count. *)
Definition write_at (b : base) (p : list byte) (off : Z) : base * Z :=
  (set_diffs b (b_diffs b ++ [mkDiff off (gs_of p)]), zlen p).

(** base.go:407-412 [Write] *)
Definition base_write (b : base) (p : list byte) : base * Z :=
  let '(b', n) := write_at b p (b_seek b) in
  (set_seek b' (b_seek b' + n), n).

(** base.go:397-405 [ReadAt]: the contents of [p] afterwards and the reported
    count (the error is always nil). *)
Definition read_at (b : base) (p : list byte) (off : Z) : res (list byte * Z) :=
  do s <- base_r b off (zlen p);
  let l := opt_len s in
  do s2 <- base_r b off l;
  do s3 <- match s2 with
           | Some x => gs_upto x l
           | None => if l =? 0 then Ok (gs_of nil) else Panic
           end;
  Ok (copy_at p 0 (sl_data s3), l).

(** base.go:390-395 [Read] *)
Definition base_read (b : base) (p : list byte) : res (base * list byte * Z) :=
  do (p', n) <- read_at b p (b_seek b);
  Ok (set_seek b (b_seek b + n), p', n).

(** base.go:713-750 [D], followed by storing [nb] as the bytes of the returned
    entry (base.go:756 in [U], 670 in [C]).  The entry returned by [D] is always
    the last one of the journal. *)
Definition base_d (b : base) (off size : Z) (nb : gslice) : res base :=
  match last_index (covers off) (b_diffs b) with
  | Some sn =>
      match nth_error (b_diffs b) sn with
      | None => Panic
      | Some d =>
          if d_off d + d_len d <=? off + size
          then Ok (set_diffs b (b_diffs b ++ [mkDiff off nb]))
          else
            do after <- gs_from (d_sl d) (off - d_off d + size);
            do before <- gs_upto (d_sl d) (off + size - d_off d);
            let ds1 := firstn sn (b_diffs b) ++ mkDiff (d_off d) before
                         :: skipn (S sn) (b_diffs b) in
            let ds2 := diffs_insert ds1 (S sn) [mkDiff (off + size) after] in
            Ok (set_diffs b (ds2 ++ [mkDiff off nb]))
      end
  | None =>
      if (off <? gs_len (b_bytes b)) && (off + size <? gs_cap (b_bytes b))
      then
        do s <- gs_range (b_bytes b) off (off + size);
        Ok (set_diffs b (b_diffs b ++ [mkDiff off s; mkDiff off nb]))
      else Ok (set_diffs b (b_diffs b ++ [mkDiff off nb]))
  end.

(** base.go:753-758 [U] followed by overwriting the start of the returned
    slice with [p] (what every caller does: flatbuffers.WriteX(node.U(off,
    size), v)).  [make] panics on a negative size; writing more than [size]
    bytes panics in flatbuffers. *)
Definition base_u (b : base) (off size : Z) (p : list byte) : res base :=
  if size <? 0 then Panic
  else if size <? zlen p then Panic
  else base_d b off size (gs_of (copy_at (zeros size) 0 p)).

(** base.go:659-672 [C] *)
Definition base_c (b : base) (off size : Z) (src : gslice) : res base :=
  do s <- gs_upto src size;
  match last_index (covers off) (b_diffs b) with
  | Some sn =>
      match nth_error (b_diffs b) sn with
      | None => Panic
      | Some d =>
          if (d_off d =? off) && (d_len d =? size)
          then Ok (set_diffs b (firstn sn (b_diffs b) ++ mkDiff off s
                                  :: skipn (S sn) (b_diffs b)))
          else base_d b off size s
      end
  | None => base_d b off size s
  end.

(** base.go:871-895 [LenBuf] (no parent when [r == nil]). *)
Definition len_buf (b : base) : Z :=
  fold_left (fun m d => Z.max m (d_off d + d_len d)) (b_diffs b)
    (fold_left (fun m d => Z.max m (d_off d + d_len d)) (b_rdiffs b)
       (gs_len (b_bytes b))).

(** base.go:948-967 [Flatten].  Slicing [nbytes] with a negative offset
    panics; an offset beyond the length cannot occur. *)
Definition flatten_step (acc : res (list byte)) (d : diff) : res (list byte) :=
  do l <- acc;
  if (0 <=? d_off d) && (d_off d <=? zlen l)
  then Ok (copy_at l (d_off d) (d_data d))
  else Panic.

Definition base_flatten (b : base) : res base :=
  let nbytes := copy_at (zeros (len_buf b)) 0 (sl_data (b_bytes b)) in
  do l <- fold_left flatten_step (b_diffs b) (Ok nbytes);
  Ok (mkBase (gs_of l) (b_rdiffs b) nil (b_check b) (b_seek b)).

(** base.go:970-984 [Dedup] *)
Definition dedup_pred (ds : list diff) (i : nat) : bool :=
  match nth_error ds i with
  | None => false
  | Some di =>
      match last_index (fun x => x)
              (map (fun '(j, dj) =>
                      (i <? j)%nat && (d_off dj <=? d_off di)
                      && (d_off di + d_len di <=? d_off dj + d_len dj))
                 (combine (seq 0 (length ds)) ds)) with
      | Some n => (0 <? n)%nat
      | None => false
      end
  end.

Definition base_dedup (b : base) : base :=
  set_diffs b (delete_idx (dedup_pred (b_diffs b)) (b_diffs b)).

(** base.go:243-266 [Diff.MergeStable]: [None] when the entries do not touch,
    else the new value of [*d]. *)
Definition merge_stable (d s : diff) : option diff :=
  if d_off d + d_len d <? d_off s then None
  else if d_off s + d_len s <? d_off d then None
  else
    let off := Z.min (d_off d) (d_off s) in
    let loff := Z.max (d_off d + d_len d) (d_off s + d_len s) in
    let nb := zeros (loff - off) in
    let nb := copy_at nb (d_off d - off) (d_data d) in
    let nb := copy_at nb (d_off s - off) (d_data s) in
    Some (mkDiff off (gs_of nb)).

(** base.go:917-945 [mergeDiffsOf(idx)] with the journal given as the entries
    before [idx], the entry at [idx] and the later ones: the merged entry, the
    surviving later ones and whether anything was merged. *)
Fixpoint merge_into (d : diff) (later : list diff) : diff * list diff * bool :=
  match later with
  | nil => (d, nil, false)
  | s :: later' =>
      match merge_stable d s with
      | Some d' =>
          let '(d'', rest, _) := merge_into d' later' in (d'', rest, true)
      | None =>
          let '(d'', rest, m) := merge_into d later' in (d'', s :: rest, m)
      end
  end.

(** One pass of the loop in base.go:910-914: the first [i] for which
    [mergeDiffsOf] succeeds restarts the loop.  [None] when no index merges. *)
Fixpoint merge_pass (ds : list diff) : option (list diff) :=
  match ds with
  | nil => None
  | d :: later =>
      let '(d', rest, m) := merge_into d later in
      if m then Some (d' :: rest)
      else match merge_pass later with
           | Some l => Some (d :: l)
           | None => None
           end
  end.

(** base.go:907-915 [mergeDiffs], with fuel for the goto loop. *)
Fixpoint merge_loop (fuel : nat) (ds : list diff) : res (list diff) :=
  match merge_pass ds with
  | None => Ok ds
  | Some ds' => match fuel with
                | O => OutOfFuel
                | S f => merge_loop f ds'
                end
  end.

Definition base_merge_diffs (b : base) : res base :=
  do ds <- merge_loop (length (b_diffs b)) (b_diffs b);
  Ok (set_diffs b ds).

(** base.go:1047-1083 [insertSpace]; [insertBuf] (1044) is [isCreate = true].
    The new buffer starts with an empty RDiffs and cursor 0 (NewBaseImpl). *)
Definition ins_split (pos : Z) (acc : res (list diff)) (id : nat * diff)
  : res (list diff) :=
  let '(i, d) := id in
  do nds <- acc;
  if (d_off d <? pos) && include d pos
  then
    do h <- gs_upto3 (d_sl d) (pos - d_off d) (pos - d_off d);
    do t <- gs_from (d_sl d) (pos - d_off d);
    Ok (diffs_insert nds (S i) [mkDiff (d_off d) h; mkDiff pos t])
  else Ok nds.

Definition ins_shift (pos size : Z) (d : diff) : diff :=
  if pos <=? d_off d then mkDiff (d_off d + size) (d_sl d) else d.

Definition insert_space (b : base) (pos size : Z) (isCreate : bool) : res base :=
  do nds <- fold_left (ins_split pos)
              (combine (seq 0 (length (b_diffs b))) (b_diffs b))
              (Ok (b_diffs b));
  let nds := map (ins_shift pos size) nds in
  do (bs, nds) <-
     (if pos <? gs_len (b_bytes b)
      then do t <- gs_from (b_bytes b) pos;
           do h <- gs_upto3 (b_bytes b) pos pos;
           Ok (h, diffs_insert nds 0 [mkDiff (pos + size) t])
      else Ok (b_bytes b, nds));
  do nds <- (if isCreate
             then if size <? 0 then Panic
                  else Ok (nds ++ [mkDiff pos (gs_of (zeros size))])
             else Ok nds);
  Ok (mkBase bs nil nds (b_check b) 0).

(** base.go:689-708, the loop of [Copy]; [src] is another buffer, so it is not
    changed by the appends to the destination.  Every iteration consumes at
    least one byte: [fuel] bounds their number by [size]. *)
Fixpoint copy_loop (fuel : nat) (src : base) (srcOff size dstOff ptr : Z)
    (ds : list diff) : res (list diff) :=
  if srcOff + size <=? ptr then Ok ds
  else match fuel with
  | O => OutOfFuel
  | S f =>
      do s <- base_r src ptr (size - (ptr - srcOff));
      match s with
      | None => Ok ds
      | Some data =>
          if gs_len data =? 0 then Ok ds
          else
            do data <- (if size - (ptr - srcOff) <? gs_len data
                        then gs_upto data (size - (ptr - srcOff))
                        else Ok data);
            copy_loop f src srcOff size dstOff (ptr + gs_len data)
              (ds ++ [mkDiff ((ptr - srcOff) + dstOff) data])
      end
  end.

(** base.go:675-710 [Copy] *)
Definition base_copy (b src : base) (srcOff size dstOff extend : Z) : res base :=
  do ds0 <- (if dstOff <? gs_len (b_bytes b)
             then do t <- gs_from (b_bytes b) dstOff;
                  Ok (diffs_insert (b_diffs b) 0 [mkDiff dstOff t])
             else Ok (b_diffs b));
  let ds1 := map (fun d => if dstOff <=? d_off d
                           then mkDiff (d_off d + extend) (d_sl d) else d) ds0 in
  do ds2 <- copy_loop (Z.to_nat size) src srcOff size dstOff srcOff ds1;
  Ok (set_diffs b ds2).

(** [make([]byte, len(s), cap(s))] followed by [copy] (base.go:465-466). *)
Definition gs_make_copy (s : gslice) : gslice :=
  mkSlice (sl_data s) (zeros (zlen (sl_spare s))).

(** base.go:455-481 [Dup] with [r == nil].  RDiffs are not copied: the loop at
    473-477 assigns to the wrong variable. *)
Definition base_dup (b : base) : base :=
  mkBase (gs_of (sl_data (b_bytes b))) nil
    (map (fun d => mkDiff (d_off d) (gs_make_copy (d_sl d))) (b_diffs b)) true 0.
