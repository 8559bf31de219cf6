(** Model of buffers opened over a stream: the read cache of
    query/base/base.go and the reader wrapper of query/base/io.go.

    A source is either random access (its [ReadAt] is used, io.go:65) or a plain
    reader.  Random access follows the contract of io.ReaderAt: it delivers the
    bytes there are, an error when it delivers fewer than asked, and may or may
    not report EOF with a full read ([eof] says which).

    Simplifications: a plain reader delivers as many bytes as io.ReadAtLeast asks
    for or all it has; the order of entries with equal offsets after sort.Slice
    (base.go:1287) is left open: [srt] is a parameter. *)
From Coq Require Import ZArith List Bool.
From Coq Require Import Strings.Byte.
From Verif Require Import GoLib BaseModel VariantModel.
Import ListNotations.
Open Scope Z_scope.

Inductive source :=
| NoSource
| Random (s : list byte) (eof : Z -> Z -> bool)
| Plain (rest : list byte).

Inductive rerr := RNone | REof | RAlready | RMust (off size : Z) | RNoReader.

(** io.go:59-82 [ReadAt] into [n] bytes.  The receiver is a value, so [cur] is 0
    at every call (io.go:77 changes a copy). *)
Definition read_src (src : source) (n off : Z) : list byte * rerr * source :=
  match src with
  | NoSource => (nil, RNoReader, src)
  | Random s eof =>
      if off <? 0 then (nil, REof, src)
      else
        let d := zfirst n (zskip off s) in
        (d, if (zlen d <? n) || eof n off then REof else RNone, src)
  | Plain rest =>
      if off <? 0 then (nil, RAlready, src)
      else if 0 <? off then (nil, RMust 0 off, src)
      else
        let d := zfirst n rest in
        (d, if zlen d <? n then REof else RNone, Plain (zskip n rest))
  end.

Definition is_none (e : rerr) : bool := match e with RNone => true | _ => false end.

(** [copy(s[a:], p)] for [a + len p] at most the length *)
Definition gs_put (s : gslice) (a : Z) (p : list byte) : gslice :=
  mkSlice (copy_at (sl_data s) a p) (sl_spare s).

Definition set_rdiffs (b : base) (rs : list diff) : base :=
  mkBase (b_bytes b) rs (b_diffs b) (b_check b) (b_seek b).

(** base.go:1275-1292 [AddRDiff]; its error is ignored *)
Definition add_rdiff (srt : list diff -> list diff) (rs : list diff) (d : diff) : list diff :=
  match last_index (fun x => d_off x <? d_off d) rs with
  | Some n =>
      match nth_error rs n with
      | Some x => if d_off d <? d_end x then rs else srt (rs ++ [d])
      | None => srt (rs ++ [d])
      end
  | None => srt (rs ++ [d])
  end.

Definition set_nth (rs : list diff) (n : nat) (d : diff) : list diff :=
  firstn n rs ++ d :: skipn (S n) rs.

(** base.go:774-868 [loadBuf] *)
Fixpoint load_buf (fuel : nat) (srt : list diff -> list diff) (src : source) (b : base)
    (offset size : Z) : res (base * source * rerr) :=
  match fuel with
  | O => OutOfFuel
  | S f =>
    match src with
    | NoSource => Ok (b, src, RNoReader)
    | _ =>
      let blen := gs_len (b_bytes b) in
      if (offset + size <=? gs_cap (b_bytes b)) && (blen <? offset + size)
      then
        (* 783-793 *)
        do e <- gs_upto (b_bytes b) (offset + size);
        let '(d, err, src') := read_src src (offset + size - blen) blen in
        let e := gs_put e blen d in
        do e <- (if 0 <? zlen d then gs_upto e (blen + zlen d) else Ok e);
        Ok (set_bytes b e, src', err)
      else
        (* 796 *)
        do s <- gs_upto3 (b_bytes b) blen blen;
        let b := set_bytes b s in
        (* 799-813 *)
        let sm := match last_index (fun d => d_off d <=? offset) (b_rdiffs b) with
                  | Some n => match nth_error (b_rdiffs b) n with
                              | Some d => Some (n, d) | None => None end
                  | None => None
                  end in
        let next := match sm with
                    | Some (n, _) => nth_error (b_rdiffs b) (S n)
                    | None => nth_error (b_rdiffs b) 0
                    end in
        let '(requireSize, capLimit) :=
          match sm, next with
          | Some (_, d), Some x => (Z.min size (d_off x - d_off d), d_off x - offset)
          | None, Some x => (Z.min size (d_off x - offset), 0)
          | _, None => (size, 0)
          end in
        match sm with
        | Some (n, d) =>
            if offset + requireSize <=? d_off d + gs_cap (d_sl d)
            then
              (* 849-866 *)
              let start := d_len d + d_off d in
              let forRead := (offset + requireSize) - start in
              do sl <- gs_upto (d_sl d) (d_len d + forRead);
              do t <- gs_from sl (start - d_off d);
              let '(p, err, src') := read_src src (gs_len t) start in
              let sl := gs_put sl (start - d_off d) p in
              let b := set_rdiffs b (set_nth (b_rdiffs b) n (mkDiff (d_off d) sl)) in
              do (b, src') <-
                match err with
                | RMust o z => do (x, _) <- load_buf f srt src' b o z; Ok x
                | _ => Ok (b, src')
                end;
              do sl <- (if (zlen p <? gs_len t) && (0 <? zlen p)
                        then gs_upto sl (start - d_off d + zlen p) else Ok sl);
              Ok (if (zlen p <? gs_len t) && (0 <? zlen p)
                  then set_rdiffs b (set_nth (b_rdiffs b) n (mkDiff (d_off d) sl))
                  else b, src', err)
            else
              (* 820-822 *)
              do b <- (if (offset <=? d_off d + gs_cap (d_sl d)) && (d_off d + d_len d <=? offset)
                       then do sl <- gs_upto3 (d_sl d) (d_len d) (offset - d_off d);
                            Ok (set_rdiffs b (set_nth (b_rdiffs b) n (mkDiff (d_off d) sl)))
                       else Ok b);
              load_new f srt b src offset size requireSize capLimit
        | None => load_new f srt b src offset size requireSize capLimit
        end
    end
  end
with load_new (fuel : nat) (srt : list diff -> list diff) (b : base) (src : source)
    (offset size requireSize capLimit : Z) {struct fuel} : res (base * source * rerr) :=
  match fuel with
  | O => OutOfFuel
  | S f =>
      (* 825-847 *)
      let ncap := calc_buf_size (Z.max size 512) in
      let ncap := if size =? requireSize then ncap else requireSize in
      let ncap := if (0 <? capLimit) && (capLimit <? ncap) then capLimit else ncap in
      let n := Z.min requireSize ncap in
      if n <? 0 then Panic
      else
        let '(p, err, src') := read_src src n offset in
        match err with
        | RMust o z =>
            (* goto LOAD_CAP *)
            do (x, _) <- load_buf f srt src' b o z;
            load_new f srt (fst x) (snd x) offset size requireSize capLimit
        | _ =>
            let sl := gs_put (mkSlice (zeros n) (zeros (ncap - n))) 0 p in
            do sl <- (if 0 <? zlen p then gs_upto sl (zlen p) else Ok sl);
            Ok (set_rdiffs b (add_rdiff srt (b_rdiffs b) (mkDiff offset sl)), src', err)
        end
  end.

(** A buffer and the source behind it. *)
Definition sbuf := (base * source)%type.

(** base.go:433-452 [NewBaseImplByIO] over a reader, with room for [cap] bytes *)
Definition open_io (src : source) (cap : Z) : sbuf :=
  (mkBase (gs_make 0 cap) nil nil true 0, src).

(** base.go:613-655 [readerR] of a buffer that has no parent *)
Definition reader_r (fuel : nat) (srt : list diff -> list diff) (x : sbuf) (off req : Z)
  : res (sbuf * option gslice) :=
  let '(b, src) := x in
  match last_index (rcovers off req) (b_rdiffs b) with
  | Some n =>
      match nth_error (b_rdiffs b) n with
      | Some d => do s <- gs_from (d_sl d) (off - d_off d); Ok (x, Some s)
      | None => Panic
      end
  | None =>
      if gs_len (b_bytes b) <? off + req
      then
        do (bs, err) <- load_buf fuel srt src b off req;
        let b := fst bs in
        if off + Z.max 1 req <=? gs_len (b_bytes b)
        then do s <- gs_from (b_bytes b) off; Ok (bs, Some s)
        else if is_none err
        then
          match last_index (covers off) (b_rdiffs b) with
          | Some n =>
              match nth_error (b_rdiffs b) n with
              | Some d => do s <- gs_from (d_sl d) (off - d_off d); Ok (bs, Some s)
              | None => Panic
              end
          | None => Panic
          end
        else Ok (bs, None)
      else do s <- gs_from (b_bytes b) off; Ok (x, Some s)
  end.

(** base.go:548-555 [R] *)
Definition stream_r (fuel : nat) (srt : list diff -> list diff) (x : sbuf) (off req : Z)
  : res (sbuf * option gslice) :=
  do s <- writer_r (fst x) off;
  if opt_len s =? 0 then reader_r fuel srt x off req else Ok (x, s).

(** base.go:517-540 [Next] of a buffer that has no parent: the buffer
    afterwards and the bytes of the new one *)
Definition next_buf (b : base) (skip : Z) : res (base * gslice) :=
  if skip <? gs_len (b_bytes b)
  then do s <- gs_upto (b_bytes b) 0; Ok (b, s)
  else
    do s <- gs_upto (b_bytes b) skip;
    do t <- gs_from s skip;
    do bs <- (if skip <? gs_cap (b_bytes b) then gs_upto (b_bytes b) skip else Ok (b_bytes b));
    Ok (set_bytes b bs, t).

(** A chain of buffers made by [Next], newest first, each with its
    [offFromOrig] (base.go:436-442, 522: the reader of the new buffer starts from
    the value of the previous one). *)
Definition next_off (offs : list Z) (skip : Z) : Z :=
  match offs with nil => skip | o :: _ => o + skip end.

(** base.go:613-617: [readerR] hands the request to the parent, adding
    [offFromOrig], at every level. *)
Definition chain_r (fuel : nat) (srt : list diff -> list diff) (root : sbuf) (offs : list Z)
    (own : base) (off req : Z) : res (sbuf * option gslice) :=
  do s <- writer_r own off;
  if opt_len s =? 0
  then reader_r fuel srt root (fold_left Z.add offs off) req
  else Ok (root, s).
