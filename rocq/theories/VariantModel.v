(** Model of the buffer variants of query/base/directreader.go as far as they
    can be described with slices by value: [DirectReader.R], [NoLayer.R],
    [Diff.Merge], [DoubleLayer.mergeDiffs] and [DoubleLayer.R], and of
    [calcBufSize], [shrink], [Equal] and [BufInfo] (query/base/base.go).  The
    in-place updates of [NoLayer] are in [HeapModel.v]. *)
From Coq Require Import ZArith List Bool.
From Coq Require Import Strings.Byte.
From Verif Require Import GoLib BaseModel.
Import ListNotations.
Open Scope Z_scope.

(** base.go:760-772; Go's division truncates towards zero *)
Definition calc_buf_size (req : Z) : Z :=
  let i := Z.quot req 4096 in
  let i := if Z.rem i 4096 =? 0 then i else i + 1 in
  let i := if i =? 0 then i + 1 else i in
  i * 4096.

(** directreader.go:102-114 [NoLayer.R] *)
Definition nl_covers (off req : Z) (d : diff) : bool :=
  (d_off d <=? off) && (off + Z.min 1 req <=? d_off d + d_len d).

Definition nl_r (b : base) (off req : Z) : res (option gslice) :=
  match last_index (nl_covers off req) (b_diffs b) with
  | Some sn =>
      match nth_error (b_diffs b) sn with
      | Some d => do s <- gs_from (d_sl d) (off - d_off d); Ok (Some s)
      | None => Panic
      end
  | None => base_r b off req
  end.

(** An [io.ReaderAt] over fixed bytes (bytes.Reader, os.File): the bytes
    delivered for a request and whether an error is reported with them. *)
Definition stream_read_at (str : list byte) (n off : Z) : list byte * bool :=
  if off <? 0 then (nil, true)
  else let p := zfirst n (zskip off str) in (p, zlen p <? n).

(** directreader.go:25-42 [DirectReader.R] over a [BaseImpl].  [None] is nil.
    The slice read from the stream keeps the capacity of 128. *)
Definition dr_r (b : base) (str : list byte) (off req : Z) : res (option gslice) :=
  if off <? len_buf b then base_r b off req
  else
    let '(p, err) := stream_read_at str 128 (off - len_buf b) in
    if err && (zlen p =? 0) then Ok None
    else Ok (Some (mkSlice p (zeros (128 - zlen p)))).

Definition d_cap (d : diff) : Z := gs_cap (d_sl d).

(** [copy(s[a:], p)] *)
Definition gs_copy (s : gslice) (a : Z) (p : list byte) : res gslice :=
  if (0 <=? a) && (a <=? gs_len s)
  then Ok (mkSlice (copy_at (sl_data s) a p) (sl_spare s))
  else Panic.

(** base.go:268-305 [Diff.Merge]: the new value of [*d] *)
Definition diff_merge (d s : diff) : res diff :=
  let copy_case d :=
    do x <- gs_copy (d_sl d) (d_off s - d_off d) (d_data s); Ok (mkDiff (d_off d) x) in
  if inner d (d_off s) (d_len s) then copy_case d
  else if include d (d_off s) && (d_off s + d_len s <? d_off d + d_cap d) then copy_case d
  else
    let nlen := Z.max (d_off d + d_len d) (d_off s + d_len s) - Z.min (d_off d) (d_off s) in
    let nbytes := gs_make nlen (nlen * 2) in
    if include d (d_off s)
    then do nb <- gs_copy nbytes 0 (d_data d); copy_case (mkDiff (d_off d) nb)
    else if d_off s <? d_off d
    then
      do nb <- gs_copy nbytes (d_off d - d_off s) (d_data d);
      do _ <- gs_copy nb 0 (d_data s);
      Ok (mkDiff (d_off s) (d_sl d))
    else
      do nb <- gs_copy nbytes 0 (d_data d);
      do nb <- gs_copy nb (d_off s - d_off d) (d_data s);
      Ok (mkDiff (d_off d) nb).

Fixpoint merge_list (d : diff) (l : list diff) : res diff :=
  match l with
  | nil => Ok d
  | s :: l' => do d' <- diff_merge d s; merge_list d' l'
  end.

(** directreader.go:213-227 [DoubleLayer.mergeDiffs] *)
Definition dl_merge (b : base) : res base :=
  match b_diffs b with
  | d :: (_ :: _) as rest0 =>
      do d1 <- merge_list d (b_rdiffs b);
      do d2 <- merge_list d1 (tl (b_diffs b));
      Ok (set_diffs b (d2 :: tl (b_diffs b)))
  | _ => Ok b
  end.

(** directreader.go:291-296 [DoubleLayer.R]: the buffer afterwards and the
    slice *)
Definition dl_r (b : base) (off req : Z) : res (base * option gslice) :=
  do b' <- dl_merge b;
  do s <- nl_r b' off req;
  Ok (b', s).

(** base.go:1090-1115 [Equal] *)
Fixpoint list_eqb (l l' : list byte) : bool :=
  match l, l' with
  | nil, nil => true
  | x :: l, y :: l' => Byte.eqb x y && list_eqb l l'
  | _, _ => false
  end.

Fixpoint diffs_eqb (l l' : list diff) : bool :=
  match l, l' with
  | nil, nil => true
  | d :: l, e :: l' => (d_off d =? d_off e) && list_eqb (d_data d) (d_data e) && diffs_eqb l l'
  | _, _ => false
  end.

Definition base_equal (b c : base) : bool :=
  list_eqb (sl_data (b_bytes b)) (sl_data (b_bytes c)) && diffs_eqb (b_diffs b) (b_diffs c).

(** base.go:1000-1014 [BufInfo]: length and capacity of the bytes, then of
    the bytes with the journal *)
Definition buf_info (b : base) : (Z * Z) * (Z * Z) :=
  ((gs_len (b_bytes b), gs_cap (b_bytes b)),
   fold_left (fun lc d =>
       let l := if fst lc <? d_len d + d_off d then d_off d + d_len d else fst lc in
       let c := if snd lc <? d_cap d + d_off d then d_off d + d_cap d else snd lc in
       (l, c)) (b_diffs b) (gs_len (b_bytes b), gs_cap (b_bytes b))).

(** base.go:1117-1157 [shrink] *)
Definition shrink_keep (start size : Z) (d : diff) : bool :=
  include d start || include d (start + size) || innerd d start size.

Definition shrink_one (start size : Z) (d : diff) : res diff :=
  let off := d_off d - start in
  do (off, s) <- (if off <? 0
                  then do s <- gs_from (d_sl d) (- off); Ok (0, s)
                  else Ok (off, d_sl d));
  if start + size <? off + gs_len s
  then do s' <- gs_upto s (start + size - off); Ok (mkDiff off s')
  else Ok (mkDiff off s).

Fixpoint shrink_all (start size : Z) (ds : list diff) : res (list diff) :=
  match ds with
  | nil => Ok nil
  | d :: ds' => do d' <- shrink_one start size d;
                do r <- shrink_all start size ds'; Ok (d' :: r)
  end.

Definition base_shrink (b : base) (start size : Z) : res base :=
  do bs <- (if gs_len (b_bytes b) <? start then Ok (gs_of nil)
            else
              do s <- (if start + size <? gs_len (b_bytes b)
                       then gs_upto (b_bytes b) (start + size) else Ok (b_bytes b));
              if start <=? gs_len s then gs_from s start else Ok s);
  do ds <- shrink_all start size (filter (shrink_keep start size) (b_diffs b));
  Ok (mkBase bs (b_rdiffs b) ds (b_check b) (b_seek b)).
