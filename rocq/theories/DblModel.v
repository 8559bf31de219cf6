(** Model of [DoubleLayer] over shared arrays, as in [HeapModel.v]: merging the
    journal writes in place (query/base/base.go:268-305, directreader.go:209-223),
    reading and updating merge first (287-313).  [DoubleLayer.D] is not called by
    anything: [U] goes to [NoLayer.U] and from there to [NoLayer.D]. *)
From Coq Require Import ZArith List Bool.
From Coq Require Import Strings.Byte.
From Verif Require Import GoLib BaseModel VariantModel HeapModel.
Import ListNotations.
Open Scope Z_scope.

(** base.go:209-230 [Include] and [Inner] *)
Definition hinclude (d : hdiff) (pos : Z) : bool :=
  (hd_off d <=? pos) && (pos <? hd_off d + a_len (hd_sl d)).

Definition hinner (d : hdiff) (pos size : Z) : bool :=
  hinclude d pos && (pos + size <=? hd_off d + a_len (hd_sl d)).

(** [copy(s[a:], p)] *)
Definition h_copy (h : heap) (s : hsl) (a : Z) (p : list byte) : res heap :=
  do t <- hs_from s a; Ok (h_put h t p).

(** base.go:268-305 [Diff.Merge]: the arrays and the new value of [*d].  Without
    one of the two [goto COPY] the new array is only used in the last case and
    when [s] starts inside [d]. *)
Definition h_diff_merge (h : heap) (d s : hdiff) : res (heap * hdiff) :=
  let p := sl_data (view h (hd_sl s)) in
  let copy_case h d := do h' <- h_copy h (hd_sl d) (hd_off s - hd_off d) p; Ok (h', d) in
  let slen := a_len (hd_sl s) in
  if hinner d (hd_off s) slen then copy_case h d
  else if hinclude d (hd_off s) && (hd_off s + slen <? hd_off d + a_cap (hd_sl d)) then copy_case h d
  else
    let nlen := Z.max (hd_off d + a_len (hd_sl d)) (hd_off s + slen) - Z.min (hd_off d) (hd_off s) in
    let '(h1, nb) := h_new h (zeros (nlen * 2)) nlen in
    let q := sl_data (view h (hd_sl d)) in
    if hinclude d (hd_off s)
    then do h2 <- h_copy h1 nb 0 q; copy_case h2 (mkHdiff (hd_off d) nb)
    else if hd_off s <? hd_off d
    then
      do h2 <- h_copy h1 nb (hd_off d - hd_off s) q;
      do h3 <- h_copy h2 nb 0 p;
      Ok (h3, mkHdiff (hd_off s) (hd_sl d))
    else
      do h2 <- h_copy h1 nb 0 q;
      do h3 <- h_copy h2 nb (hd_off s - hd_off d) p;
      Ok (h3, mkHdiff (hd_off d) nb).

Fixpoint h_merge_list (h : heap) (d : hdiff) (l : list hdiff) : res (heap * hdiff) :=
  match l with
  | nil => Ok (h, d)
  | s :: l' => do (h', d') <- h_diff_merge h d s; h_merge_list h' d' l'
  end.

(** directreader.go:209-223 [mergeDiffs] *)
Definition hd_merge (h : heap) (b : hbase) : res (heap * hbase) :=
  match hb_diffs b with
  | d :: (_ :: _) as rest =>
      do (h1, d1) <- h_merge_list h d (hb_rdiffs b);
      do (h2, d2) <- h_merge_list h1 d1 (tl (hb_diffs b));
      Ok (h2, hset_diffs b (d2 :: tl (hb_diffs b)))
  | _ => Ok (h, b)
  end.

(** directreader.go:287-292 [DoubleLayer.R]: the arrays and the buffer
    afterwards, and the bytes *)
Definition hd_r (h : heap) (b : hbase) (off req : Z) : res (heap * hbase * option gslice) :=
  do (h', b') <- hd_merge h b;
  do s <- nl_r (view_base h' b') off req;
  Ok (h', b', s).

(** directreader.go:309-313 [DoubleLayer.U], then [p] written into the returned
    slice *)
Definition hd_u (h : heap) (b : hbase) (off size : Z) (p : list byte) : res (heap * hbase) :=
  do (h', b') <- hd_merge h b;
  hn_u h' b' off size p.
