(** Vocabulary for [DoubleLayer] over shared arrays. *)
From Coq Require Import ZArith List Bool.
From Coq Require Import Strings.Byte.
From Verif Require Import GoLib BaseModel BaseSpec HeapModel HeapSpec DblModel.
Import ListNotations.
Open Scope Z_scope.

(** The first entry, into which the others are merged, shares no byte with
    anything else of the buffer. *)
Definition own_first (b : hbase) : Prop :=
  match hb_diffs b with
  | [] => True
  | d :: l => apart (hd_sl d) (hb_bytes b) /\ Forall (fun e => apart (hd_sl d) (hd_sl e)) (l ++ hb_rdiffs b)
  end.

(** What one reads through [DoubleLayer] *)
Definition hd_shows (h : heap) (b : hbase) (m : image) : Prop :=
  forall i, 0 <= i -> exists h' b' s, hd_r h b i 1 = Ok (h', b', s) /\ hd_error (opt_data s) = m i.

Fixpoint run_doubles (h : heap) (b : hbase) (us : list (Z * list byte)) : res (heap * hbase) :=
  match us with
  | [] => Ok (h, b)
  | (off, p) :: us' => do (h', b') <- hd_u h b off (zlen p) p; run_doubles h' b' us'
  end.

(** The update writes something and stays inside what is there: in the visible bytes of the buffer
    or of its entry. *)
Definition stays (b : hbase) (u : Z * list byte) : Prop :=
  0 <= fst u /\ 1 <= zlen (snd u) /\
  (fst u + zlen (snd u) <= a_len (hb_bytes b) \/
   exists d, In d (hb_diffs b) /\ hd_off d <= fst u /\
     fst u + zlen (snd u) <= hd_off d + a_len (hd_sl d)).

(** The byte a reader is given at [i] *)
Definition shown_at (r : res (heap * hbase)) (i : Z) : res (option byte) :=
  do (h, b) <- r; do (x, s) <- hd_r h b i 1; Ok (hd_error (opt_data s)).
