(** Vocabulary for buffers over shared arrays. *)
From Coq Require Import ZArith List Bool.
From Coq Require Import Strings.Byte.
From Verif Require Import GoLib BaseModel BaseSpec HeapModel.
Import ListNotations.
Open Scope Z_scope.

(** The window lies inside its array. *)
Definition wf_sl (h : heap) (s : hsl) : Prop :=
  0 <= a_off s /\ 0 <= a_len s <= a_cap s /\ a_off s + a_cap s <= zlen (array h s).

Definition wf (h : heap) (b : hbase) : Prop :=
  wf_sl h (hb_bytes b) /\ Forall (fun d => wf_sl h (hd_sl d)) (hb_diffs b) /\
  Forall (fun d => wf_sl h (hd_sl d)) (hb_rdiffs b).

(** The slices a buffer holds. *)
Definition slices (b : hbase) : list hsl :=
  hb_bytes b :: map hd_sl (hb_diffs b) ++ map hd_sl (hb_rdiffs b).

(** A buffer holds a slice of array [a] (empty windows do not count). *)
Definition holds (b : hbase) (a : nat) : Prop :=
  exists s, In s (slices b) /\ a_id s = a /\ 0 < a_cap s.

(** No array is held by both. *)
Definition disjoint_buffers (b c : hbase) : Prop := forall a, holds b a -> holds c a -> False.

(** Changes to one buffer: those of [BaseImpl], and the in-place update of
    [NoLayer]. *)
Inductive hop :=
| HWriteAt (off : Z) (p : list byte)
| HU (off size : Z) (p : list byte)
| HFlatten
| HInsert (pos size : Z) (create : bool)
| HNoLayerU (off size : Z) (p : list byte).

Definition run_hop (h : heap) (b : hbase) (o : hop) : res (heap * hbase) :=
  match o with
  | HWriteAt off p => Ok (hb_write_at h b p off)
  | HU off size p => hb_u h b off size p
  | HFlatten => hb_flatten h b
  | HInsert pos size create => hb_insert_space h b pos size create
  | HNoLayerU off size p => hn_u h b off size p
  end.

Fixpoint run_hops (h : heap) (b : hbase) (os : list hop) : res (heap * hbase) :=
  match os with
  | nil => Ok (h, b)
  | o :: os' => do (h', b') <- run_hop h b o; run_hops h' b' os'
  end.

Definition default_op (o : hop) : Prop :=
  match o with HNoLayerU _ _ _ => False | _ => True end.

(** Any interleaving of changes to two buffers; [true] is for the first. *)
Fixpoint run_pair (h : heap) (b c : hbase) (os : list (bool * hop)) : res (heap * hbase * hbase) :=
  match os with
  | nil => Ok (h, b, c)
  | (true, o) :: os' => do (h', b') <- run_hop h b o; run_pair h' b' c os'
  | (false, o) :: os' => do (h', c') <- run_hop h c o; run_pair h' b c' os'
  end.

(** The same change on the model by value. *)
Definition value_op (b : base) (o : hop) : res base :=
  match o with
  | HWriteAt off p => Ok (fst (write_at b p off))
  | HU off size p => base_u b off size p
  | HFlatten => base_flatten b
  | HInsert pos size create => insert_space b pos size create
  | HNoLayerU _ _ _ => Panic
  end.

(** ** NoLayer *)

(** Two windows share no byte. *)
Definition apart (s t : hsl) : Prop :=
  a_id s <> a_id t \/ a_off s + a_cap s <= a_off t \/ a_off t + a_cap t <= a_off s.

(** No two of the buffer's windows share bytes, no two entries, counted with
    their capacity, overlap in the positions they stand for, nor does an entry
    overlap the bytes. *)
Definition tidy (b : hbase) : Prop :=
  (forall d, In d (hb_diffs b) -> apart (hb_bytes b) (hd_sl d) /\ a_cap (hb_bytes b) <= hd_off d) /\
  (forall l1 d l2 e l3, hb_diffs b = l1 ++ d :: l2 ++ e :: l3 ->
     apart (hd_sl d) (hd_sl e) /\
     (hd_off d + a_cap (hd_sl d) <= hd_off e \/ hd_off e + a_cap (hd_sl e) <= hd_off d)).

(** The update neither starts in the spare room of an entry or of the bytes,
    nor runs out of the entry it starts in. *)
Definition roomy (b : hbase) (off size : Z) : Prop :=
  (forall d, In d (hb_diffs b) -> hd_off d < off < hd_off d + a_cap (hd_sl d) ->
     off + size <= hd_off d + a_len (hd_sl d)) /\
  (off <= a_len (hb_bytes b) \/ a_cap (hb_bytes b) < off + size).

(** A buffer without a journal. *)
Definition hplain (b : hbase) : Prop := hb_diffs b = nil /\ hb_rdiffs b = nil.

(** A buffer on nothing. *)
Definition hempty : hbase := mkHbase nil_hsl nil nil true 0.

(** Updates that each start at most at the end of the bytes ([len] of them so
    far) and fit in the capacity. *)
Fixpoint fits (len cap : Z) (us : list (Z * list byte)) : Prop :=
  match us with
  | nil => True
  | (off, p) :: us' =>
      0 <= off <= len /\ off + zlen p <= cap /\ fits (Z.max len (off + zlen p)) cap us'
  end.

Definition updates (us : list (Z * list byte)) : list hop :=
  map (fun u => HNoLayerU (fst u) (zlen (snd u)) (snd u)) us.

Definition img_writes (m : image) (us : list (Z * list byte)) : image :=
  fold_left (fun m u => img_write m (fst u) (snd u)) us m.
