(** When reads through the journal give back the numbers that hold a stored
    value together, stated on journal entries, images and trees of stored values,
    without the functions of the model. *)
From Coq Require Import ZArith List Bool String.
From Coq Require Import Strings.Byte.
From Verif Require Import GoLib BaseModel BaseSpec TableModel TableSpec NameModel NameSpec WalkModel WalkSpec InsSpec PutSpec.
From Verif Require BuildSpec.
Import ListNotations.
Open Scope list_scope.
Open Scope Z_scope.

(** An entry that has no byte of the [k] bytes at [p]. *)
Definition beside (p k : Z) (d : diff) : Prop := d_off d + d_len d <= p \/ p + k <= d_off d.

(** The [k] bytes at [p] come from one place: from one journal entry, with no
    later one in the way, or from the bytes below the journal. *)
Definition held (b : base) (p k : Z) : Prop :=
  (exists l1 d l2, b_diffs b = l1 ++ d :: l2 /\ d_off d <= p /\ p + k <= d_off d + d_len d /\
     Forall (beside p k) l2) \/
  (p + k <= gs_len (b_bytes b) /\ Forall (beside p k) (b_diffs b)).

(** Position and width of the numbers of a value other than its data and its
    references: the offset to the vtable, the numbers in it, the lengths of
    vectors. *)
Fixpoint frame (m : image) (v : val) : list (Z * Z) :=
  match v with
  | Absent _ | Scalar _ _ | Struct _ _ => []
  | Scalars q _ _ | Structs q _ _ => [(q - 4, 4)]
  | Tab _ p fs =>
      (p, 4) :: (vtable_of m p, 2) :: (vtable_of m p + 2, 2) ::
      map (fun i => (vtable_of m p + 4 + 2 * Z.of_nat i, 2)) (seq 0 (List.length fs)) ++ flat_map (frame m) fs
  | Tabs _ q es => (q - 4, 4) :: flat_map (frame m) es
  end.

(** No journal entry cuts one of these numbers or a reference. *)
Definition intact (b : base) (m : image) (v : val) : Prop :=
  (forall a k, In (a, k) (frame m v) -> held b a k) /\
  (forall a t, In (a, t) (links m v) -> held b a 4).

(** ** Sequences of updates *)

(** The field [e_idx] of the table [e_table] at [e_pos], where [e_old] is stored,
    set to [e_bytes], which the node [e_node] in [e_base] gives. *)
Record edit := mkEdit {
  e_table : string; e_pos : Z; e_idx : Z; e_type : ty; e_old : val;
  e_base : base; e_node : cnode; e_bytes : list byte
}.

(** A number or struct of [v] that shares no byte with anything else. *)
Record editable (n : names) (s : schema) (m : image) (v : val) (e : edit) : Prop := {
  ed_field : exists fs tys, only_table v (Tab (e_table e) (e_pos e) fs) /\ s (e_table e) = Some tys /\
    zget tys (e_idx e) = Some (e_type e) /\ types_no_union tys (e_idx e) /\ zget fs (e_idx e) = Some (e_old e);
  ed_there : is_absent (e_old e) = false;
  ed_gives : BuildSpec.gives n s (e_table e) (e_idx e) (e_type e) (e_base e) (e_node e) (BuildSpec.Bytes (e_bytes e));
  ed_some : e_bytes e <> [];
  ed_parts : forall a k, In (a, k) (parts m (fill (e_pos e) (e_idx e) (Absent (e_type e)) v)) ->
    disjoint a k (val_pos (e_old e)) (zlen (e_bytes e));
  ed_links : forall a t, In (a, t) (links m v) -> disjoint a 4 (val_pos (e_old e)) (zlen (e_bytes e))
}.

(** The image with the new bytes of all updates, one after the other. *)
Definition written (m : image) (es : list edit) : image :=
  fold_left (fun m e => img_write m (val_pos (e_old e)) (e_bytes e)) es m.
