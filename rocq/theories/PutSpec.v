(** What setting a field of a stored table should do to the stored values, stated
    on images and on trees of stored values, without the functions of the model. *)
From Coq Require Import ZArith List Bool String.
From Coq Require Import Strings.Byte.
From Verif Require Import GoLib BaseModel BaseSpec TableModel TableSpec NameModel NameSpec WalkModel WalkSpec InsSpec.
Import ListNotations.
Open Scope list_scope.
Open Scope Z_scope.

(** The list with [x] at position [i]. *)
Fixpoint set_nth {A} (i : Z) (x : A) (l : list A) : list A :=
  match l with
  | [] => []
  | y :: l' => (if i =? 0 then x else y) :: set_nth (i - 1) x l'
  end.

(** The value with [x] as field [idx] of the table at [tp]. *)
Fixpoint fill (tp idx : Z) (x : val) (v : val) : val :=
  match v with
  | Tab name p fs =>
      Tab name p (if p =? tp then set_nth idx x (map (fill tp idx x) fs) else map (fill tp idx x) fs)
  | Tabs name p es => Tabs name p (map (fill tp idx x) es)
  | _ => v
  end.

(** All tables in a value. *)
Fixpoint tables (v : val) : list val :=
  match v with
  | Tab _ _ fs => v :: flat_map tables fs
  | Tabs _ _ es => flat_map tables es
  | _ => []
  end.

(** [w] is a table of [v], and no other table begins where it does. *)
Definition only_table (v w : val) : Prop :=
  In w (tables v) /\ forall u, In u (tables v) -> val_pos u = val_pos w -> u = w.

(** Position and length of everything but references and the vtable of the table
    at [tp]. *)
Fixpoint besides (m : image) (tp : Z) (v : val) : list (Z * Z) :=
  match v with
  | Absent _ => []
  | Scalar p w => [(p, w)]
  | Struct p ms => [(p, struct_size ms)]
  | Scalars p k w => [(p - 4, 4 + k * w)]
  | Structs p k ms => [(p - 4, 4 + k * struct_size ms)]
  | Tab _ p fs =>
      (p, 4) :: (if p =? tp then [] else [(vtable_of m p, 4 + 2 * zlen fs)]) ++ flat_map (besides m tp) fs
  | Tabs _ p es => (p - 4, 4) :: flat_map (besides m tp) es
  end.

(** No other part of the value shares bytes with the vtable of the table at
    [tp]. *)
Definition sole_vtable (m : image) (tp k : Z) (v : val) : Prop :=
  forall a l, In (a, l) (besides m tp v) -> disjoint a l (vtable_of m tp) (4 + 2 * k).

(** The place where a new field of the table at [tp] goes: its end. *)
Definition table_end (m : image) (tp : Z) : Z := tp + num m (vtable_of m tp + 2) 2.

(** No union field after field [idx], whose type it could be. *)
Definition types_no_union (tys : list ty) (idx : Z) : Prop :=
  forall us, zget tys (idx + 1) <> Some (TyUnion us).

(** A number or struct of type [t] stored at [p]. *)
Definition inline_at (t : ty) (p : Z) : val :=
  match t with
  | TyScalar t => Scalar p (zwidth t)
  | TyStruct _ ms => Struct p ms
  | _ => Absent t
  end.

(** [x] is stored at [p]. *)
Definition bytes_at (m : image) (p : Z) (x : list byte) : Prop :=
  forall i, 0 <= i < zlen x -> m (p + i) = zget x i.

(** The value with all positions moved by [d]. *)
Fixpoint carried (d : Z) (v : val) : val :=
  match v with
  | Absent t => Absent t
  | Scalar p w => Scalar (p + d) w
  | Struct p ms => Struct (p + d) ms
  | Scalars p k w => Scalars (p + d) k w
  | Structs p k ms => Structs (p + d) k ms
  | Tab name p fs => Tab name (p + d) (map (carried d) fs)
  | Tabs name p es => Tabs name (p + d) (map (carried d) es)
  end.

(** Bytes of a vector before its elements, of a table that follows its vtable
    before the table. *)
Definition lead (v : val) : Z := match v with Tab _ _ fs => 4 + 2 * zlen fs | _ => 4 end.

(** The size of a vector has to stay; a table may become smaller. *)
Definition fits (old new : val) : Prop :=
  match new with
  | Tab _ q _ => reach new - q <= reach old - val_pos old
  | _ => reach new - val_pos new = reach old - val_pos old
  end.

(** The size the node itself claims is none or the right one. *)
Definition claims (f : cnode) (v : val) : Prop :=
  forall q z, c_node f = Some (q, z) -> z <= 0 \/ z = reach v - val_pos v.

(** ** The references the code finds *)

Section Met.
Variable s : schema.
Variable own : string * Z.
Variable pos : Z.

(** As [found], but the references of the table [own] itself need not have all
    fields before them. *)
Inductive met : bool -> val -> Prop :=
| Mt_absent : forall u t, met u (Absent t)
| Mt_scalar : forall u p w, met u (Scalar p w)
| Mt_scalars : forall u p k w, met u (Scalars p k w)
| Mt_tab : forall u name p fs tys, s name = Some tys ->
    (forall i f, zget fs i = Some f -> p < pos <= val_pos f ->
       u = false /\ (own = (name, p) \/
       forall j g, 0 <= j < i -> zget fs j = Some g -> gap g = false)) ->
    (forall i tn q es, zget fs i = Some (Tabs tn q es) ->
       (exists e, In e es /\ q < pos <= val_pos e) -> own <> (("[]" ++ tn)%string, p)) ->
    (forall i f t, zget fs i = Some f -> zget tys i = Some t -> met (is_union t) f) ->
    met u (Tab name p fs)
| Mt_tabs : forall u name q es, (forall e, In e es -> met false e) -> met u (Tabs name q es).

End Met.
