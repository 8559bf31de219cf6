(** When two stored values are the same, stated on images and on trees of
    stored values, without the functions of the model. *)
From Coq Require Import ZArith List Bool String.
From Verif Require Import GoLib BaseModel BaseSpec TableModel NameModel NameSpec WalkModel WalkSpec.
Import ListNotations.
Open Scope list_scope.
Open Scope Z_scope.

Section Two.
Variable m1 m2 : image.

Definition same_bytes (p q k : Z) : Prop := forall i, 0 <= i < k -> m1 (p + i) = m2 (q + i).

(** The two values hold the same data, wherever they are stored.  Vectors are
    compared up to the length of the first one; [R] relates the lengths. *)
Inductive alike (R : Z -> Z -> Prop) : val -> val -> Prop :=
| Al_absent : forall t, alike R (Absent t) (Absent t)
| Al_scalar : forall p q w, same_bytes p q w -> alike R (Scalar p w) (Scalar q w)
| Al_struct : forall p q ms, same_bytes p q (struct_size ms) -> alike R (Struct p ms) (Struct q ms)
| Al_scalars : forall p q k k' w, R k k' -> same_bytes p q (k * w) ->
    alike R (Scalars p k w) (Scalars q k' w)
| Al_structs : forall p q k k' ms, R k k' -> same_bytes p q (k * struct_size ms) ->
    alike R (Structs p k ms) (Structs q k' ms)
| Al_tab : forall name p q fs gs, Forall2 (alike R) fs gs ->
    alike R (Tab name p fs) (Tab name q gs)
| Al_tabs : forall name p q es gs, R (zlen es) (zlen gs) ->
    Forall2 (alike R) es (firstn (List.length es) gs) ->
    alike R (Tabs name p es) (Tabs name q gs).

(** The same data. *)
Definition same_value : val -> val -> Prop := alike eq.

(** The same data, but for further elements at the end of vectors of the
    second. *)
Definition within : val -> val -> Prop := alike Z.le.

End Two.

(** Everything is there, and there are no vectors of scalars (strings are
    such). *)
Inductive full : val -> Prop :=
| Fu_scalar : forall p w, full (Scalar p w)
| Fu_struct : forall p ms, full (Struct p ms)
| Fu_structs : forall p k ms, full (Structs p k ms)
| Fu_tab : forall name p fs, Forall full fs -> full (Tab name p fs)
| Fu_tabs : forall name p es, Forall full es -> full (Tabs name p es).

(** How deep values are nested. *)
Fixpoint depth (v : val) : nat :=
  match v with
  | Absent _ | Scalar _ _ | Scalars _ _ _ => O
  | Struct _ _ => 1
  | Structs _ _ _ => 2
  | Tab _ _ fs => S (fold_right Nat.max O (map depth fs))
  | Tabs _ _ es => S (fold_right Nat.max O (map depth es))
  end.

(** The groups recorded for the members of structs are those of scalars. *)
Definition members_described (n : names) (s : schema) : Prop :=
  forall name tys i t, s name = Some tys -> zget tys i = Some t ->
  match t with
  | TyStruct sn ms | TyStructs sn ms =>
      forall j u, zget ms j = Some u -> exists g, group_of n sn j = Some g /\ says g [CBasic (width u)]
  | _ => True
  end.
