(** What a search should find, stated on trees of stored values. *)
From Coq Require Import ZArith List Bool String.
From Verif Require Import GoLib TableModel NameModel WalkModel WalkSpec.
Import ListNotations.
Open Scope list_scope.
Open Scope Z_scope.

(** A table or one of its scalars and strings: the type of the table, -1 for the
    table itself or the index of the field, and where it is. *)
Definition find := (string * Z * vinfo)%type.

Section Finds.
Variable inside : bool.
Variable cond : vinfo -> bool.

Definition if_so (x : find) : list find := if cond (snd x) then [x] else [].

(** The tables, scalars and strings that satisfy the condition and all of whose
    owners satisfy it, every one before what it owns; those in vectors of tables
    only if [inside]. *)
Fixpoint finds (v : val) : list find :=
  match v with
  | Tab name p fs =>
      if cond (mkV p (reach v - p) 0)
      then (name, -1, mkV p (reach v - p) 0) ::
           List.concat ((fix go i fs := match fs with
                         | [] => []
                         | f :: fs' =>
                             match f with
                             | Scalar q w => if_so (name, i, mkV q w 0)
                             | Scalars q k w => if w =? 1 then if_so (name, i, mkV q k k) else []
                             | _ => finds f
                             end :: go (i + 1) fs'
                         end) 0 fs)
      else []
  | Tabs _ _ es => if inside then List.concat (map finds es) else []
  | _ => []
  end.

End Finds.

(** The condition of a search for something with a size, like one for what is at
    a position. *)
Definition sized (cond : vinfo -> bool) : Prop := forall i, cond i = true -> 0 < v_size i.

(** All of them. *)
Definition all : vinfo -> bool := fun _ => true.

Definition at_position (pos : Z) (i : vinfo) : bool := (v_pos i <=? pos) && (pos <? v_pos i + v_size i).

(** Scalars and strings are there and there are no structs. *)
Inductive searchable : val -> Prop :=
| Sr_no_table : forall tn, searchable (Absent (TyTable tn))
| Sr_no_struct : forall sn ms, searchable (Absent (TyStruct sn ms))
| Sr_no_union : forall us, searchable (Absent (TyUnion us))
| Sr_no_scalars : forall t, zwidth t <> 1 -> searchable (Absent (TyScalars t))
| Sr_no_structs : forall sn ms, searchable (Absent (TyStructs sn ms))
| Sr_no_tables : forall tn, searchable (Absent (TyTables tn))
| Sr_scalar : forall p w, searchable (Scalar p w)
| Sr_scalars : forall p k w, searchable (Scalars p k w)
| Sr_structs : forall p k ms, searchable (Structs p k ms)
| Sr_tab : forall name p fs, Forall searchable fs -> searchable (Tab name p fs)
| Sr_tabs : forall name p es, searchable (Tabs name p es).

(** There are no vectors of tables. *)
Inductive no_vectors : val -> Prop :=
| Nv_absent : forall t, no_vectors (Absent t)
| Nv_scalar : forall p w, no_vectors (Scalar p w)
| Nv_scalars : forall p k w, no_vectors (Scalars p k w)
| Nv_structs : forall p k ms, no_vectors (Structs p k ms)
| Nv_struct : forall p ms, no_vectors (Struct p ms)
| Nv_tab : forall name p fs, Forall no_vectors fs -> no_vectors (Tab name p fs).

(** No type is called like a vector. *)
Definition plain_names (n : names) : Prop := forall e, lookup (n_idxname n) ("[]" ++ e)%string = None.
