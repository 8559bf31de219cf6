(** What a schema says to the generic reader, stated on the declarations the
    generator works from. *)
From Coq Require Import ZArith List Bool String.
From Verif Require Import GoLib TableModel NameModel NameSpec ParserModel ParserSpec GenModel GenSpec WalkSpec.
Import ListNotations.
Open Scope string_scope.
Open Scope list_scope.

Section Types.
Variable ss : list struct_info.
Variable us : list union_info.

(** The struct called [name] has the members [ms], all of them scalars of a type
    the package knows. *)
Definition struct_members (name : string) (ms : list scalar) : Prop :=
  exists i, In i ss /\ si_table i = false /\ si_name i = name /\ ms <> [] /\
    Forall2 (fun f t => snd f = scalar_name t false /\ t <> SUint8) (si_fields i) ms.

(** What a Go type stands for.  Vectors of strings, vectors of unions and
    unsigned bytes are missing: the reader has no type for the first two and the
    package does not know the last. *)
Inductive go_type : string -> ty -> Prop :=
| GT_scalar : forall t, t <> SUint8 -> go_type (scalar_name t false) (TyScalar t)
| GT_scalars : forall t, t <> SUint8 -> go_type ("[]" ++ scalar_name t false) (TyScalars t)
| GT_struct : forall sn ms, struct_members sn ms -> go_type sn (TyStruct sn ms)
| GT_structs : forall sn ms, struct_members sn ms -> go_type ("[]" ++ sn) (TyStructs sn ms)
| GT_table : forall i, In i ss -> si_table i = true -> go_type (si_name i) (TyTable (si_name i))
| GT_tables : forall i, In i ss -> si_table i = true -> go_type ("[]" ++ si_name i) (TyTables (si_name i))
| GT_union : forall u, In u us -> (zlen (ui_aliases u) < 256)%Z ->
    go_type (ui_name u) (TyUnion (map first_upper (ui_aliases u))).
End Types.

(** Every table of [s] is declared in [b], with slots of these types. *)
Definition schema_of (b : fbs) (s : schema) : Prop :=
  forall name tys, s name = Some tys ->
    exists i, In i (f_structs b) /\ si_table i = true /\ si_name i = name /\ tys <> [] /\
      Forall2 (fun f t => go_type (f_structs b) (f_unions b) (snd f) t) (si_fields i) tys.

(** The tables of names after the package made of [files] is initialized and
    [Base.NodeName] requests are applied. *)
Definition package_names (files : list directive) (n : names) : Prop :=
  exists n0, run_steps no_names (flat_map init_of files) = Ok n0 /\ apply_requests n0 = Ok n.
