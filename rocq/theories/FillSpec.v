(** Which values can be read in one piece from a buffer with a journal. *)
From Coq Require Import ZArith List Bool String.
From Verif Require Import GoLib BaseModel BaseSpec TableModel TableSpec NameModel NameSpec WalkModel WalkSpec InsSpec PutSpec JourSpec DocSpec.
From Verif Require Import UnmarshalModel UnmarshalSpec.
Import ListNotations.
Open Scope list_scope.
Open Scope Z_scope.

(** The bytes of a number or of a vector of numbers come from one place. *)
Definition reached (b : base) (v : val) : Prop :=
  match v with
  | Scalar q w => held b q w
  | Scalars q k w => k = 0 \/ held b q (k * w)
  | _ => True
  end.

(** So do those of the value that has the tag of the Go field [f]. *)
Definition in_reach (b : base) (vs : list val) (l : list string) (f : gfield) : Prop :=
  forall i v, names_field l f i -> zget vs i = Some v -> reached b v.

(** Nothing but whole values was put over the value after the calls [ts] on [b]. *)
Definition reached_after (b : base) (ts : list trace) (v : val) : Prop :=
  match v with
  | Scalar q w => left_whole b ts q w
  | Scalars q k w => k = 0 \/ left_whole b ts q (k * w)
  | _ => True
  end.

Definition in_reach_after (b : base) (ts : list trace) (vs : list val) (l : list string) (f : gfield) : Prop :=
  forall i v, names_field l f i -> zget vs i = Some v -> reached_after b ts v.
