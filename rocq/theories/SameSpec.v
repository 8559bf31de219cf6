(** Which bytes have to come from one place for two values to be compared. *)
From Coq Require Import ZArith List Bool String.
From Verif Require Import GoLib BaseModel BaseSpec TableModel TableSpec NameModel NameSpec WalkModel WalkSpec InsSpec PutSpec JourSpec DocSpec.
Import ListNotations.
Open Scope list_scope.
Open Scope Z_scope.

(** Position and width of the members of a struct at [p] *)
Fixpoint member_numbers (p : Z) (ms : list scalar) : list (Z * Z) :=
  match ms with
  | [] => []
  | t :: ms' => (p, zwidth t) :: member_numbers (p + zwidth t) ms'
  end.

(** Position and width of the numbers of a value that are not in vectors of
    numbers *)
Fixpoint numbers (v : val) : list (Z * Z) :=
  match v with
  | Absent _ | Scalars _ _ _ => []
  | Scalar q w => [(q, w)]
  | Struct p ms => member_numbers p ms
  | Structs q k ms => flat_map (fun j => member_numbers (q + Z.of_nat j * struct_size ms) ms) (seq 0 (Z.to_nat k))
  | Tab _ _ fs => flat_map numbers fs
  | Tabs _ _ es => flat_map numbers es
  end.

(** No journal entry cuts one of them. *)
Definition uncut (b : base) (v : val) : Prop := forall a k, In (a, k) (numbers v) -> held b a k.

(** Nothing but whole numbers was put over them by the calls [ts] on [b]. *)
Definition uncut_after (b : base) (ts : list trace) (v : val) : Prop :=
  forall a k, In (a, k) (numbers v) -> left_whole b ts a k.
