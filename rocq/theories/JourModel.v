(** [SetFieldAt] (query/base/common.go:1137-1243, [put_field]) called for several
    fields of the same buffer, each on a new node at the position of its table.
    The buffer is not flattened between the calls. *)
From Coq Require Import ZArith List Bool String.
From Coq Require Import Strings.Byte.
From Verif Require Import GoLib BaseModel TableModel NameModel StreamModel WalkModel BuildModel InsModel PutModel.
Import ListNotations.
Open Scope list_scope.
Open Scope Z_scope.

(** One call: table, position, index, and buffer and node of the new value *)
Definition call := (string * Z * Z * base * cnode)%type.

Fixpoint put_all (n : names) (fuel : nat) (b : base) (cs : list call) : res base :=
  match cs with
  | [] => Ok b
  | (tn, tp, idx, fb, f) :: cs' =>
      do r <- put_field n fuel b (new_node n (Some (tp, -1)) no_vinfo tn) idx fb f;
      match r with
      | Put_ok b' _ => put_all n fuel b' cs'
      | Put_error => Panic
      end
  end.
