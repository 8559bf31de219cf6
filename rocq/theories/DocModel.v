(** [SetFieldAt] (query/base/common.go:1137-1243), [SetAt] (query/base/list.go:886-904)
    and [SwapAt] (list.go:957-1002) called one after the other on the same root
    buffer.  Each call gets a new node at the position of its table; the ones on
    vectors get the vector with [FieldAt] (common.go:846-906) first.  The buffer is
    not flattened between the calls. *)
From Coq Require Import ZArith List Bool String.
From Verif Require Import GoLib BaseModel TableModel NameModel StreamModel WalkModel BuildModel InsModel PutModel ElemModel SortModel.
Import ListNotations.
Open Scope list_scope.
Open Scope Z_scope.

(** One call: name, position and field of the table, and the arguments *)
Inductive call :=
| Set_field (tn : string) (tp idx : Z) (fb : base) (f : cnode)
| Set_elem (tn : string) (tp idx j : Z) (eb : base) (e : cnode)
| Swap_elems (tn : string) (tp idx i j : Z).

Section Doc.
Variable n : names.
Variable fuel : nat.

(** The buffer afterwards; a caller does not go on after an error. *)
Definition run_call (b : base) (c : call) : res base :=
  match c with
  | Set_field tn tp idx fb f =>
      do r <- put_field n fuel b (new_node n (Some (tp, -1)) no_vinfo tn) idx fb f;
      match r with Put_ok b' _ => Ok b' | Put_error => Panic end
  | Set_elem tn tp idx j eb e =>
      do f <- field_at n b (new_node n (Some (tp, -1)) no_vinfo tn) idx;
      do r <- set_elem n fuel b f j eb e;
      match r with Put_ok b' _ => Ok b' | Put_error => Panic end
  | Swap_elems tn tp idx i j =>
      do f <- field_at n b (new_node n (Some (tp, -1)) no_vinfo tn) idx;
      do (b', ok) <- swap_elem n b f i j;
      if (ok : bool) then Ok b' else Panic
  end.

Fixpoint run_calls (b : base) (cs : list call) : res base :=
  match cs with
  | [] => Ok b
  | c :: cs' => do b' <- run_call b c; run_calls b' cs'
  end.

End Doc.
