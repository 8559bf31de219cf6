(** Specification for the concurrent parts: depth-first order of a tree, and
    the texts of a sequence of dumps. *)
From Coq Require Import ZArith List Bool.
From Verif Require Import GoLib ConcModel.
Import ListNotations.

(** Depth-first order, a node before its children. *)
Fixpoint preorder {A} (t : tree A) : list (tree A) :=
  match t with Tree _ l => t :: flat_map preorder l end.

(** The nodes below the root. *)
Definition descendants {A} (t : tree A) : list (tree A) :=
  match t with Tree _ l => flat_map preorder l end.

(** Each entry's text depends on the entry before it. *)
Fixpoint texts {E T} (render : option E -> E -> T) (prev : option E) (es : list E) : list T :=
  match es with
  | [] => []
  | e :: es' => render prev e :: texts render (Some e) es'
  end.

(** Dumps, some before streaming starts, and the end. *)
Definition session {E} (pre post : list E) : list (hop E) :=
  map HDump pre ++ HStream :: map HDump post ++ [HFinish].

Definition prefix_of {A} (l l' : list A) : Prop := exists r, l' = l ++ r.

(** The owner has run its script and the channel is closed. *)
Definition finished {E T} (s : hst E T) : Prop :=
  hs_ops s = [] /\ hs_phase s = HIdle /\ hs_closed s = true.
