(** Model of the search for stored values (query/base/common.go:154-191,
    list.go:435-472), for nodes of a buffer in memory as in [WalkModel].  The
    condition function is a function of the [Info] it is given: the position is
    handed through unchanged, so it is part of the function.  The list has the
    calls of the callback in order. *)
From Coq Require Import ZArith List Bool String.
From Verif Require Import GoLib BaseModel TableModel NameModel StreamModel WalkModel.
Import ListNotations.
Open Scope list_scope.
Open Scope Z_scope.

(** One call of the callback: [NodePath] and [Info] *)
Definition call := (string * Z * vinfo)%type.

Section Search.
Variable n : names.
Variable b : base.
Variable cond : vinfo -> bool.

(** list.go:436-472 [SearchInfoSlice].  [*CommonNode] is a [Searcher], so the
    part after [NO_NODE] is never reached. *)
Definition search_slice (info : cnode -> res vinfo) (go : cnode -> res (list call)) (c : cnode)
    : res (list call) :=
  do i <- info c;
  if cond i then
    do es <- vec_all n b c;
    do rs <- collect go es;
    Ok ((c_name c, -1, i) :: List.concat rs)
  else Ok [].

(** common.go:165-188, the body of the loop; [SearchInfo] on nil panics *)
Definition search_field (info : cnode -> res vinfo) (go : cnode -> res (list call)) (c : cnode) (i : Z)
    : res (list call) :=
  let g := group_at c i in
  if is_leaf_at c i then
    do v <- value_info n b info c i;
    Ok (if cond v then [(c_name c, i, v)] else [])
  else if is_match_bit g FieldTypeStruct then do f <- field_at n b c i; go f
  else
    do follow <- (if is_match_bit g FieldTypeUnion then can_follow n b c i else Ok false);
    if follow then
      do u <- follow_union n b c i;
      match u with None => Panic | Some u => go u end
    else if is_match_bit g FieldTypeSlice then do f <- field_at n b c i; search_slice info go f
    else if is_match_bit g FieldTypeTable then do f <- field_at n b c i; go f
    else Ok [].

(** common.go:156-191 [SearchInfo] *)
Fixpoint search (fuel : nat) (c : cnode) : res (list call) :=
  match fuel with
  | O => OutOfFuel
  | S f =>
      do i <- node_info n b f c;
      if cond i then
        do rs <- collect (search_field (node_info n b f) (search f) c) (indexes (map_len (c_groups c)));
        Ok ((c_name c, -1, i) :: List.concat rs)
      else Ok []
  end.

End Search.
