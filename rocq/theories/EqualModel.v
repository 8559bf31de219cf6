(** Model of the comparison of nodes (query/base/common.go:1317-1382), on the
    generic reader of [WalkModel].  The two nodes may be of different buffers;
    both use the name tables of the process.  Logging is omitted.  Recursion
    over the buffers is by fuel. *)
From Coq Require Import ZArith List Bool String.
From Coq Require Import Strings.Byte.
From Verif Require Import GoLib BaseModel TableModel NameModel VariantModel WalkModel.
Import ListNotations.
Open Scope list_scope.
Open Scope Z_scope.

(** A loop that returns false as soon as its body does. *)
Fixpoint each (f : Z -> res bool) (l : list Z) : res bool :=
  match l with
  | [] => Ok true
  | i :: l' => do r <- f i; if r : bool then each f l' else Ok false
  end.

(** [R(pos, Size(size))[:size]]; slicing nil panics *)
Definition read_exactly (b : base) (pos size : Z) : res (list byte) :=
  do s <- base_r b pos size;
  match s with
  | None => if size =? 0 then Ok [] else Panic
  | Some s => do t <- gs_upto s size; Ok (sl_data t)
  end.

Section Equal.
Variable n : names.
Variable b1 b2 : base.

(** common.go:1358-1379: the two fields as scalars.  A nil [Node] panics. *)
Definition equal_scalar (size : Z) (f1 f2 : cnode) : res bool :=
  match c_node f1 with
  | None => Panic
  | Some (p1, _) =>
      do s1 <- base_r b1 p1 0;
      if opt_len s1 <? size then Ok false
      else match c_node f2 with
      | None => Panic
      | Some (p2, _) =>
          do s2 <- base_r b2 p2 0;
          if opt_len s2 <? size then Ok false
          else
            do l1 <- read_exactly b1 p1 size;
            do l2 <- read_exactly b2 p2 size;
            Ok (list_eqb l1 l2)
      end
  end.

(** common.go:1342-1380, one field; [go] is [Equal] *)
Definition equal_field (go : option cnode -> option cnode -> res bool) (c1 c2 : cnode) (i : Z)
  : res bool :=
  let g := group_at c1 i in
  if negb (g =? group_at c2 i) then Ok false
  else if is_field_union g then
    do u1 <- follow_union n b1 c1 i; do u2 <- follow_union n b2 c2 i; go u1 u2
  else if negb (is_field_basic g) then
    do f1 <- field_at n b1 c1 i; do f2 <- field_at n b2 c2 i; go (Some f1) (Some f2)
  else
    do f1 <- field_at n b1 c1 i; do f2 <- field_at n b2 c2 i;
    equal_scalar (type_size c1 i) f1 f2.

(** common.go:1323-1335, one element *)
Definition equal_elem (go : option cnode -> option cnode -> res bool) (c1 c2 : cnode) (i : Z)
  : res bool :=
  do e1 <- vec_at n b1 c1 i;
  match e1 with
  | None => Ok false
  | Some e1 =>
      do e2 <- vec_at n b2 c2 i;
      match e2 with None => Ok false | Some e2 => go (Some e1) (Some e2) end
  end.

(** common.go:1317-1382 [Equal]; [None] is a nil node.  The second node is not
    touched when the first has nothing to compare. *)
Definition equal_step (go : option cnode -> option cnode -> res bool) (o1 o2 : option cnode)
  : res bool :=
  match o1 with
  | None => Panic
  | Some c1 =>
      if 0 <? v_pos (c_info c1)
      then each (fun i => match o2 with None => Panic | Some c2 => equal_elem go c1 c2 i end)
                (indexes (v_len (c_info c1)))
      else each (fun i => match o2 with None => Panic | Some c2 => equal_field go c1 c2 i end)
                (indexes (map_len (c_groups c1)))
  end.

Fixpoint node_equal (fuel : nat) (o1 o2 : option cnode) : res bool :=
  match fuel with
  | O => OutOfFuel
  | S f => equal_step (node_equal f) o1 o2
  end.

End Equal.
