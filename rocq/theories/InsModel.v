(** Model of [InsertSpace] and [InsertBuf] for a node of a buffer with a root
    (query/base/common.go:694-1018): the space is opened, the trees of
    the buffer as it was before are searched for references that cross the
    place, and these are increased.

    The goroutine of [FindTree] sends the trees in a fixed order and the
    receiver changes neither the buffer they were made from nor any position in
    them, so searching and moving are modelled one after the other.  The old and
    the new buffer share their bytes; writes of the new one go to its journal
    and cannot be seen through the old one, so values are enough here.  The
    list of dirty positions has no reader and is left out; logging is
    omitted. *)
From Coq Require Import ZArith List Bool String.
From Verif Require Import GoLib BaseModel TableModel NameModel StreamModel WalkModel.
Import ListNotations.
Open Scope list_scope.
Open Scope Z_scope.

(** [tree.Childs]: the trees whose parent is [j], in the order they were made *)
Definition children (ps : list (option Z)) (j : Z) : list Z :=
  flat_map (fun ip => match snd ip with
                      | Some k => if k =? j then [fst ip + 1] else []
                      | None => []
                      end)
    (combine (indexes (Z.of_nat (List.length ps))) ps).

(** common.go:816-825 [findtree] without its condition: every tree below [j]
    with its parent and its number among the parent's children (common.go:919-921).  A tree has one parent and the first one has none, so the
    depth is at most the number of trees. *)
Fixpoint below (fuel : nat) (ps : list (option Z)) (j : Z) : res (list (Z * Z * Z)) :=
  match fuel with
  | O => OutOfFuel
  | S f =>
      let cs := children ps j in
      do es <- collect (fun kc => let '(k, c) := kc in
                          do sub <- below f ps c; Ok ((j, k, c) :: sub))
                 (combine (indexes (Z.of_nat (List.length cs))) cs);
      Ok (List.concat es)
  end.

(** common.go:701-710 [Pos]: the start of a vector, else of the node; -1 without a node *)
Definition place (c : cnode) : Z :=
  if 0 <? v_pos (c_info c) then v_pos (c_info c)
  else match c_node c with Some (p, _) => p | None => -1 end.

Section Ins.
Variable n : names.

(** common.go:939-972 [movePosOnList] for a node that is a list *)
Definition move_pos_on_list (b : base) (c : cnode) (i size : Z) : res base :=
  if (v_len (c_info c) <=? i) || (i <? 0) then Ok b
  else
    do t <- str_from2 (c_name c);
    do g <- get_type_group n t;
    if is_field_basic g then Ok b
    else
      let ptr := v_pos (c_info c) + i * 4 in
      do off <- rd 4 b ptr;
      base_u b ptr 4 (le_encode 4 (u32 (off + size))).

(** common.go:974-1017 [movePos] *)
Definition move_node (b : base) (c : cnode) (idx pos size : Z) : res base :=
  do l <- is_list_name (c_name c) (v_len (c_info c));
  if l then move_pos_on_list b c idx size
  else if is_struct_name n (c_name c) then Ok b
  else
    let grp := group_at c idx in
    if is_field_union grp || is_field_table grp || is_field_slice grp || is_field_bytes grp
    then match c_node c with
         | None => Panic
         | Some (p, _) => do t <- move_pos (mkT b p) idx pos size; Ok (t_io t)
         end
    else Ok b.

Definition node_at (ts : list (option cnode)) (i : Z) : option cnode :=
  match zget ts i with Some t => t | None => None end.

(** One tree received from [FindTree] (common.go:901-928): the condition, the
    test for the node itself, the move. *)
Definition move_edge (c : cnode) (ts : list (option cnode)) (pos size : Z)
    (acc : res base) (e : Z * Z * Z) : res base :=
  do b <- acc;
  let '(j, k, i) := e in
  match node_at ts j, node_at ts i with
  | Some t, Some u =>
      match c_node t, c_node u with
      | Some (tp, _), Some _ =>
          if (place t <=? pos) && (pos <=? place u)
          then
            match c_node c with
            | None => Panic
            | Some (cp, _) =>
                if String.eqb (c_name t) (c_name c) && (tp =? cp) then Ok b
                else move_node b t k pos size
            end
          else Ok b
      | _, _ => Ok b
      end
  | _, _ => Panic
  end.

(** common.go:878-937 [InsertSpace]: the new buffer and the node afterwards *)
Definition moved_node (c : cnode) (pos size : Z) : res cnode :=
  do l <- is_list_name (c_name c) (v_len (c_info c));
  if l
  then Ok (if pos <? v_pos (c_info c)
           then mkC (c_node c)
                  (mkV (v_pos (c_info c) + size) (v_size (c_info c)) (v_len (c_info c)))
                  (c_name c) (c_types c) (c_groups c)
           else c)
  else
    match c_node c with
    | None => Panic
    | Some (p, z) =>
        Ok (if pos <? p
            then mkC (Some (p + size, z)) (c_info c) (c_name c) (c_types c) (c_groups c)
            else c)
    end.

Definition node_insert_space (fuel : nat) (b : base) (c : cnode) (pos size : Z) (isInsert : bool)
  : res (base * cnode) :=
  do nb <- insert_space b pos size isInsert;
  do np <- node_pos c;
  do r <- in_root b np;
  do nb' <-
    (if r
     then
       do root <- root_node n b (n_root n);
       do (ts, ps) <- all_tree n b fuel root;
       do es <- below (S (List.length ps)) ps 0;
       fold_left (move_edge c ts pos size) es (Ok nb)
     else Ok nb);
  do c' <- moved_node c pos size;
  Ok (nb', c').

(** common.go:872-875 [InsertBuf] *)
Definition node_insert_buf (fuel : nat) (b : base) (c : cnode) (pos size : Z) : res (base * cnode) :=
  node_insert_space fuel b c pos size true.

End Ins.
