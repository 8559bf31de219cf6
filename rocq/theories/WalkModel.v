(** Model of the generic reader (query/base/common.go, node.go, list.go): field
    access by type group, sizes, unions, traversal and trees, for nodes of a
    buffer in memory, and of the root calls of template/genny/root.go that use
    them.

    The buffer and the name tables do not change during these calls, so they are
    parameters.  Logging is omitted.  The dirty list consulted by [FieldAt]
    (common.go:234, base.go:1016-1026) only shrinks and has no reader, so it is
    omitted as well.  Recursion over the buffer is by fuel; a cyclic buffer
    exhausts every fuel. *)
From Coq Require Import ZArith List Bool String.
From Verif Require Import GoLib BaseModel TableModel NameModel StreamModel.
Import ListNotations.
Open Scope list_scope.
Open Scope Z_scope.

(** node.go:26-33 [ValueInfo] and [Info] *)
Record vinfo := mkV { v_pos : Z; v_size : Z; v_len : Z }.
Definition no_vinfo : vinfo := mkV 0 0 0.

(** common.go:17-25 [CommonNode]: [c_node] has [Node.Pos] and [Node.Size], [None]
    for a nil [Node]; the [NodeList] of every node made here is not nil. *)
Record cnode := mkC {
  c_node : option (Z * Z);
  c_info : vinfo;
  c_name : string;
  c_types : list (Z * scalar);
  c_groups : list (Z * Z) }.

Definition indexes (n : Z) : list Z := map Z.of_nat (seq 0 (Z.to_nat n)).

(** [len] of a Go map *)
Definition map_len {A} (m : list (Z * A)) : Z :=
  Z.of_nat (List.length (nodup Z.eq_dec (map fst m))).

(** [IdxToTypeGroup[i]]; a missing entry is 0 *)
Definition group_at (c : cnode) (i : Z) : Z :=
  match lookupz (c_groups c) i with Some g => g | None => 0 end.

(** [TypeToSize[IdxToType[i]]]; a missing entry is 0, which is [TypeBool] *)
Definition type_size (c : cnode) (i : Z) : Z :=
  Z.of_nat (width (match lookupz (c_types c) i with Some t => t | None => SBool end)).

(** [TypeToSize[NameToTypeEnum(s)]] (util.go:102-132); -1 has no size *)
Definition name_size (s : string) : Z :=
  match lookup name_to_type s with Some t => Z.of_nat (width t) | None => 0 end.

Definition sum_sizes (l : list Z) : Z := fold_right Z.add 0 l.

(** The largest end seen so far, as a size from [pos] (common.go:54-58). *)
Definition grow (pos size : Z) (v : vinfo) : Z :=
  if pos + size <? v_pos v + v_size v then v_pos v + v_size v - pos else size.

Fixpoint collect {A B} (f : A -> res B) (l : list A) : res (list B) :=
  match l with
  | [] => Ok []
  | x :: l' => do y <- f x; do ys <- collect f l'; Ok (y :: ys)
  end.

Section Walk.
Variable n : names.
Variable b : base.

(** [IsStructName[name]] *)
Definition is_struct_name (s : string) : bool :=
  match lookup (n_structs n) s with Some x => x | None => false end.

(** common.go:303-308 [FetchIndex] *)
Definition fetch_index (c : cnode) : cnode :=
  match lookup (n_idxname n) (c_name c) with
  | Some _ => mkC (c_node c) (c_info c) (c_name c)
                (sub (n_types n) (c_name c)) (sub (n_groups n) (c_name c))
  | None => c
  end.

(** A node with nothing but a [NodeList] and a name, followed by
    [FetchIndex]. *)
Definition new_node (nd : option (Z * Z)) (i : vinfo) (name : string) : cnode :=
  fetch_index (mkC nd i name [] []).

(** [All_IdxToName[node.Name][idx]] *)
Definition field_type_name (c : cnode) (idx : Z) : string :=
  match lookupz (sub (n_idxname n) (c_name c)) idx with Some s => s | None => EmptyString end.

(** node.go:45-47 [NewNode] *)
Definition load_node (pos : Z) : res (Z * Z) :=
  do _ <- preload_vtable b pos; Ok (pos, -1).

(** node.go:114-130 [ValueInfoPosList] *)
Definition list_info (pos idx : Z) : res vinfo :=
  do r <- value_info_pos_list b pos idx;
  Ok (match r with Some (p, k) => mkV p 0 k | None => no_vinfo end).

(** common.go:232-300 [FieldAt] *)
Definition field_at (c : cnode) (idx : Z) : res cnode :=
  match c_node c with
  | None => Panic
  | Some (pos, _) =>
      let grp := group_at c idx in
      do (nd, i) <-
        (if is_struct_name (c_name c)
         then Ok (Some (pos + sum_sizes (map (type_size c)
                          (filter (fun i => i <? idx) (indexes (map_len (c_groups c))))), -1),
                  no_vinfo)
         else
           do z <- virtual_table_is_zero b pos idx;
           if z then Ok (None, no_vinfo)
           else if is_field_struct grp then
             do p <- virtual_table b pos idx; Ok (Some (p, -1), no_vinfo)
           else if is_field_union grp then
             do t <- table_ref b pos idx; do nd <- load_node t; Ok (Some nd, no_vinfo)
           else if is_field_bytes grp then
             do i <- list_info pos idx;
             Ok (Some (v_pos i, v_len i), mkV (v_pos i) (v_len i) (u32 (v_len i)))
           else if is_field_slice grp then
             do i <- list_info pos idx; do nd <- load_node pos; Ok (Some nd, i)
           else if is_field_table grp then
             do t <- table_ref b pos idx; do nd <- load_node t; Ok (Some nd, no_vinfo)
           else if is_field_basic grp then
             do p <- virtual_table b pos idx; Ok (Some (p, type_size c idx), no_vinfo)
           else Ok (None, no_vinfo));
      Ok (new_node nd i (field_type_name c idx))
  end.

(** node.go:207-213 [Byte]; also called on a nil [Node] *)
Definition node_byte (c : cnode) : res Z :=
  match c_node c with None => Ok 0 | Some (pos, _) => rd 1 b pos end.

(** common.go:133-136 [CanFollow] *)
Definition can_follow (c : cnode) (idx : Z) : res bool :=
  do f <- field_at c (idx - 1); do k <- node_byte f; Ok (0 <? k).

(** common.go:139-160 [FollowUnion]; [None] is nil.  The index is a byte, so 0
    becomes 255. *)
Definition follow_union (c : cnode) (idx : Z) : res (option cnode) :=
  do f <- field_at c (idx - 1);
  do k <- node_byte f;
  let alias := (k - 1) mod 256 in
  match zget (sub (n_unions n) (field_type_name c idx)) alias with
  | None => Ok None
  | Some name =>
      do u <- field_at c idx;
      Ok (Some (fetch_index (mkC (c_node u) (c_info u) name (c_types u) (c_groups u))))
  end.

(** ** Vectors *)

(** list.go:390-392 [VLen] *)
Definition vec_len (c : cnode) : res Z :=
  match c_node c with None => Panic | Some _ => rd 4 b (v_pos (c_info c) - 4) end.

(** Size of an inline element, [Info().Size] of the first one
    (common.go:39-53). *)
Definition inline_elem_size (e : cnode) : res Z :=
  do g <- get_type_group n (c_name e);
  if is_field_basic g then Ok (name_size (c_name e))
  else Ok (sum_sizes (map (type_size e) (indexes (map_len (c_groups e))))).

(** list.go:280-339 [At]; [None] is a returned error *)
Definition vec_at (c : cnode) (i : Z) : res (option cnode) :=
  do l <- is_list_name (c_name c) (v_len (c_info c));
  if negb l then Ok None
  else
    do k <- vec_len c;
    if (k <=? i) || (i <? 0) then Ok None
    else
      do t <- str_from2 (c_name c);
      do g <- get_type_group n t;
      if is_field_basic g || is_field_struct g
      then
        do size <- (if 0 <? i then inline_elem_size (new_node None no_vinfo t) else Ok 4);
        Ok (Some (new_node (Some (v_pos (c_info c) + i * size, -1)) no_vinfo t))
      else
        let ptr := v_pos (c_info c) + i * 4 in
        do off <- rd 4 b ptr;
        do s <- base_r b (ptr + off) 4;
        match s with
        | None => Ok None
        | Some _ => do nd <- load_node (ptr + off);
                    Ok (Some (new_node (Some nd) no_vinfo t))
        end.

(** list.go:347-352 [Last] *)
Definition vec_last (c : cnode) : res (option cnode) :=
  do k <- vec_len c; vec_at c (k - 1).

(** list.go:355-368, 383-385 [Select]/[All]; elements [At] refuses are left
    out.  [Count] (1065-1069) reads the length again. *)
Definition vec_all (c : cnode) : res (list cnode) :=
  do _ <- vec_len c;
  do es <- collect (vec_at c) (indexes (v_len (c_info c)));
  Ok (flat_map (fun e => match e with Some x => [x] | None => [] end) es).

(** ** Sizes *)

(** list.go:1233-1264 [indexOnMaxPos(true)] *)
Fixpoint max_index (info : cnode -> res vinfo) (es : list cnode) (i best pos : Z) : res Z :=
  match es with
  | [] => Ok best
  | e :: es' =>
      match c_node e with
      | None => Panic
      | Some (p, _) =>
          do v <- info e;
          if (i =? 0) || (pos <? p + v_size v)
          then max_index info es' (i + 1) i (p + v_size v)
          else max_index info es' (i + 1) best pos
      end
  end.

(** list.go:395-437 [InfoSlice].  The branch for elements that are themselves
    byte vectors (404-406) is never taken: their group also counts as basic.
    The element with the largest end is only looked up for a warning; its reads
    are kept because they can panic. *)
Definition info_slice (info : cnode -> res vinfo) (c : cnode) : res vinfo :=
  let pos := v_pos (c_info c) in
  do t <- str_from2 (c_name c);
  do g <- get_type_group n t;
  do v <- (if is_field_basic g
           then Ok (mkV pos (v_len (c_info c) * name_size t) 0)
           else
             do e <- vec_last c;
             do v <- match e with Some e => info e | None => Ok no_vinfo end;
             do es <- vec_all c;
             do m <- max_index info es 0 (-1) 0;
             do e2 <- vec_at c m;
             do _ <- match e2 with Some e => info e | None => Ok no_vinfo end;
             Ok v);
  do k <- vec_len c;
  let size := if k =? 0 then 0 else -1 in
  Ok (mkV pos (grow pos size v) k).

(** common.go:63-130 [ValueInfo]; a union whose type is not known is nil and
    [Info] on nil panics *)
Definition value_info (info : cnode -> res vinfo) (c : cnode) (idx : Z) : res vinfo :=
  match c_node c with
  | None => Panic
  | Some (pos, _) =>
      if is_struct_name (c_name c)
      then
        let '(p, s) := fold_left (fun ps i => (fst ps + snd ps, type_size c i))
                                 (indexes idx) (pos, 0) in
        Ok (mkV p s 0)
      else
        let grp := group_at c idx in
        if is_field_struct grp then
          do p <- virtual_table b pos idx;
          do f <- field_at c idx;
          do v <- info f;
          Ok (mkV p (v_size v) 0)
        else if is_field_union grp then
          do p <- table_ref b pos idx;
          do fl <- can_follow c idx;
          if fl then
            do u <- follow_union c idx;
            match u with
            | None => Panic
            | Some u => do v <- info u; Ok (mkV p (v_size v) 0)
            end
          else Ok (mkV p 0 0)
        else if is_field_bytes grp then
          do i <- list_info pos idx;
          do f <- field_at c idx;
          do v <- info_slice info f;
          Ok (mkV (v_pos i) (v_size v) (v_len i))
        else if is_field_slice grp then
          do i <- list_info pos idx;
          do f <- field_at c idx;
          match c_node f with
          | None => Ok i
          | Some _ => do v <- info_slice info f; Ok (mkV (v_pos i) (v_size v) (v_len i))
          end
        else if is_field_table grp then
          do p <- table_ref b pos idx;
          do f <- field_at c idx;
          do v <- info f;
          Ok (mkV p (v_size v) 0)
        else if is_field_basic grp then
          do p <- virtual_table b pos idx; Ok (mkV p (type_size c idx) 0)
        else Ok (mkV pos 0 0)
  end.

(** common.go:28-60 [Info] *)
Definition info_step (info : cnode -> res vinfo) (c : cnode) : res vinfo :=
  match c_node c with
  | None => Ok no_vinfo
  | Some (pos, _) =>
      do g <- get_type_group n (c_name c);
      if is_field_basic g then Ok (mkV pos (name_size (c_name c)) 0)
      else if is_struct_name (c_name c)
      then Ok (mkV pos (sum_sizes (map (type_size c) (indexes (map_len (c_groups c))))) 0)
      else
        do vs <- collect (value_info info c) (indexes (map_len (c_groups c)));
        Ok (mkV pos (fold_left (grow pos) vs (-1)) 0)
  end.

Fixpoint node_info (fuel : nat) (c : cnode) : res vinfo :=
  match fuel with
  | O => OutOfFuel
  | S f => info_step (node_info f) c
  end.

(** common.go:392-402 [Len] *)
Definition node_len (fuel : nat) (c : cnode) : res Z :=
  do v <- node_info fuel c;
  let size := v_pos v + v_size v in
  Ok (if Z.rem size 8 =? 0 then size else size + (8 - Z.rem size 8)).

(** ** Traversal *)

(** One call of the callback of [TraverseInfo]. *)
Record visit := mkVisit {
  x_node : cnode; x_idx : Z; x_parent : Z; x_child : Z; x_size : Z }.

(** common.go:198-226 [IsLeafAt] *)
Definition is_leaf_at (c : cnode) (i : Z) : bool :=
  let g := group_at c i in
  if is_field_struct g then false
  else if is_field_union g then false
  else if is_field_bytes g then true
  else if is_field_slice g then false
  else if is_field_table g then false
  else is_field_basic g.

Definition node_pos (c : cnode) : res Z :=
  match c_node c with None => Panic | Some (p, _) => Ok p end.

(** common.go:605-650 [TraverseInfo] and 653-686 [TraverseInfoSlice].  The
    condition function only filters calls of the callback; the visits are given
    for the condition that is always true.  [*CommonNode] is a [Searcher], so
    the part after [NO_NODE] is never reached. *)
Definition traverse_slice (go : cnode -> res (list visit)) (c : cnode) : res (list visit) :=
  do es <- vec_all c;
  do vs <- collect (fun ie => let '(i, e) := ie in
                      do p <- node_pos e;
                      do sub <- go e;
                      Ok (mkVisit c i (v_pos (c_info c)) p (-1) :: sub))
             (combine (indexes (Z.of_nat (List.length es))) es);
  Ok (List.concat vs).

Definition traverse_field (info : cnode -> res vinfo) (go : cnode -> res (list visit))
    (c : cnode) (i : Z) : res (list visit) :=
  let g := group_at c i in
  if is_leaf_at c i then
    do v <- value_info info c i;
    do p <- node_pos c;
    Ok [mkVisit c i p (v_pos v) (v_size v)]
  else
    do next <- (if negb (is_field_union g)
                then do f <- field_at c i; Ok (Some f)
                else follow_union c i);
    match next with
    | None => if is_field_slice g then Panic else Ok []
    | Some next =>
        if is_field_slice g then
          do p <- node_pos c;
          do sub <- traverse_slice go next;
          Ok (mkVisit c i p (v_pos (c_info next)) (-1) :: sub)
        else
          match c_node next with
          | None => Ok []
          | Some (q, _) =>
              do p <- node_pos c;
              do same <- (if is_field_union g || is_field_table g
                          then do x <- virtual_table b p i;
                               do y <- table_ref b p i; Ok (x =? y)
                          else Ok false);
              do sub <- (if same then Ok [] else go next);
              Ok (mkVisit c i p q (-1) :: sub)
          end
    end.

Fixpoint traverse (fuel : nat) (c : cnode) : res (list visit) :=
  match fuel with
  | O => OutOfFuel
  | S f =>
      do vs <- collect (traverse_field (node_info f) (traverse f) c)
                 (indexes (map_len (c_groups c)));
      Ok (List.concat vs)
  end.

(** ** Trees *)

(** common.go:752-764: the node of the tree made for a visit; [At] may refuse *)
Definition tree_node (x : visit) : res (option cnode) :=
  if 0 <? v_pos (c_info (x_node x))
  then vec_at (x_node x) (x_idx x)
  else do f <- field_at (x_node x) (x_idx x); Ok (Some f).

(** common.go:767-772: the first tree at the given position; a missing node
    panics when it is looked at *)
Fixpoint find_tree (ts : list (option cnode)) (j pos : Z) : res (option Z) :=
  match ts with
  | [] => Ok None
  | None :: _ => Panic
  | Some c :: ts' =>
      if (if 0 <? v_pos (c_info c) then v_pos (c_info c) =? pos
          else match c_node c with Some (p, _) => p =? pos | None => false end)
      then Ok (Some j)
      else find_tree ts' (j + 1) pos
  end.

(** common.go:713-785 [AllTree]: the nodes of all trees, the root first, and for
    every other one the index of its parent ([None] if none was found).  The
    children of a tree are in the order of this list. *)
Definition all_tree (fuel : nat) (c : cnode) : res (list (option cnode) * list (option Z)) :=
  do xs <- traverse fuel c;
  do ns <- collect tree_node xs;
  let ts := Some c :: ns in
  do ps <- collect (fun x => find_tree ts 0 (x_parent x)) xs;
  Ok (ts, ps).

(** ** Roots *)

(** The root node of the buffer with the given name, as [toRoot]
    (template/genny/root.go:67-75) and [root] (common.go:817-824) make it. *)
Definition root_node (name : string) : res cnode :=
  do p <- rd 4 b 0;
  do nd <- load_node p;
  Ok (new_node (Some nd) no_vinfo name).

(** template/genny/root.go:105-108 [HasNext] *)
Definition has_next (fuel : nat) (c : cnode) : res bool :=
  do l <- node_len fuel c; Ok (len_buf b + 4 <? l).

End Walk.

(** template/genny/root.go:85-99 [Next]; [next] is the buffer [IO.Next] returns.
    The new root gets neither a name nor name tables. *)
Definition root_next (n : names) (b : base) (fuel : nat) (next : Z -> res base) (c : cnode)
  : res (base * cnode) :=
  do start <- node_len n b fuel c;
  if len_buf b <? start then Ok (b, c)
  else
    do nb <- next start;
    do p <- rd 4 nb 0;
    do nd <- load_node nb p;
    Ok (nb, mkC (Some nd) no_vinfo EmptyString [] []).

(** [IO.Next] (base.go:517-540) of a buffer without a reader *)
Definition memory_next (b : base) (skip : Z) : res base :=
  do r <- next_buf b skip; Ok (new_base (snd r)).
