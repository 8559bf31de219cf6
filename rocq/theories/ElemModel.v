(** Model of [SetAt] on a vector inside a root buffer (query/base/list.go:519-529,
    555-572, 761-904), for [BaseImpl] buffers: as in ListModel.v, but space is
    made with [InsertBuf] and [InsertSpace] of [InsModel], which move references
    of the whole buffer.

    [overwrite] (list.go:870-880) is for the other variants.  Logging is
    omitted. *)
From Coq Require Import ZArith List Bool String.
From Verif Require Import GoLib BaseModel TableModel NameModel StreamModel WalkModel BuildModel InsModel PutModel.
Import ListNotations.
Open Scope list_scope.
Open Scope Z_scope.

Section Elem.
Variable n : names.
Variable fuel : nat.

(** The node with another [NodeList.ValueInfo] *)
Definition with_info (c : cnode) (v : vinfo) : cnode :=
  mkC (c_node c) v (c_name c) (c_types c) (c_groups c).

(** list.go:519-529 [vlenTotal]: the node; its information has both results *)
Definition vlen_total (b : base) (c : cnode) : res cnode :=
  let i := c_info c in
  do v <- (if (v_pos i =? 0) || (v_len i =? 0) || (v_size i =? 0)
           then info_slice n b (node_info n b fuel) c else Ok i);
  Ok (with_info c (if v_len v =? 0 then mkV (v_pos v) 0 (v_len v) else v)).

(** The assignment of [InfoSlice] that ends both functions *)
Definition refreshed (b : base) (c : cnode) : res result :=
  do v <- info_slice n b (node_info n b fuel) c; Ok (Put_ok b (with_info c v)).

(** [elm.Node.Size], measured if it is not known (list.go:770-772, 809-811) *)
Definition elem_size (eb : base) (e : cnode) : res (Z * Z) :=
  match c_node e with
  | None => Panic
  | Some (epos, esize) =>
      if esize <=? 0 then do v <- node_info n eb fuel e; Ok (epos, v_size v) else Ok (epos, esize)
  end.

(** list.go:761-791 [setStructAt] *)
Definition set_inline_elem (b : base) (c : cnode) (idx : Z) (eb : base) (e : cnode) : res result :=
  do c1 <- vlen_total b c;
  let vlen := v_len (c_info c1) in
  do (epos, size) <- elem_size eb e;
  do b1 <- base_copy b eb epos size (v_pos (c_info c1) + idx * size) (if vlen =? idx then size else 0);
  do b2 <- (if vlen =? idx
            then base_u b1 (v_pos (c_info c1) - 4) 4 (le_encode 4 (u32 (vlen + 1)))
            else Ok b1);
  refreshed b2 c1.

(** list.go:559-564 and 847-853: the offsets in the slots [is] of the vector at
    [pos] increased by [d] *)
Fixpoint bump (b : base) (pos d : Z) (is : list Z) : res base :=
  match is with
  | [] => Ok b
  | i :: is' =>
      do off <- rd 4 b (pos + i * 4);
      do b' <- base_u b (pos + i * 4) 4 (le_encode 4 (u32 (off + d)));
      bump b' pos d is'
  end.

(** list.go:555-572 [updateOffsetToTable] for the slot [lastIdx]: the buffer and
    the place for the new table *)
Definition update_offsets (b : base) (pos lastIdx vlen total vSize : Z) : res (base * Z) :=
  do b' <- bump b pos 4 (indexes vlen);
  let toData := pos + total + 4 in
  do b2 <- base_u b' (pos + lastIdx * 4) 4 (le_encode 4 (u32 (toData + vSize - (pos + lastIdx * 4))));
  Ok (b2, toData).

(** list.go:793-883 [setTableAt] *)
Definition set_table_elem (b : base) (c : cnode) (idx : Z) (eb : base) (e : cnode) : res result :=
  do c1 <- vlen_total b c;
  let vlen := v_len (c_info c1) in
  let total := v_size (c_info c1) in
  let vSize := map_len (c_groups e) * 2 + 4 in
  do old <- (if idx <? vlen
             then do o <- vec_at n b c1 idx;
                  match o with
                  | None => Panic
                  | Some o => do v <- node_info n b fuel o; do p <- node_pos o; Ok (p, v_size v)
                  end
             else Ok (0, 0));
  do (epos, size) <- elem_size eb e;
  let append := vlen =? idx in
  let ext := Z.max 0 (if append then size + vSize else size - snd old) in
  do (b1, c2, toData) <-
    (if append then
       do (b1, c2) <- node_insert_buf n fuel b c1 (v_pos (c_info c1) + idx * 4) 4;
       do (b2, d) <- update_offsets b1 (v_pos (c_info c2)) idx vlen total vSize;
       Ok (b2, c2, d)
     else Ok (b, c1, fst old - vSize));
  let vlen' := if append then vlen + 1 else vlen in
  do (b2, c3) <-
    (if 0 <? ext then
       do (b2, c3) <- node_insert_space n fuel b1 c2 toData ext false;
       do b3 <- (if append then Ok b2
                 else bump b2 (v_pos (c_info c3)) ext (filter (fun i => idx <? i) (indexes vlen')));
       Ok (b3, c3)
     else Ok (b1, c2));
  do b4 <- base_u b2 (v_pos (c_info c3) - 4) 4 (le_encode 4 (u32 vlen'));
  do b5 <- base_copy b4 eb (epos - vSize) (size + vSize) toData 0;
  refreshed b5 c3.

(** list.go:886-904 [SetAt]; a negative index makes [At] return nil or writes
    before the vector and is not considered *)
Definition set_elem (b : base) (c : cnode) (idx : Z) (eb : base) (e : cnode) : res result :=
  if v_len (c_info c) <? idx then Ok Put_error
  else
    do g <- get_type_group n (c_name e);
    if is_field_basic g || is_field_struct g then set_inline_elem b c idx eb e
    else if is_field_union g then Ok Put_error
    else if is_field_table g then set_table_elem b c idx eb e
    else Ok Put_error.

End Elem.
