(** Model of [SetFieldAt] on a table wherever it is, also inside a root buffer
    (query/base/common.go:1071-1243): as in [BuildModel], but space is made with
    [InsertBuf] of [InsModel], which moves references of the whole buffer.

    Logging is omitted.  [SetFieldAt] on a struct is [set_struct_field] in
    TableModel.v. *)
From Coq Require Import ZArith List Bool String.
From Coq Require Import Strings.Byte.
From Verif Require Import GoLib BaseModel TableModel NameModel StreamModel WalkModel BuildModel InsModel.
Import ListNotations.
Open Scope list_scope.
Open Scope Z_scope.

(** The buffer and the node afterwards, or an error value *)
Inductive result := Put_ok (b : base) (c : cnode) | Put_error.

Section Put.
Variable n : names.
Variable fuel : nat.

(** common.go:1097-1113, the loop of [insertVTable] over the fields [is]. *)
Fixpoint move_fields (is : list Z) (idx wpos size : Z) (b : base) (c : cnode) (pos : Z) : res base :=
  match is with
  | nil => Ok b
  | i :: is' =>
      do b' <- (if i =? idx then Ok b
                else match kind_at c i with
                     | KRef =>
                         do r <- table_ref b pos i;
                         if wpos <=? r then move_node n b c i wpos size else Ok b
                     | _ => Ok b
                     end);
      move_fields is' idx wpos size b' c pos
  end.

(** common.go:1071-1121 [insertVTable]: buffer, node and the position of the new
    field.  [TLen] of the node is the length of the table when it is used. *)
Definition put_vtable (b : base) (c : cnode) (pos idx size : Z) : res (base * cnode * Z) :=
  do tl <- table_len b pos;
  do (b1, c1) <- node_insert_buf n fuel b c (pos + u16 tl) size;
  match c_node c1 with
  | None => Panic
  | Some (pos1, _) =>
      do vpos <- vtable_pos b1 pos1;
      do b2 <- base_u b1 (vpos + 4 + idx * 2) 2 (le_encode 2 (u16 tl));
      do b3 <- base_u b2 (vpos + 2) 2 (le_encode 2 (u16 (u16 tl + u16 size)));
      let wpos := pos1 + u16 tl in
      do b4 <- move_fields (indexes (map_len (c_groups c1))) idx wpos size b3 c1 pos1;
      Ok (b4, c1, wpos)
  end.

(** common.go:1158-1183, vectors *)
Definition put_vector (b : base) (c : cnode) (pos idx : Z) (fb : base) (f : cnode) : res result :=
  match c_node f with
  | None => Panic
  | Some (_, fsize) =>
      do size <- (if fsize <=? 0
                  then do v <- info_slice n fb (node_info n fb fuel) f;
                       if v_size v <? 0 then Panic else Ok (v_size v)
                  else Ok fsize);
      do z <- virtual_table_is_zero b pos idx;
      do (b1, c1, old) <-
        (if z then
           do (b1, c1, wpos) <- put_vtable b c pos idx 4;
           do b2 <- base_u b1 wpos 4 (le_encode 4 4);
           do np <- node_pos c1;
           do _ <- preload_vtable b2 np;
           Ok (b2, c1, 0)
         else do v <- value_info n b (node_info n b fuel) c idx; Ok (b, c, v_size v));
      do np <- node_pos c1;
      do dst <- table_ref b1 np idx;
      do b2 <- base_copy b1 fb (v_pos (c_info f) - 4) (v_size (c_info f) + 4) dst (size - old);
      Ok (Put_ok b2 c1)
  end.

(** common.go:1185-1207, scalars and structs *)
Definition put_inline (b : base) (c : cnode) (pos idx : Z) (fb : base) (f : cnode) : res result :=
  do size <- (if is_field_struct (group_at c idx)
              then do v <- node_info n fb fuel f; Ok (v_size v)
              else Ok (type_size c idx));
  match c_node f with
  | None => Panic
  | Some (fpos, _) =>
      do _ <- preload_vtable b pos;
      do z <- virtual_table_is_zero b pos idx;
      if negb z then
        do p <- virtual_table b pos idx;
        do b' <- base_copy b fb fpos size p 0;
        Ok (Put_ok b' c)
      else
        do (b1, c1, wpos) <- put_vtable b c pos idx size;
        do b2 <- base_copy b1 fb fpos size wpos 0;
        do np <- node_pos c1;
        do _ <- preload_vtable b2 np;
        Ok (Put_ok b2 c1)
  end.

(** common.go:1209-1240, tables and unions *)
Definition put_table (b : base) (c : cnode) (pos idx : Z) (fb : base) (f : cnode) : res result :=
  match c_node f with
  | None => Panic
  | Some (fpos, fsize) =>
      do size <- (if fsize <=? 0
                  then do v <- node_info n fb fuel f;
                       if v_size v <=? 0 then Panic else Ok (v_size v)
                  else Ok fsize);
      let vsize := map_len (c_groups f) * 2 + 4 in
      do old <- value_info n b (node_info n b fuel) c idx;
      do z <- virtual_table_is_zero b pos idx;
      if z then
        do (b1, c1, wpos) <- put_vtable b c pos idx 4;
        do (b2, c2) <- node_insert_buf n fuel b1 c1 (wpos + 4) (vsize + size);
        do b3 <- base_u b2 wpos 4 (le_encode 4 (u32 (u32 vsize + 4)));
        do b4 <- base_copy b3 fb (fpos - vsize) (size + vsize) (wpos + 4) (size + vsize);
        do np <- node_pos c2;
        do _ <- preload_vtable b4 np;
        Ok (Put_ok b4 c2)
      else
        do p <- table_ref b pos idx;
        do b' <- base_copy b fb (fpos - vsize) (size + vsize) (p - vsize) (Z.max 0 (size - v_size old));
        Ok (Put_ok b' c)
  end.

(** common.go:1137-1243 [SetFieldAt] *)
Definition put_field (b : base) (c : cnode) (idx : Z) (fb : base) (f : cnode) : res result :=
  if map_len (c_groups c) <=? idx then Ok Put_error
  else if negb (is_same_type n c idx (c_name f)) then Ok Put_error
  else
    match c_node c with
    | None => Panic
    | Some (pos, _) =>
        let g := group_at c idx in
        if is_field_slice g then put_vector b c pos idx fb f
        else if is_field_struct g || is_field_basic g then put_inline b c pos idx fb f
        else if is_field_union g || is_field_table g then put_table b c pos idx fb f
        else Ok Put_error
    end.

End Put.
