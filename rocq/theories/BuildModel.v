(** Model of the builder (query/base/common.go): [Init] and [SetFieldAt] on a
    table that is not inside a root buffer, for all kinds of fields, and of
    [WithHeader] (template/genny/root.go).

    Logging is omitted.  [SetFieldAt] also stores the size it computes in the
    node it is given (1160, 1213); it is only used again by a later call with the
    same node and is computed from the same data then. *)
From Coq Require Import ZArith List Bool String.
From Coq Require Import Strings.Byte.
From Verif Require Import GoLib BaseModel TableModel NameModel WalkModel.
Import ListNotations.
Open Scope list_scope.
Open Scope Z_scope.

Section Build.
Variable n : names.

(** How a field is stored (1097-1103): inline, or as an offset. *)
Definition kind_at (c : cnode) (i : Z) : fkind :=
  let g := group_at c i in
  if negb (is_field_slice g) && (is_field_basic g || is_field_struct g)
  then if is_field_basic g then KBasic (type_size c i) else KStruct 4
  else KRef.

Definition kinds (c : cnode) : list fkind := map (kind_at c) (indexes (map_len (c_groups c))).

(** common.go:1029-1068 [Init] for a table: buffer and node. *)
Definition init_node (name : string) : res (base * cnode) :=
  let c := new_node n None no_vinfo name in
  do (b, p) <- init_table (kinds c);
  Ok (b, new_node n (Some (p, -1)) no_vinfo name).

(** common.go:1126-1134 [IsSameType] *)
Definition is_same_type (c : cnode) (idx : Z) (name : string) : bool :=
  String.eqb (field_type_name n c idx) name ||
  (is_field_union (group_at c idx) &&
   existsb (String.eqb name) (sub (n_unions n) (field_type_name n c idx))).

(** What [SetFieldAt] leaves: the new buffer, an error value, or the case of a
    node inside a root buffer, which is not modelled. *)
Inductive outcome := Set_ok (b : base) | Set_error | Set_in_root.

(** common.go:1158-1183, vectors.  The size of the old value and the one of
    the new value decide how much room is made. *)
Definition set_vector (fuel : nat) (b : base) (c : cnode) (pos idx : Z) (fb : base) (f : cnode)
  : res outcome :=
  match c_node f with
  | None => Panic
  | Some (_, fsize) =>
      do size <- (if fsize <=? 0
                  then do v <- info_slice n fb (node_info n fb fuel) f;
                       if v_size v <? 0 then Panic else Ok (v_size v)
                  else Ok fsize);
      do z <- virtual_table_is_zero b pos idx;
      do r <- (if z then
                 do t <- insert_vtable (kinds c) (mkT b pos) idx 4;
                 match t with
                 | None => Ok None
                 | Some (t, wpos) =>
                     do b <- base_u (t_io t) wpos 4 (le_encode 4 4);
                     do _ <- preload_vtable b pos;
                     Ok (Some (b, 0))
                 end
               else do v <- value_info n b (node_info n b fuel) c idx; Ok (Some (b, v_size v)));
      match r with
      | None => Ok Set_in_root
      | Some (b, old) =>
          do dst <- table_ref b pos idx;
          do b <- base_copy b fb (v_pos (c_info f) - 4) (v_size (c_info f) + 4) dst (size - old);
          Ok (Set_ok b)
      end
  end.

(** common.go:1185-1207, scalars and structs *)
Definition set_inline (fuel : nat) (b : base) (c : cnode) (pos idx : Z) (fb : base) (f : cnode)
  : res outcome :=
  do size <- (if is_field_struct (group_at c idx)
              then do v <- node_info n fb fuel f; Ok (v_size v)
              else Ok (type_size c idx));
  match c_node f with
  | None => Panic
  | Some (fpos, _) =>
      do _ <- preload_vtable b pos;
      do z <- virtual_table_is_zero b pos idx;
      if negb z then
        do p <- virtual_table b pos idx;
        do b <- base_copy b fb fpos size p 0;
        Ok (Set_ok b)
      else
        do r <- insert_vtable (kinds c) (mkT b pos) idx size;
        match r with
        | None => Ok Set_in_root
        | Some (t, wpos) =>
            do b <- base_copy (t_io t) fb fpos size wpos 0;
            do _ <- preload_vtable b pos;
            Ok (Set_ok b)
        end
  end.

(** common.go:1209-1240, tables and unions.  The second [InsertBuf] (1222)
    makes room for the table, and so does [Copy] (1224). *)
Definition set_table (fuel : nat) (b : base) (c : cnode) (pos idx : Z) (fb : base) (f : cnode)
  : res outcome :=
  match c_node f with
  | None => Panic
  | Some (fpos, fsize) =>
      do size <- (if fsize <=? 0
                  then do v <- node_info n fb fuel f;
                       if v_size v <=? 0 then Panic else Ok (v_size v)
                  else Ok fsize);
      let vsize := map_len (c_groups f) * 2 + 4 in
      do old <- value_info n b (node_info n b fuel) c idx;
      do z <- virtual_table_is_zero b pos idx;
      if z then
        do r <- insert_vtable (kinds c) (mkT b pos) idx 4;
        match r with
        | None => Ok Set_in_root
        | Some (t, wpos) =>
            do t' <- insert_buf t (wpos + 4) (vsize + size);
            match t' with
            | None => Ok Set_in_root
            | Some t =>
                do b <- base_u (t_io t) wpos 4 (le_encode 4 (u32 (u32 vsize + 4)));
                do b <- base_copy b fb (fpos - vsize) (size + vsize) (wpos + 4) (size + vsize);
                do _ <- preload_vtable b pos;
                Ok (Set_ok b)
            end
        end
      else
        let extend := Z.max 0 (size - v_size old) in
        do p <- table_ref b pos idx;
        do b <- base_copy b fb (fpos - vsize) (size + vsize) (p - vsize) extend;
        Ok (Set_ok b)
  end.

(** common.go:1137-1243 [SetFieldAt] on a table; for structs see
    [set_struct_field] in TableModel.v. *)
Definition set_field_at (fuel : nat) (b : base) (c : cnode) (idx : Z) (fb : base) (f : cnode)
  : res outcome :=
  if map_len (c_groups c) <=? idx then Ok Set_error
  else if negb (is_same_type c idx (c_name f)) then Ok Set_error
  else
    match c_node c with
    | None => Panic
    | Some (pos, _) =>
        let g := group_at c idx in
        if is_field_slice g then set_vector fuel b c pos idx fb f
        else if is_field_struct g || is_field_basic g then set_inline fuel b c pos idx fb f
        else if is_field_union g || is_field_table g then set_table fuel b c pos idx fb f
        else Ok Set_error
    end.

(** A table built by [Init] and a sequence of calls; [None] when one of them
    does not succeed. *)
Fixpoint set_fields (fuel : nat) (b : base) (c : cnode) (l : list (Z * base * cnode))
  : res (option base) :=
  match l with
  | nil => Ok (Some b)
  | (i, fb, f) :: l' =>
      do r <- set_field_at fuel b c i fb f;
      match r with
      | Set_ok b => set_fields fuel b c l'
      | _ => Ok None
      end
  end.

Definition build_table (fuel : nat) (name : string) (l : list (Z * base * cnode))
  : res (option (base * cnode)) :=
  do (b, c) <- init_node name;
  do r <- set_fields fuel b c l;
  Ok (option_map (fun b => (b, c)) r).

End Build.

(** template/genny/root.go:110-120 [WithHeader]: the buffer and the new
    position of the root table. *)
Definition with_header (b : base) (pos : Z) : res (base * Z) :=
  do r <- in_root b pos;
  if r then Ok (b, pos)
  else
    let header := new_base (gs_of (le_encode 4 (u32 (pos + 8)) ++ zeros 4)) in
    do b <- base_copy b header 0 8 0 8;
    Ok (b, pos + 8).

(** list.go:1071-1086 [FromByteList], also common.go:1246-1264 [FromBytes]. *)
Definition byte_list (n : names) (l : list byte) : base * cnode :=
  (new_base (gs_of (le_encode 4 (u32 (zlen l)) ++ l)),
   mkC (Some (4, -1)) (mkV 4 (zlen l) (u32 (zlen l))) "[]byte"%string [] []).

(** template/genny/root.go:131-261 [FromBool] .. [FromFloat64] as nodes *)
Definition scalar_node (n : names) (name : string) (t : scalar) (v : Z) : res (base * cnode) :=
  do b <- from_scalar t v;
  match b with
  | Some b => Ok (b, mkC (Some (0, Z.of_nat (width t))) no_vinfo name [] [])
  | None => Panic
  end.
