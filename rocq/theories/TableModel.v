(** Model of scalar nodes, tables and structs on a buffer in memory
    (query/base/node.go, query/base/common.go, query/base/util.go and the
    constructors in template/genny/root.go).

    Logging calls are omitted (their closures only run at debug level).
    [All_IdxToType] and [All_IdxToTypeGroup] for one node name are modelled by
    a list of field kinds. *)
From Coq Require Import ZArith List Bool.
From Coq Require Import Strings.Byte.
From Verif Require Import GoLib BaseModel.
Import ListNotations.
Open Scope Z_scope.

(** ** Scalars *)

(** util.go:20-33 *)
Inductive scalar :=
| SBool | SByte | SInt8 | SInt16 | SInt32 | SInt64
| SUint8 | SUint16 | SUint32 | SUint64 | SFloat32 | SFloat64.

Definition scalar_eqb (a b : scalar) : bool :=
  match a, b with
  | SBool, SBool | SByte, SByte | SInt8, SInt8 | SInt16, SInt16
  | SInt32, SInt32 | SInt64, SInt64 | SUint8, SUint8 | SUint16, SUint16
  | SUint32, SUint32 | SUint64, SUint64 | SFloat32, SFloat32
  | SFloat64, SFloat64 => true
  | _, _ => false
  end.

(** util.go:100-113 [TypeToSize] *)
Definition width (t : scalar) : nat :=
  match t with
  | SBool | SByte | SInt8 | SUint8 => 1
  | SInt16 | SUint16 => 2
  | SInt32 | SUint32 | SFloat32 => 4
  | SInt64 | SUint64 | SFloat64 => 8
  end.

Definition is_signed (t : scalar) : bool :=
  match t with SInt8 | SInt16 | SInt32 | SInt64 => true | _ => false end.

(** flatbuffers.WriteX of a value.  Values are integers; a bool is 0 or 1 and
    a float is its IEEE bit pattern (math.Float64bits, inside flatbuffers).  A
    signed value is converted to the unsigned type of its width first. *)
Definition scalar_bytes (t : scalar) (v : Z) : list byte :=
  le_encode (width t) (v mod 2 ^ (8 * Z.of_nat (width t))).

(** flatbuffers.GetX; GetBool is [buf[0] == 1]. *)
Definition scalar_get (t : scalar) (buf : list byte) : res Z :=
  do u <- get_le (width t) buf;
  Ok (if is_signed t then to_signed (width t) u
      else match t with
           | SBool => if u =? 1 then 1 else 0
           | _ => u
           end).

(** node.go:207-301 [Byte] .. [Float64] on a node at [pos]: every getter passes
    the width as [Size] except [Int8], which passes no option. *)
Definition get_scalar (t : scalar) (b : base) (pos : Z) : res Z :=
  do s <- base_r b pos (match t with SInt8 => 0 | _ => Z.of_nat (width t) end);
  scalar_get t (opt_data s).

(** common.go:425-603 [SetBool] .. [SetFloat64] on a node named after type
    [nt] with the given position and size.  [None] is ERR_INVALID_TYPE. *)
Definition set_scalar (nt t : scalar) (b : base) (pos size v : Z) : res (option base) :=
  if negb (scalar_eqb nt t) then Ok None
  else if size <=? 0 then Ok None
  else do b' <- base_u b pos size (scalar_bytes t v); Ok (Some b').

(** template/genny/root.go:131-261 [FromBool] .. [FromFloat64]: a buffer of the
    width of the type, then SetX at position 0. *)
Definition from_scalar (t : scalar) (v : Z) : res (option base) :=
  let w := Z.of_nat (width t) in
  set_scalar t t (new_base (gs_of (zeros w))) 0 w v.

(** ** Tables *)

(** [flatbuffers.GetUintN(node.R(pos, Size(N)))] *)
Definition rd (n : nat) (b : base) (pos : Z) : res Z :=
  do s <- base_r b pos (Z.of_nat n); get_le n (opt_data s).

(** The position of the vtable: node.go:319-320 and its repetitions.  The
    stored offset is read as an unsigned number. *)
Definition vtable_pos (b : base) (pos : Z) : res Z :=
  do voff <- rd 4 b pos; Ok (pos - voff).

(** node.go:317-332 [VirtualTable] *)
Definition virtual_table (b : base) (pos idx : Z) : res Z :=
  do vpos <- vtable_pos b pos;
  if b_check b && (len_buf b <=? vpos + 4 + idx * 2) then Ok pos
  else do off <- rd 2 b (vpos + 4 + idx * 2); Ok (pos + off).

(** node.go:311-314 [VirtualTableIsZero] *)
Definition virtual_table_is_zero (b : base) (pos idx : Z) : res bool :=
  do p <- virtual_table b pos idx; Ok (p =? pos).

(** node.go:335-339 [TableLen] *)
Definition table_len (b : base) (pos : Z) : res Z :=
  do vpos <- vtable_pos b pos; rd 2 b (vpos + 2).

(** node.go:341-345 [VirtualTableLen] *)
Definition virtual_table_len (b : base) (pos : Z) : res Z :=
  do vpos <- vtable_pos b pos; rd 2 b vpos.

(** node.go:347-353 [Table] *)
Definition table_ref (b : base) (pos idx : Z) : res Z :=
  do p <- virtual_table b pos idx;
  do z <- virtual_table_is_zero b pos idx;
  if z then Ok (-1)
  else do off <- rd 4 b p; Ok (p + off).

(** node.go:62-78 [preLoadVtable]: the new [TLen].  The loop only checks that
    the entries can be read; a short one panics either way. *)
Fixpoint preload_loop (fuel : nat) (b : base) (cur last : Z) : res unit :=
  if last <=? cur then Ok tt
  else match fuel with
       | O => OutOfFuel
       | S f => do _ <- rd 2 b cur; preload_loop f b (cur + 2) last
       end.

Definition preload_vtable (b : base) (pos : Z) : res Z :=
  do vpos <- vtable_pos b pos;
  do vlen <- rd 2 b vpos;
  do tlen <- rd 2 b (vpos + 2);
  do _ <- preload_loop (Z.to_nat vlen) b (vpos + 4) (vpos + vlen);
  Ok tlen.

(** node.go:114-131 [ValueInfoPosList]: [None] for an absent field, else start
    of the elements and their number. *)
Definition value_info_pos_list (b : base) (pos idx : Z) : res (option (Z * Z)) :=
  do vp <- virtual_table b pos idx;
  do z <- virtual_table_is_zero b pos idx;
  if z then Ok None
  else
    do off <- rd 4 b vp;
    do n <- rd 4 b (vp + off);
    Ok (Some (vp + off + 4, n)).

(** node.go:80-87 [FbsString] on field 0; the slicing at the end panics when the
    returned slice has less capacity. *)
Definition fbs_string (b : base) (pos : Z) : res (list byte) :=
  do p <- virtual_table b pos 0;
  do off <- rd 4 b p;
  do n <- rd 4 b (p + off);
  do s <- base_r b (p + off + 4) n;
  match s with
  | Some x => do y <- gs_upto x n; Ok (sl_data y)
  | None => if n =? 0 then Ok nil else Panic
  end.

(** Kinds of table fields (the groups of util.go:36-46): a scalar or struct of
    the given size is stored inline, anything else as a 4-byte offset. *)
Inductive fkind := KBasic (size : Z) | KStruct (size : Z) | KRef.

(** common.go:1029-1068 [Init] for a table: buffer and node position. *)
Definition ext_size (k : fkind) : Z :=
  match k with KBasic n => n | KStruct _ | KRef => 4 end.

(** The two in-place writes through [node.R(..)] (1062-1066); they hit the
    only array of the buffer. *)
Definition poke (b : base) (pos : Z) (p : list byte) : res base :=
  do s <- base_r b pos (zlen p);
  if opt_len s <? zlen p then Panic
  else Ok (set_bytes b (mkSlice (copy_at (sl_data (b_bytes b)) pos p)
                                (sl_spare (b_bytes b)))).

Definition sum_z (l : list Z) : Z := fold_right Z.add 0 l.

Definition init_table (ks : list fkind) : res (base * Z) :=
  let vlen := 4 + zlen ks * 2 in
  let tlen := 4 in
  let ext := sum_z (map ext_size ks) in
  let b := new_base (gs_make (tlen + vlen) (tlen + vlen + ext)) in
  do b <- poke b vlen (le_encode 4 (u32 vlen));
  do b <- poke b 0 (le_encode 2 (u16 vlen));
  do b <- poke b 2 (le_encode 2 (u16 tlen));
  Ok (b, vlen).

(** The same for a struct with the given field sizes (vLen = 0). *)
Definition init_struct (sizes : list Z) : res (base * Z) :=
  let b := new_base (gs_make (sum_z sizes) (sum_z sizes)) in
  do b <- poke b 0 (le_encode 4 0);
  Ok (b, 0).

(** common.go:862-874 [InRoot] *)
Definition in_root (b : base) (pos : Z) : res bool :=
  do p <- rd 2 b 0;
  do s <- base_r b p 4;
  if opt_len s <? 4 then Ok false
  else if pos <? 8 then Ok false
  else do q <- rd 4 b p; Ok (negb (p =? q)).

(** A table node: its buffer and position. *)
Record tnode := mkT { t_io : base; t_pos : Z }.

(** common.go:872-938 [InsertBuf]/[InsertSpace] for a table node that is not
    inside a root buffer.  Inside a root buffer the code goes on to adjust the
    offsets stored in the parents; that part is not modelled here
    ([None]). *)
Definition insert_buf (t : tnode) (pos size : Z) : res (option tnode) :=
  do nb <- insert_space (t_io t) pos size true;
  do r <- in_root (t_io t) (t_pos t);
  if r then Ok None
  else Ok (Some (mkT nb (if pos <? t_pos t then t_pos t + size else t_pos t))).

(** common.go:974-1018 [movePos] for a field stored as an offset. *)
Definition move_pos (t : tnode) (idx pos size : Z) : res tnode :=
  do cpos <- virtual_table (t_io t) (t_pos t) idx;
  do off <- rd 4 (t_io t) cpos;
  if cpos + off <? pos then Ok t
  else do b <- base_u (t_io t) cpos 4 (le_encode 4 (u32 (off + size)));
       Ok (mkT b (t_pos t)).

(** common.go:1097-1113, the loop of [insertVTable] over the other fields. *)
Fixpoint move_refs (ks : list fkind) (i idx wpos size : Z) (t : tnode) : res tnode :=
  match ks with
  | nil => Ok t
  | k :: ks' =>
      do t' <- (if i =? idx then Ok t
                else match k with
                     | KRef =>
                         do r <- table_ref (t_io t) (t_pos t) i;
                         if wpos <=? r then move_pos t i wpos size else Ok t
                     | _ => Ok t
                     end);
      move_refs ks' (i + 1) idx wpos size t'
  end.

(** common.go:1071-1121 [insertVTable]: the changed node and the position of
    the new field. *)
Definition insert_vtable (ks : list fkind) (t : tnode) (idx size : Z)
  : res (option (tnode * Z)) :=
  do tl <- table_len (t_io t) (t_pos t);
  do t1 <- insert_buf t (t_pos t + u16 tl) size;
  match t1 with
  | None => Ok None
  | Some t1 =>
      do vpos <- vtable_pos (t_io t1) (t_pos t1);
      do b <- base_u (t_io t1) (vpos + 4 + idx * 2) 2 (le_encode 2 (u16 tl));
      do b <- base_u b (vpos + 2) 2 (le_encode 2 (u16 (u16 tl + u16 size)));
      let wpos := t_pos t1 + u16 tl in
      do t2 <- move_refs ks 0 idx wpos size (mkT b (t_pos t1));
      Ok (Some (t2, wpos))
  end.

(** common.go:1133-1214 [SetFieldAt] on a table, for a scalar or struct field
    (1179-1207); the value is [size] bytes of another buffer.  Errors of the
    index and type checks are [SetErr]; [SetRoot] stands for the unmodelled
    case of a table inside a root buffer. *)
Inductive set_res := SetOk (t : tnode) | SetErr | SetRoot.

Definition inline_size (k : fkind) : option Z :=
  match k with KBasic n => Some n | KStruct n => Some n | KRef => None end.

Definition set_field (ks : list fkind) (t : tnode) (idx : Z)
    (src : base) (srcPos : Z) : res set_res :=
  match zget ks idx with
  | None => Ok SetErr
  | Some k =>
      match inline_size k with
      | None => Ok SetErr
      | Some size =>
          do _ <- preload_vtable (t_io t) (t_pos t);
          do z <- virtual_table_is_zero (t_io t) (t_pos t) idx;
          if negb z then
            do p <- virtual_table (t_io t) (t_pos t) idx;
            do b <- base_copy (t_io t) src srcPos size p 0;
            Ok (SetOk (mkT b (t_pos t)))
          else
            do r <- insert_vtable ks t idx size;
            match r with
            | None => Ok SetRoot
            | Some (t', wpos) =>
                do b <- base_copy (t_io t') src srcPos size wpos 0;
                do _ <- preload_vtable b (t_pos t');
                Ok (SetOk (mkT b (t_pos t')))
            end
      end
  end.

(** common.go:232-299 [FieldAt] on a table for a scalar or struct field: the
    position of the field's node, [None] when absent. *)
Definition field_at (t : tnode) (idx : Z) : res (option Z) :=
  do z <- virtual_table_is_zero (t_io t) (t_pos t) idx;
  if z then Ok None
  else do p <- virtual_table (t_io t) (t_pos t) idx; Ok (Some p).

(** ** Structs *)

(** common.go:240-250, the loop of [FieldAt] (and of [SetFieldAt],
    1146-1155). *)
Fixpoint struct_field_pos (pos : Z) (sizes : list Z) (idx : nat) : Z :=
  match idx, sizes with
  | S k, n :: sizes' => struct_field_pos (pos + n) sizes' k
  | _, _ => pos
  end.

(** common.go:239-253 with node.go:50-56: position and size of the node that
    [FieldAt] makes for a struct member ([NewNode2] sets the size to -1 and
    [FieldAt] leaves it). *)
Definition member_node (pos : Z) (sizes : list Z) (idx : nat) : Z * Z :=
  (struct_field_pos pos sizes idx, -1).

(** common.go:45-52 in [Info] *)
Definition struct_size (sizes : list Z) : Z := sum_z sizes.

(** common.go:66-72 [ValueInfo] on a struct: position and size. *)
Fixpoint struct_value_info (pos size : Z) (sizes : list Z) (idx : nat) : Z * Z :=
  match idx, sizes with
  | S k, n :: sizes' => struct_value_info (pos + size) n sizes' k
  | _, _ => (pos, size)
  end.

(** common.go:1145-1156 [SetFieldAt] on a struct; [None] is an error value. *)
Definition set_struct_field (sizes : list Z) (b : base) (pos : Z) (idx : nat)
    (src : base) (srcPos : Z) : res (option base) :=
  match nth_error sizes idx with
  | None => Ok None
  | Some n =>
      do b' <- base_copy b src srcPos n (struct_field_pos pos sizes idx) 0;
      Ok (Some b')
  end.

(** common.go:376-385 [Len], given the node's [Info]; Go's [%] truncates. *)
Definition node_len (pos size : Z) : Z :=
  let s := pos + size in
  if Z.rem s 8 =? 0 then s else s + (8 - Z.rem s 8).
