(** Model of filling a Go struct from a table or struct
    (query/base/node.go:153-185, common.go:387-413), for nodes of a buffer in
    memory as in [WalkModel].

    Go structs are lists of fields.  The types of their fields are the numbers,
    [[]byte], the empty interface and everything else.  The byte slice given to
    [SetBytes] shares the memory of the buffer; here it is its content. *)
From Coq Require Import ZArith List Bool String.
From Coq Require Import Strings.Byte.
From Verif Require Import GoLib BaseModel TableModel NameModel StreamModel WalkModel.
Import ListNotations.
Open Scope string_scope.
Open Scope list_scope.
Open Scope Z_scope.

Inductive gtype := GNum (t : scalar) | GBytes | GAny | GOther.

(** Contents of a field; [VOther] stands for all values that are not of the
    other kinds. *)
Inductive gval := VNum (t : scalar) (v : Z) | VBytes (l : list byte) | VOther (k : Z).

(** The tag with the name [fbs], whether reflect may set the field (it is
    exported), type and content. *)
Record gfield := mkG { g_tag : option string; g_set : bool; g_type : gtype; g_val : gval }.

(** The argument: not a pointer, a pointer to something else (or nil), a pointer
    to a struct. *)
Inductive target := NoPointer | Pointer | PStruct (fs : list gfield).

Inductive outcome := MustPointer | InvalidType | Filled (fs : list gfield).

(** The methods of [*CommonNode] that are called like a type of a field, by the
    type of their result (node.go:207-301) *)
Definition method (s : string) : option scalar :=
  lookup [("Bool", SBool); ("Byte", SByte); ("Int8", SInt8); ("Int16", SInt16); ("Int32", SInt32);
          ("Int64", SInt64); ("Uint8", SUint8); ("Uint16", SUint16); ("Uint32", SUint32);
          ("Uint64", SUint64); ("Float32", SFloat32); ("Float64", SFloat64)] s.

(** [byte] is another name for [uint8]. *)
Definition go_type (t : scalar) : scalar := match t with SByte => SUint8 | _ => t end.

(** reflect's [Value.Set] with a number: panics if the field is not exported or
    the types differ *)
Definition set_num (f : gfield) (t : scalar) (v : Z) : res gfield :=
  if g_set f && match g_type f with
                | GNum u => scalar_eqb (go_type u) (go_type t)
                | GAny => true
                | _ => false
                end
  then Ok (mkG (g_tag f) (g_set f) (g_type f) (VNum t v)) else Panic.

(** reflect's [Value.SetBytes] *)
Definition set_bytes (f : gfield) (l : list byte) : res gfield :=
  if g_set f && match g_type f with GBytes => true | _ => false end
  then Ok (mkG (g_tag f) (g_set f) (g_type f) (VBytes l)) else Panic.

Section Unmarshal.
Variable n : names.
Variable b : base.

(** node.go:207-301 *)
Definition node_num (t : scalar) (c : cnode) : res Z :=
  match c_node c with None => Ok 0 | Some (pos, _) => get_scalar t b pos end.

(** [cNode.R(cNode.Node.Pos, Size(cNode.Node.Size))[:cNode.Node.Size]] *)
Definition node_bytes (c : cnode) : res (list byte) :=
  match c_node c with
  | None => Panic
  | Some (pos, size) =>
      do s <- base_r b pos size;
      match s with
      | Some x => do y <- gs_upto x size; Ok (sl_data y)
      | None => if size =? 0 then Ok [] else Panic
      end
  end.

(** common.go:390-412, the function given to [unmarshal]; it never returns an
    error.  [MethodByName] of a missing method gives a value whose [Call]
    panics. *)
Definition set_tagged (c : cnode) (s : string) (f : gfield) : res gfield :=
  match lookup (sub (n_nameidx n) (c_name c)) s with
  | None => Ok f
  | Some i =>
      let grp := group_at c i in
      if is_field_struct grp then Ok f
      else if is_field_union grp then Ok f
      else if is_field_bytes grp then
        do x <- field_at n b c i;
        do l <- node_bytes x;
        set_bytes f l
      else if is_field_basic grp then
        do x <- field_at n b c i;
        match method (c_name x) with
        | None => Panic
        | Some t => do v <- node_num t x; set_num f t v
        end
      else Ok f
  end.

(** node.go:174-184 *)
Definition set_field (c : cnode) (f : gfield) : res gfield :=
  match g_tag f with None => Ok f | Some s => set_tagged c s f end.

(** node.go:158-185 [unmarshal] *)
Definition unmarshal (c : cnode) (t : target) : res outcome :=
  match t with
  | NoPointer => Ok MustPointer
  | Pointer => Ok InvalidType
  | PStruct fs => do fs' <- collect (set_field c) fs; Ok (Filled fs')
  end.

End Unmarshal.
