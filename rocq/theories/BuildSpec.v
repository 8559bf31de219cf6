(** What a table built from parts should store, stated on images and on trees of
    stored values, without the functions of the builder.  Nodes are written with
    the constructor [new_node] of the reader. *)
From Coq Require Import ZArith List Bool String.
From Coq Require Import Strings.Byte.
From Verif Require Import GoLib BaseModel BaseSpec TableModel TableSpec NameModel NameSpec WalkModel WalkSpec EqualSpec.
Import ListNotations.
Open Scope list_scope.
Open Scope Z_scope.

(** The part of an image from [lo] up to [hi]. *)
Definition window (m : image) (lo hi : Z) : image :=
  fun q => if (lo <=? q) && (q <? hi) then m q else None.

(** The vector of type [t] whose elements start at [q]. *)
Definition stored_vector (m : image) (s : schema) (t : ty) (q : Z) (v : val) : Prop :=
  match t, v with
  | TyScalars t, Scalars q' k w => q' = q /\ w = zwidth t /\ holds_uint m (q - 4) 4 k /\ occupied m q (k * w)
  | TyStructs _ ms, Structs q' k ms' =>
      q' = q /\ ms' = ms /\ holds_uint m (q - 4) 4 k /\ occupied m q (k * struct_size ms)
  | TyTables tn, Tabs tn' q' vs =>
      tn' = tn /\ q' = q /\ holds_uint m (q - 4) 4 (zlen vs) /\ stored_elems m s q tn vs
  | _, _ => False
  end.

Definition vector_len (v : val) : Z :=
  match v with Scalars _ k _ | Structs _ k _ => k | Tabs _ _ es => zlen es | _ => 0 end.

(** Fields stored as an offset, and the space a field takes in the table. *)
Definition is_ref (t : ty) : bool :=
  match t with TyScalar _ | TyStruct _ _ => false | _ => true end.
Definition field_size (t : ty) : Z :=
  match t with TyScalar t => zwidth t | TyStruct _ ms => struct_size ms | _ => 4 end.

(** The vtable and the table fit the 16 bits of the format, and a union follows
    the byte with its type. *)
Definition buildable (tys : list ty) : Prop :=
  4 + 2 * zlen tys < 65536 /\
  4 + fold_right (fun t z => field_size t + z) 0 tys <= 65535 /\
  Forall (fun t => 1 <= field_size t) tys /\
  forall i us, zget tys i = Some (TyUnion us) ->
    exists t, zget tys (i - 1) = Some (TyScalar t) /\ zwidth t = 1.

(** ** What is assigned *)

Inductive entry :=
| Nothing
| Bytes (p : list byte)
| Value (m : image) (v : val).

Definition state := Z -> entry.
Definition start : state := fun _ => Nothing.
Definition put (st : state) (i : Z) (e : entry) : state := fun j => if j =? i then e else st j.

Section Names.
Variable n : names.
Variable s : schema.

(** The node carries the name registered for field [i]. *)
Definition labelled (name : string) (i : Z) (f : cnode) : Prop :=
  exists l, lookup (n_idxname n) name = Some l /\ lookupz l i = Some (c_name f).

(** A table in a buffer of its own, right behind its vtable and with nothing of it
    elsewhere. *)
Definition lone_table (fb : base) (f : cnode) (tn : string) (m : image) (v : val) : Prop :=
  exists pos z tys, f = new_node n (Some (pos, z)) no_vinfo tn /\ flat fb /\
    m = img_bytes (sl_data (b_bytes fb)) /\ s tn = Some tys /\
    0 <= pos - (4 + 2 * zlen tys) /\ reach v <= zlen (sl_data (b_bytes fb)) /\
    stored_table (window m (pos - (4 + 2 * zlen tys)) (reach v)) s tn pos v /\ measured v /\
    (z <= 0 \/ z = reach v - pos).

(** The node [f] in the buffer [fb] is a value for field [i], of type [t]. *)
Definition gives (name : string) (i : Z) (t : ty) (fb : base) (f : cnode) (e : entry) : Prop :=
  match t with
  | TyScalar t =>
      labelled name i f /\
      exists p pos z, e = Bytes p /\ c_node f = Some (pos, z) /\ zlen p = zwidth t /\ delivers fb pos p
  | TyStruct sn ms =>
      exists p pos z, e = Bytes p /\ f = new_node n (Some (pos, z)) no_vinfo sn /\
        zlen p = struct_size ms /\ delivers fb pos p
  | TyTable tn => exists m v, e = Value m v /\ lone_table fb f tn m v
  | TyUnion us => exists tn m v, In tn us /\ e = Value m v /\ lone_table fb f tn m v
  | _ =>
      labelled name i f /\
      exists m v q nd, e = Value m v /\ f = new_node n (Some nd) (mkV q (reach v - q) (vector_len v)) (c_name f) /\
        flat fb /\ m = img_bytes (sl_data (b_bytes fb)) /\
        4 <= q /\ reach v <= zlen (sl_data (b_bytes fb)) /\
        stored_vector (window m (q - 4) (reach v)) s t q v /\ measured v
  end.

(** There is no field [i], or it is of another type than the node: the node
    carries neither the name registered for the field nor that of a member of
    the union. *)
Definition mistyped (name : string) (tys : list ty) (i : Z) (f : cnode) : Prop :=
  zlen tys <= i \/
  exists t, zget tys i = Some t /\ ~ labelled name i f /\
    forall us, t = TyUnion us -> ~ In (c_name f) us.

(** A reference is only assigned once, to a table without other references.
    When it is a union, the type stored by then is one of the union. *)
Definition allowed (tys : list ty) (st : state) (i : Z) (t : ty) : Prop :=
  is_ref t = true ->
  (forall j t', zget tys j = Some t' -> is_ref t' = true -> st j = Nothing) /\
  match t with
  | TyUnion us => forall x, st (i - 1) = Bytes [x] -> b2z x <= zlen us
  | _ => True
  end.

Inductive history (name : string) (tys : list ty) : state -> list (Z * base * cnode) -> state -> Prop :=
| Hi_nil : forall st, history name tys st [] st
| Hi_cons : forall st i fb f t e l st', zget tys i = Some t -> gives name i t fb f e ->
    allowed tys st i t -> history name tys (put st i e) l st' ->
    history name tys st ((i, fb, f) :: l) st'.

End Names.

(** In the end every union that is there has its type before it and every other
    union has none. *)
Definition typed_unions (tys : list ty) (st : state) : Prop :=
  forall i us, zget tys i = Some (TyUnion us) ->
  match st i with
  | Value _ v => exists k tn p fs x, zget us k = Some tn /\ v = Tab tn p fs /\
                   st (i - 1) = Bytes [x] /\ b2z x = k + 1
  | _ => st (i - 1) = Nothing \/ st (i - 1) = Bytes [x00]
  end.

(** The value [v] stored in [m] for a field of type [t] is the one assigned. *)
Definition as_assigned (m : image) (t : ty) (e : entry) (v : val) : Prop :=
  match e with
  | Nothing => v = Absent t
  | Bytes p => (forall k, 0 <= k < zlen p -> m (val_pos v + k) = zget p k) /\
               match t with
               | TyScalar t => zlen p = zwidth t /\ exists q, v = Scalar q (zwidth t)
               | TyStruct _ ms => zlen p = struct_size ms /\ exists q, v = Struct q ms
               | _ => False
               end
  | Value m0 v0 => same_value m m0 v v0
  end.
