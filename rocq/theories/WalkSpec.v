(** What is stored in a buffer of a schema and what sizes and traversals should
    say about it, stated on images and on trees of stored values, without the
    functions of the model; only its records are used. *)
From Coq Require Import ZArith List Bool String.
From Verif Require Import GoLib BaseModel BaseSpec TableModel TableSpec NameModel NameSpec WalkModel.
Import ListNotations.
Open Scope list_scope.
Open Scope Z_scope.

(** ** Schemas *)

(** Types of table fields.  A string is a vector of bytes; the members of a
    struct are scalars; a union field follows the field with its type. *)
Inductive ty :=
| TyScalar (t : scalar)
| TyStruct (name : string) (members : list scalar)
| TyTable (name : string)
| TyUnion (members : list string)
| TyScalars (t : scalar)
| TyStructs (name : string) (members : list scalar)
| TyTables (name : string).

(** The fields of each table. *)
Definition schema := string -> option (list ty).

Definition zwidth (t : scalar) : Z := Z.of_nat (width t).

(** Size of a struct whose members need no padding. *)
Definition struct_size (ms : list scalar) : Z := fold_right (fun t z => zwidth t + z) 0 ms.

(** ** Name tables that say what a schema says *)

(** The map [l] has exactly the keys 0 .. k-1. *)
Definition keys_below {A} (l : list (Z * A)) (k : Z) : Prop :=
  forall i, (exists x, In (i, x) l) <-> 0 <= i < k.

Definition struct_described (n : names) (name : string) (ms : list scalar) : Prop :=
  lookup (n_structs n) name = Some true /\
  (exists g, get_type_group n name = Ok g /\ says g [CStruct]) /\
  lookup (n_idxname n) name <> None /\
  (exists l, lookup (n_groups n) name = Some l /\ keys_below l (zlen ms)) /\
  exists l, lookup (n_types n) name = Some l /\
    forall i t, zget ms i = Some t -> lookupz l i = Some t.

Definition table_described (n : names) (name : string) : Prop :=
  lookup (n_structs n) name <> Some true /\
  exists g, get_type_group n name = Ok g /\ says g [CTable].

(** The Go name [typ] and the group [g] recorded for a field. *)
Definition field_described (n : names) (name : string) (i : Z) (t : ty) (typ : string) (g : Z) : Prop :=
  match t with
  | TyScalar t =>
      says g [CBasic (width t)] /\
      exists l, lookup (n_types n) name = Some l /\ lookupz l i = Some t
  | TyStruct sn ms => says g [CStruct] /\ typ = sn /\ struct_described n sn ms
  | TyTable tn => says g [CTable] /\ typ = tn
  | TyUnion us => says g [CUnion] /\ lookup (n_unions n) typ = Some us /\ zlen us < 256
  | TyScalars t => says g [CSlice; CBasic (width t)] /\
                   exists e, typ = ("[]" ++ e)%string /\ lookup name_to_type e = Some t /\
                     lookup (n_idxname n) e = None
  | TyStructs sn ms => says g [CSlice; CTable] /\ typ = ("[]" ++ sn)%string /\
                       struct_described n sn ms
  | TyTables tn => says g [CSlice; CTable] /\ typ = ("[]" ++ tn)%string /\ table_described n tn
  end.

Definition describes (n : names) (s : schema) : Prop :=
  forall name tys, s name = Some tys ->
    table_described n name /\
    (exists l, lookup (n_groups n) name = Some l /\ keys_below l (zlen tys)) /\
    exists l, lookup (n_idxname n) name = Some l /\
    forall i t, zget tys i = Some t ->
      exists typ g, lookupz l i = Some typ /\ group_of n name i = Some g /\
        field_described n name i t typ g.

(** ** Stored values *)

(** What is stored for a field or an element, with positions. *)
Inductive val :=
| Absent (t : ty)
| Scalar (p w : Z)
| Struct (p : Z) (ms : list scalar)
| Scalars (p k w : Z)
| Structs (p k : Z) (ms : list scalar)
| Tab (name : string) (p : Z) (fs : list val)
| Tabs (name : string) (p : Z) (es : list val).

Section Stored.
Variable m : image.
Variable s : schema.

(** There are bytes at [p .. p+k-1]. *)
Definition occupied (p k : Z) : Prop := forall i, 0 <= i < k -> exists x, m (p + i) = Some x.

(** The offset stored at [p] leads to [q]. *)
Definition points_to (p q : Z) : Prop := p + 4 <= q /\ holds_uint m p 4 (q - p).

(** A vector of [k] elements starting at [p], found through the offset at
    [slot]. *)
Definition vector_from (slot p k : Z) : Prop := points_to slot (p - 4) /\ holds_uint m (p - 4) 4 k.

Definition is_union (t : ty) : bool := match t with TyUnion _ => true | _ => false end.

(** The table of type [name] at [p]; the field at [p + e] (0 for an absent
    field) after the field [prev]; fields; the tables the slots from [slot] on
    lead to. *)
Inductive stored_table : string -> Z -> val -> Prop :=
| St_table : forall name p soff es tl tys fs,
    s name = Some tys -> table_at m p soff es tl -> 0 <= soff ->
    stored_fields p None tys es fs -> stored_table name p (Tab name p fs)
with stored_fields : Z -> option val -> list ty -> list Z -> list val -> Prop :=
| Sf_nil : forall p prev, stored_fields p prev [] [] []
| Sf_cons : forall p prev t tys e es v vs,
    stored_field p prev t e v -> stored_fields p (Some v) tys es vs ->
    stored_fields p prev (t :: tys) (e :: es) (v :: vs)
with stored_field : Z -> option val -> ty -> Z -> val -> Prop :=
| Sv_absent : forall p prev t, is_union t = false -> stored_field p prev t 0 (Absent t)
| Sv_scalar : forall p prev t e, 4 <= e -> occupied (p + e) (zwidth t) ->
    stored_field p prev (TyScalar t) e (Scalar (p + e) (zwidth t))
| Sv_struct : forall p prev sn ms e, 4 <= e -> occupied (p + e) (struct_size ms) ->
    stored_field p prev (TyStruct sn ms) e (Struct (p + e) ms)
| Sv_scalars : forall p prev t e q k, 4 <= e -> vector_from (p + e) q k -> occupied q (k * zwidth t) ->
    stored_field p prev (TyScalars t) e (Scalars q k (zwidth t))
| Sv_structs : forall p prev sn ms e q k, 4 <= e -> vector_from (p + e) q k ->
    occupied q (k * struct_size ms) ->
    stored_field p prev (TyStructs sn ms) e (Structs q k ms)
| Sv_table : forall p prev tn e q v, 4 <= e -> points_to (p + e) q -> stored_table tn q v ->
    stored_field p prev (TyTable tn) e v
| Sv_tables : forall p prev tn e q vs, 4 <= e -> vector_from (p + e) q (zlen vs) ->
    stored_elems q tn vs -> stored_field p prev (TyTables tn) e (Tabs tn q vs)
| Sv_union : forall p us e x k tn q v, 4 <= e -> holds_uint m x 1 (k + 1) -> zget us k = Some tn ->
    points_to (p + e) q -> stored_table tn q v ->
    stored_field p (Some (Scalar x 1)) (TyUnion us) e v
| Sv_no_union : forall p us x, holds_uint m x 1 0 ->
    stored_field p (Some (Scalar x 1)) (TyUnion us) 0 (Absent (TyUnion us))
| Sv_untyped_union : forall p us t, zwidth t = 1 ->
    stored_field p (Some (Absent (TyScalar t))) (TyUnion us) 0 (Absent (TyUnion us))
with stored_elems : Z -> string -> list val -> Prop :=
| Se_nil : forall slot tn, stored_elems slot tn []
| Se_cons : forall slot tn q v vs, points_to slot q -> stored_table tn q v ->
    stored_elems (slot + 4) tn vs -> stored_elems slot tn (v :: vs).

End Stored.

(** ** Sizes *)

(** The end of the last byte that belongs to a value, through all references. *)
Fixpoint reach (v : val) : Z :=
  match v with
  | Absent _ => 0
  | Scalar p w => p + w
  | Struct p ms => p + struct_size ms
  | Scalars p k w => p + k * w
  | Structs p k ms => p + k * struct_size ms
  | Tab _ p fs => fold_right Z.max (p + 4) (map reach fs)
  | Tabs _ p es => fold_right Z.max (p + 4 * zlen es) (map reach es)
  end.

Definition is_absent (v : val) : bool := match v with Absent _ => true | _ => false end.

(** The values whose size is computed as it should be: every table has a field,
    no absent scalar would stick out of its table, strings and other byte
    vectors are there, and the last table of a vector is the one that reaches
    farthest. *)
Inductive measured : val -> Prop :=
| Me_absent : forall t, measured (Absent t)
| Me_scalar : forall p w, measured (Scalar p w)
| Me_struct : forall p ms, measured (Struct p ms)
| Me_scalars : forall p k w, measured (Scalars p k w)
| Me_structs : forall p k ms, measured (Structs p k ms)
| Me_tab : forall name p fs,
    (exists f, In f fs /\ is_absent f = false) ->
    (forall t, In (Absent (TyScalar t)) fs -> p + zwidth t <= reach (Tab name p fs)) ->
    (forall t, In (Absent (TyScalars t)) fs -> zwidth t <> 1) ->
    Forall measured fs -> measured (Tab name p fs)
| Me_tabs : forall name p es,
    (forall e, In e es -> reach e <= reach (last es (Absent (TyTable name)))) ->
    Forall measured es -> measured (Tabs name p es).

(** ** Traversal *)

Definition val_pos (v : val) : Z :=
  match v with
  | Absent _ => -1
  | Scalar p _ | Struct p _ | Scalars p _ _ | Structs p _ _ | Tab _ p _ | Tabs _ p _ => p
  end.

(** A stored value found under an owner: position of the owner, index in it,
    position, and size for scalars and byte vectors (-1 for the rest). *)
Definition sighting := (Z * Z * Z * Z)%type.

Fixpoint number {A} (i : Z) (l : list A) : list (Z * A) :=
  match l with [] => [] | x :: l' => (i, x) :: number (i + 1) l' end.

(** Positions of the members of a struct at [p]. *)
Fixpoint members (p i : Z) (owner : Z) (ms : list scalar) : list sighting :=
  match ms with
  | [] => []
  | t :: ms' => (owner, i, p, zwidth t) :: members (p + zwidth t) (i + 1) owner ms'
  end.

Fixpoint positions (p w : Z) (k : nat) : list Z :=
  match k with O => [] | S k' => p :: positions (p + w) w k' end.

(** Everything stored below a value, each value after its owner and before what
    is below it. *)
Fixpoint sightings (v : val) : list sighting :=
  match v with
  | Absent _ | Scalar _ _ => []
  | Struct p ms => members p 0 p ms
  | Scalars p k w =>
      if w =? 1 then []
      else map (fun iq => (p, fst iq, snd iq, -1)) (number 0 (positions p w (Z.to_nat k)))
  | Structs p k ms =>
      flat_map (fun iq => (p, fst iq, snd iq, -1) :: members (snd iq) 0 (snd iq) ms)
        (number 0 (positions p (struct_size ms) (Z.to_nat k)))
  | Tab _ p fs =>
      List.concat ((fix go i fs := match fs with
                    | [] => []
                    | f :: fs' =>
                        match f with
                        | Absent _ => []
                        | Scalar q w => [(p, i, q, w)]
                        | Scalars q k w =>
                            (p, i, q, if w =? 1 then k else -1) :: sightings f
                        | _ => (p, i, val_pos f, -1) :: sightings f
                        end :: go (i + 1) fs'
                    end) 0 fs)
  | Tabs _ p es =>
      List.concat ((fix go i es := match es with
                    | [] => []
                    | e :: es' => ((p, i, val_pos e, -1) :: sightings e) :: go (i + 1) es'
                    end) 0 es)
  end.

(** The values whose traversal is as it should be: scalars and vectors are
    there, and there are no structs. *)
Inductive traversable : val -> Prop :=
| Tr_no_table : forall tn, traversable (Absent (TyTable tn))
| Tr_no_struct : forall sn ms, traversable (Absent (TyStruct sn ms))
| Tr_no_union : forall us, traversable (Absent (TyUnion us))
| Tr_scalar : forall p w, traversable (Scalar p w)
| Tr_scalars : forall p k w, traversable (Scalars p k w)
| Tr_tab : forall name p fs, Forall traversable fs -> traversable (Tab name p fs)
| Tr_tabs : forall name p es, Forall traversable es -> traversable (Tabs name p es).

(** ** Access *)

(** The node stands for the value: no node for an absent one, the start and,
    for scalars and byte vectors, the size; start and length of a vector. *)
Definition stands_for (c : cnode) (v : val) : Prop :=
  match v with
  | Absent _ => c_node c = None
  | Scalar p w => c_node c = Some (p, w)
  | Struct p _ | Tab _ p _ => c_node c = Some (p, -1)
  | Scalars p k w => v_pos (c_info c) = p /\ v_len (c_info c) = k /\ (w = 1 -> c_node c = Some (p, k))
  | Structs p k _ => v_pos (c_info c) = p /\ v_len (c_info c) = k
  | Tabs _ p es => v_pos (c_info c) = p /\ v_len (c_info c) = zlen es
  end.

(** The node of a tree is at [p]: the start of a vector, else of the node. *)
Definition stands_at (c : cnode) (p : Z) : Prop :=
  if 0 <? v_pos (c_info c) then v_pos (c_info c) = p
  else exists z, c_node c = Some (p, z).

Definition owner_of (x : sighting) : Z := fst (fst (fst x)).
Definition place_of (x : sighting) : Z := snd (fst x).
