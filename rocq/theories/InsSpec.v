(** What inserting space into a buffer should do to the values stored in it,
    stated on images and on trees of stored values, without the functions of the
    model. *)
From Coq Require Import ZArith List Bool String.
From Verif Require Import GoLib BaseModel BaseSpec TableModel TableSpec NameModel NameSpec WalkModel WalkSpec.
Import ListNotations.
Open Scope list_scope.
Open Scope Z_scope.

(** Where a position is after [size] bytes were inserted at [pos]. *)
Definition shift (pos size x : Z) : Z := if x <? pos then x else x + size.

(** The value with all its positions shifted; a vector goes where its length
    goes. *)
Fixpoint moved (pos size : Z) (v : val) : val :=
  let sh := shift pos size in
  match v with
  | Absent t => Absent t
  | Scalar p w => Scalar (sh p) w
  | Struct p ms => Struct (sh p) ms
  | Scalars p k w => Scalars (sh (p - 4) + 4) k w
  | Structs p k ms => Structs (sh (p - 4) + 4) k ms
  | Tab name p fs => Tab name (sh p) (map (moved pos size) fs)
  | Tabs name p es => Tabs name (sh (p - 4) + 4) (map (moved pos size) es)
  end.

(** ** The bytes a value consists of *)

Section Layout.
Variable m : image.

(** The number of [k] bytes at [p]; bytes that are not there count as 0. *)
Fixpoint num (p : Z) (k : nat) : Z :=
  match k with
  | O => 0
  | S k' => match m p with Some x => b2z x | None => 0 end + 256 * num (p + 1) k'
  end.

(** The vtable of the table at [p], and where its field [i] is. *)
Definition vtable_of (p : Z) : Z := p - num p 4.
Definition slot_of (p i : Z) : Z := p + num (vtable_of p + 4 + 2 * i) 2.

(** Where the offset of a reference to the value leads to; [None] for what is
    stored in place. *)
Definition start (v : val) : option Z :=
  match v with
  | Absent _ | Scalar _ _ | Struct _ _ => None
  | Scalars q _ _ | Structs q _ _ | Tabs _ q _ => Some (q - 4)
  | Tab _ q _ => Some q
  end.

(** Position and length of everything but references. *)
Fixpoint parts (v : val) : list (Z * Z) :=
  match v with
  | Absent _ => []
  | Scalar p w => [(p, w)]
  | Struct p ms => [(p, struct_size ms)]
  | Scalars p k w => [(p - 4, 4 + k * w)]
  | Structs p k ms => [(p - 4, 4 + k * struct_size ms)]
  | Tab _ p fs => (p, 4) :: (vtable_of p, 4 + 2 * zlen fs) :: flat_map parts fs
  | Tabs _ p es => (p - 4, 4) :: flat_map parts es
  end.

(** Every reference: where its offset is stored and where it leads to. *)
Fixpoint links (v : val) : list (Z * Z) :=
  match v with
  | Tab _ p fs =>
      List.concat ((fix go i fs := match fs with
                    | [] => []
                    | f :: fs' => (match start f with Some t => [(slot_of p i, t)] | None => [] end
                                     ++ links f) :: go (i + 1) fs'
                    end) 0 fs)
  | Tabs _ q es =>
      List.concat ((fix go i es := match es with
                    | [] => []
                    | e :: es' => ((q + 4 * i, val_pos e) :: links e) :: go (i + 1) es'
                    end) 0 es)
  | _ => []
  end.

(** Positions whose distance is fixed by something other than a reference: a
    table and its vtable, a table and its fields, the length of a vector and the
    offsets in it. *)
Fixpoint ties (v : val) : list (Z * Z) :=
  match v with
  | Tab _ p fs =>
      (p, vtable_of p) ::
      List.concat ((fix go i fs := match fs with
                    | [] => []
                    | f :: fs' => (if is_absent f then ties f else (p, slot_of p i) :: ties f) :: go (i + 1) fs'
                    end) 0 fs)
  | Tabs _ q es =>
      List.concat ((fix go i es := match es with
                    | [] => []
                    | e :: es' => ((q - 4, q + 4 * i) :: ties e) :: go (i + 1) es'
                    end) 0 es)
  | _ => []
  end.

(** The starts of everything stored; the first element of a vector of scalars
    does not count beside the vector. *)
Definition starts (v : val) : list Z :=
  val_pos v :: map place_of (filter (fun x => negb (place_of x =? owner_of x)) (sightings v)).

(** The place [pos] lies between things. *)
Definition one_side (pos a k : Z) : Prop := a + k <= pos \/ pos <= a.

Definition between (pos : Z) (v : val) : Prop :=
  (forall a k, In (a, k) (parts v) -> one_side pos a k) /\
  (forall a t, In (a, t) (links v) -> one_side pos a 4) /\
  (forall a c, In (a, c) (ties v) -> (a < pos <-> c < pos)).

(** No offset shares a byte with anything else. *)
Definition disjoint (a k c l : Z) : Prop := a + k <= c \/ c + l <= a.

Definition apart_links (v : val) : Prop :=
  ForallOrdPairs (fun x y => disjoint (fst x) 4 (fst y) 4) (links v) /\
  forall a t c k, In (a, t) (links v) -> In (c, k) (parts v) -> disjoint a 4 c k.

End Layout.

(** ** The values the insertion is stated for *)

(** Numbers, vectors of numbers, tables and vectors of tables; numbers, structs,
    tables and unions may be absent. *)
Inductive insertable : val -> Prop :=
| In_no_scalar : forall t, insertable (Absent (TyScalar t))
| In_no_table : forall tn, insertable (Absent (TyTable tn))
| In_no_struct : forall sn ms, insertable (Absent (TyStruct sn ms))
| In_no_union : forall us, insertable (Absent (TyUnion us))
| In_scalar : forall p w, insertable (Scalar p w)
| In_scalars : forall p k w, insertable (Scalars p k w)
| In_tab : forall name p fs, Forall insertable fs -> insertable (Tab name p fs)
| In_tabs : forall name p es, Forall insertable es -> insertable (Tabs name p es).

(** An absent field; a number counts as present. *)
Definition gap (v : val) : bool :=
  match v with
  | Absent (TyScalar _) => false
  | Absent _ => true
  | _ => false
  end.

(** ** The references the code finds *)

Section Found.
Variable s : schema.
Variable own : string * Z.
Variable pos : Z.

(** For every reference across [pos]: no earlier field of its table is absent
    (numbers aside), the table was not reached through a union, and it is not the table (or the
    vector) [own] itself.  The flag says that the value was reached through a
    union. *)
Inductive found : bool -> val -> Prop :=
| Fo_absent : forall u t, found u (Absent t)
| Fo_scalar : forall u p w, found u (Scalar p w)
| Fo_scalars : forall u p k w, found u (Scalars p k w)
| Fo_tab : forall u name p fs tys, s name = Some tys ->
    (forall i f, zget fs i = Some f -> p < pos <= val_pos f ->
       u = false /\ own <> (name, p) /\
       forall j g, 0 <= j < i -> zget fs j = Some g -> gap g = false) ->
    (forall i tn q es, zget fs i = Some (Tabs tn q es) ->
       (exists e, In e es /\ q < pos <= val_pos e) -> own <> (("[]" ++ tn)%string, p)) ->
    (forall i f t, zget fs i = Some f -> zget tys i = Some t -> found (is_union t) f) ->
    found u (Tab name p fs)
| Fo_tabs : forall u name q es, (forall e, In e es -> found false e) -> found u (Tabs name q es).

End Found.

(** The buffer leads from the offset at [a] to [t]. *)
Definition leads (b : base) (a t : Z) : Prop := rd 4 b a = Ok (t - a).

(** The node after the insertion: a vector or table is known at its new place;
    a node that begins at the place itself is not claimed to move. *)
Definition node_shifted (pos size : Z) (c c' : cnode) : Prop :=
  (is_list_name (c_name c) (v_len (c_info c)) = Ok true -> v_pos (c_info c) <> pos ->
     c' = mkC (c_node c) (mkV (shift pos size (v_pos (c_info c))) (v_size (c_info c)) (v_len (c_info c)))
            (c_name c) (c_types c) (c_groups c)) /\
  (is_list_name (c_name c) (v_len (c_info c)) = Ok false -> forall p z, c_node c = Some (p, z) -> p <> pos ->
     c' = mkC (Some (shift pos size p, z)) (c_info c) (c_name c) (c_types c) (c_groups c)).
