(** What setting an element of a stored vector should do, stated on images and on
    trees of stored values, without the functions of the model. *)
From Coq Require Import ZArith List Bool String.
From Coq Require Import Strings.Byte.
From Verif Require Import GoLib BaseModel BaseSpec TableModel TableSpec NameModel NameSpec WalkModel WalkSpec InsSpec PutSpec.
Import ListNotations.
Open Scope list_scope.
Open Scope Z_scope.

(** The node [e] in the buffer [eb] is the number or struct [x], an element for a
    vector of type [t].  The size the node claims is none or the right one. *)
Definition gives_elem (n : names) (t : ty) (eb : base) (e : cnode) (x : list byte) : Prop :=
  exists pos z, c_node e = Some (pos, z) /\ (z <= 0 \/ z = zlen x) /\ delivers eb pos x /\
  match t with
  | TyScalars u => lookup name_to_type (c_name e) = Some u /\ zlen x = zwidth u
  | TyStructs sn ms => e = new_node n (Some (pos, z)) no_vinfo sn /\ zlen x = struct_size ms
  | _ => False
  end.

(** [w] is a vector of [k] numbers or structs that begin at [q]. *)
Definition inline_vector (w : val) (q k : Z) : Prop :=
  match w with
  | Scalars q' k' _ | Structs q' k' _ => q' = q /\ k' = k
  | _ => False
  end.

(** The number of elements of a vector. *)
Definition vector_length (w : val) : option Z :=
  match w with
  | Scalars _ k _ | Structs _ k _ => Some k
  | Tabs _ _ es => Some (zlen es)
  | _ => None
  end.

(** ** Vectors of tables *)

(** The vector of tables at [q] without its element [j]. *)
Definition without (en : string) (q : Z) (vs : list val) (j : Z) : val :=
  Tabs en q (set_nth j (Absent (TyTable en)) vs).

(** What the element [j] of the vector of tables [Tabs en q vs], field [idx] of
    the table at [tp], must not share bytes with: what else there is of [v], the
    other elements, the references to the vector and in it. *)
Definition other_parts (m : image) (v : val) (tp idx : Z) (en : string) (vs : list val) (j : Z) : list (Z * Z) :=
  parts m (fill tp idx (Absent (TyTables en)) v) ++ flat_map (parts m) (set_nth j (Absent (TyTable en)) vs).

Definition other_links (m : image) (v : val) (tp idx : Z) (en : string) (q : Z) (vs : list val) (j : Z) : list (Z * Z) :=
  (slot_of m tp idx, q - 4) :: links m (fill tp idx (Absent (TyTables en)) v) ++ links m (without en q vs j).

(** All of it is apart from the [l] bytes at [p]. *)
Definition elem_apart (m : image) (v : val) (tp idx : Z) (en : string) (q : Z) (vs : list val) (j p l : Z) : Prop :=
  (forall a k, In (a, k) (other_parts m v tp idx en vs j) -> disjoint a k p l) /\
  (forall a t, In (a, t) (other_links m v tp idx en q vs j) -> disjoint a 4 p l).
