(** Specifications for type names, name tables and symbols, stated without the
    helpers of the model. *)
From Coq Require Import ZArith List Bool String.
From Verif Require Import GoLib TableModel NameModel.
Import ListNotations.
Open Scope string_scope.
Open Scope list_scope.
Open Scope Z_scope.

(** The Go spelling of a scalar type, and the spelling of the exported type. *)
Definition scalar_name (t : scalar) (exported : bool) : string :=
  match t, exported with
  | SBool, false => "bool"       | SBool, true => "Bool"
  | SByte, false => "byte"       | SByte, true => "Byte"
  | SInt8, false => "int8"       | SInt8, true => "Int8"
  | SInt16, false => "int16"     | SInt16, true => "Int16"
  | SInt32, false => "int32"     | SInt32, true => "Int32"
  | SInt64, false => "int64"     | SInt64, true => "Int64"
  | SUint8, false => "uint8"     | SUint8, true => "Uint8"
  | SUint16, false => "uint16"   | SUint16, true => "Uint16"
  | SUint32, false => "uint32"   | SUint32, true => "Uint32"
  | SUint64, false => "uint64"   | SUint64, true => "Uint64"
  | SFloat32, false => "float32" | SFloat32, true => "Float32"
  | SFloat64, false => "float64" | SFloat64, true => "Float64"
  end.

(** What a type group says, one constructor per bit. *)
Inductive class := CNone | CStruct | CTable | CUnion | CSlice | CBasic (w : nat).

Definition class_bit (c : class) : Z :=
  match c with
  | CNone => 0
  | CStruct => 1
  | CTable => 2
  | CUnion => 3
  | CSlice => 4
  | CBasic 1 => 5
  | CBasic 2 => 6
  | CBasic 4 => 7
  | CBasic _ => 8
  end.

(** The group [g] has exactly the bits of the classes [l]. *)
Definition says (g : Z) (l : list class) : Prop :=
  forall k, 0 <= k -> (Z.testbit g k = true <-> In k (map class_bit l)).

(** A name that the classifier can only find in the tables of the schema: at
    least two bytes long, not a vector, not a scalar name (misspelled ones
    included), and not a scalar name after its first two bytes. *)
Definition plain (s : string) : Prop :=
  (2 <= String.length s)%nat /\ prefix "[]" s = false /\
  (forall k, ~ In (s, k) name_to_type) /\
  (forall a b r k, s = String a (String b r) -> ~ In (r, k) name_to_type).

(** What the initializers of a generated package say about a name. *)
Definition declared_union (l : list init_step) (s : string) : Prop :=
  exists a, In (IAlias s a) l.
Definition declared_struct (l : list init_step) (s : string) : Prop :=
  In (IStruct s true) l.

(** The type last given to field [num] of [node]. *)
Definition declared_field (l : list init_step) (node : string) (num : Z) (typ : string) : Prop :=
  exists l1 f l2, l = l1 ++ IField node f typ num :: l2 /\
    forall f' t', ~ In (IField node f' t' num) l2.

(** The group recorded for field [num] of [node]. *)
Definition group_of (n : names) (node : string) (num : Z) : option Z :=
  match lookup (n_groups n) node with
  | Some l => lookupz l num
  | None => None
  end.

(** No two field initializers are for the same field. *)
Definition field_keys (l : list init_step) : list (string * Z) :=
  flat_map (fun i => match i with IField nd _ _ k => [(nd, k)] | _ => [] end) l.

(** The distinct names of a list in order of first occurrence. *)
Fixpoint distinct (seen l : list string) : list string :=
  match l with
  | [] => []
  | s :: l' => if existsb (String.eqb s) seen then distinct seen l'
               else s :: distinct (s :: seen) l'
  end.
