(** What the fields of a Go struct should hold after they were filled from a
    stored table or struct. *)
From Coq Require Import ZArith List Bool String.
From Coq Require Import Strings.Byte.
From Verif Require Import GoLib BaseModel BaseSpec TableModel TableSpec NameModel NameSpec WalkModel WalkSpec.
From Verif Require Import UnmarshalModel.
Import ListNotations.
Open Scope list_scope.
Open Scope Z_scope.

(** The registered field names of a table or struct, in order. *)
Definition field_names (n : names) (name : string) (l : list string) : Prop :=
  exists m, lookup (n_nameidx n) name = Some m /\ forall f i, lookup m f = Some i <-> zget l i = Some f.

(** The registered Go type of field [i] is the exported one of the number. *)
Definition typed (n : names) (name : string) (i : Z) (t : scalar) : Prop :=
  exists l, lookup (n_idxname n) name = Some l /\ lookupz l i = Some (scalar_name t true).

(** The tag of the Go field is the name of field [i]. *)
Definition names_field (l : list string) (f : gfield) (i : Z) : Prop :=
  exists s, g_tag f = Some s /\ zget l i = Some s.

(** A number in little endian; any byte but 1 is false. *)
Definition num_at (m : image) (p : Z) (t : scalar) (v : Z) : Prop :=
  match t with
  | SBool => exists x, m p = Some x /\ v = (if b2z x =? 1 then 1 else 0)
  | _ => in_range t v /\ forall k, 0 <= k < zwidth t -> exists x, m (p + k) = Some x /\ b2z x = (v / 256 ^ k) mod 256
  end.

(** Go fields that hold numbers of the type. *)
Definition holds (g : gtype) (t : scalar) : Prop :=
  g = GAny \/ g = GNum t \/ (t = SByte /\ g = GNum SUint8) \/ (t = SUint8 /\ g = GNum SByte).

(** The Go struct fits: Go fields with the name of a number or string are
    exported and of its type, the strings are there and there are no tags of
    other vectors of numbers. *)
Definition fits (n : names) (name : string) (tys : list ty) (vs : list val) (l : list string) (f : gfield) : Prop :=
  forall i, names_field l f i ->
    match zget tys i with
    | Some (TyScalar t) => g_set f = true /\ holds (g_type f) t /\ typed n name i t
    | Some (TyScalars t) => g_set f = true /\ g_type f = GBytes /\ zwidth t = 1 /\
                            zget vs i <> Some (Absent (TyScalars t))
    | _ => True
    end.

(** Numbers and strings have been stored into the Go fields with their names, 0
    for a number that is not there; other Go fields are as before. *)
Definition received (m : image) (tys : list ty) (vs : list val) (l : list string) (f f' : gfield) : Prop :=
  g_tag f' = g_tag f /\ g_set f' = g_set f /\ g_type f' = g_type f /\
  (forall i t q w, names_field l f i -> zget tys i = Some (TyScalar t) -> zget vs i = Some (Scalar q w) ->
     exists v, g_val f' = VNum t v /\ num_at m q t v) /\
  (forall i t, names_field l f i -> zget vs i = Some (Absent (TyScalar t)) -> g_val f' = VNum t 0) /\
  (forall i q k, names_field l f i -> zget vs i = Some (Scalars q k 1) ->
     exists bs, g_val f' = VBytes bs /\ zlen bs = k /\ forall j, 0 <= j < k -> zget bs j = m (q + j)) /\
  ((forall i, names_field l f i ->
      match zget tys i with Some (TyScalar _) | Some (TyScalars _) => False | _ => True end) -> f' = f).

(** The members of a struct. *)
Fixpoint member_vals (p : Z) (ms : list scalar) : list val :=
  match ms with
  | [] => []
  | t :: ms' => Scalar p (zwidth t) :: member_vals (p + zwidth t) ms'
  end.

(** The registry knows the groups of the members. *)
Definition members_described (n : names) (name : string) (ms : list scalar) : Prop :=
  forall i t, zget ms i = Some t -> exists g, group_of n name i = Some g /\ says g [CBasic (width t)].
