(** The FlatBuffers layout of scalars, tables and structs, stated on images
    (partial maps from positions to bytes), without reference to the code. *)
From Coq Require Import ZArith List Bool.
From Coq Require Import Strings.Byte.
From Verif Require Import GoLib BaseModel BaseSpec TableModel.
Import ListNotations.
Open Scope Z_scope.

(** Range of a scalar type. *)
Definition in_range (t : scalar) (v : Z) : Prop :=
  match t with
  | SBool => 0 <= v <= 1
  | SByte | SUint8 => 0 <= v <= 255
  | SInt8 => -128 <= v <= 127
  | SUint16 => 0 <= v <= 65535
  | SInt16 => -32768 <= v <= 32767
  | SUint32 | SFloat32 => 0 <= v <= 4294967295
  | SInt32 => -2147483648 <= v <= 2147483647
  | SUint64 | SFloat64 => 0 <= v <= 18446744073709551615
  | SInt64 => -9223372036854775808 <= v <= 9223372036854775807
  end.

(** An unsigned little-endian number of [n] bytes stored at [pos]. *)
Definition holds_uint (m : image) (pos : Z) (n : nat) (v : Z) : Prop :=
  0 <= v < 256 ^ Z.of_nat n /\
  forall k, 0 <= k < Z.of_nat n ->
    exists x, m (pos + k) = Some x /\ b2z x = (v / 256 ^ k) mod 256.

(** A table of the format: [soff] is the stored signed offset from the vtable to
    the table, [entries] the field offsets of its vtable, [tlen] the inline
    size. *)
Record table_at (m : image) (pos soff : Z) (entries : list Z) (tlen : Z) : Prop := {
  ta_soff : holds_uint m pos 4 (soff mod 2 ^ 32);
  ta_range : - 2 ^ 31 <= soff < 2 ^ 31;
  ta_vpos : 0 <= pos /\ 0 <= pos - soff;
  ta_vlen : holds_uint m (pos - soff) 2 (4 + 2 * zlen entries);
  ta_tlen : holds_uint m (pos - soff + 2) 2 tlen;
  ta_entry : forall i e, zget entries i = Some e ->
               holds_uint m (pos - soff + 4 + 2 * i) 2 e
}.

(** A buffer without journal, as opened from bytes or flattened. *)
Definition flat (b : base) : Prop := b_rdiffs b = nil /\ b_diffs b = nil.

(** Running sum of sizes. *)
Definition offset_of (sizes : list Z) (i : nat) : Z := sum_z (firstn i sizes).

(** The format places each struct field at the next multiple of its size. *)
Fixpoint format_offset (start : Z) (sizes : list Z) (i : nat) : Z :=
  match sizes with
  | nil => start
  | n :: sizes' =>
      let here := - ((- start) / n) * n in
      match i with
      | O => here
      | S k => format_offset (here + n) sizes' k
      end
  end.

(** Values assigned to fields: the abstract state of a table or struct. *)
Definition fmap := Z -> option (list byte).
Definition fmap_set (m : fmap) (i : Z) (p : list byte) : fmap :=
  fun j => if j =? i then Some p else m j.

(** [src] delivers the bytes [p] at [pos] in one read (as every buffer made by
    FromX, or without journal, does). *)
Definition delivers (src : base) (pos : Z) (p : list byte) : Prop :=
  exists s, base_r src pos (zlen p) = Ok (Some s) /\
            zlen p <= gs_len s /\ zfirst (zlen p) (sl_data s) = p.

(** Reading a field: absent, or its first [n] bytes as one read gives them. *)
Definition read_field (t : tnode) (idx n : Z) : res (option (list byte)) :=
  do f <- field_at t idx;
  match f with
  | None => Ok None
  | Some p => do s <- base_r (t_io t) p n; Ok (Some (zfirst n (opt_data s)))
  end.

(** A history of assignments (field, source buffer, position in it). *)
Definition assign := (Z * base * Z)%type.

Fixpoint run_assigns (ks : list fkind) (t : tnode) (l : list assign) : res (option tnode) :=
  match l with
  | nil => Ok (Some t)
  | (i, src, sp) :: l' =>
      do r <- set_field ks t i src sp;
      match r with
      | SetOk t' => run_assigns ks t' l'
      | _ => Ok None
      end
  end.

Fixpoint run_struct_assigns (sizes : list Z) (b : base) (pos : Z)
    (l : list (nat * base * Z)) : res (option base) :=
  match l with
  | nil => Ok (Some b)
  | (i, src, sp) :: l' =>
      do r <- set_struct_field sizes b pos i src sp;
      match r with
      | Some b' => run_struct_assigns sizes b' pos l'
      | None => Ok None
      end
  end.

(** An assignment of [p] to field [i] is well typed and its source delivers
    [p]. *)
Definition assign_ok (ks : list fkind) (a : assign) (p : list byte) : Prop :=
  let '(i, src, sp) := a in
  (exists k, zget ks i = Some k /\ inline_size k = Some (zlen p)) /\ delivers src sp p.

(** The values left by a history of assignments. *)
Definition final_map (l : list (assign * list byte)) : fmap :=
  fold_left (fun m ap => fmap_set m (fst (fst (fst ap))) (snd ap)) l (fun _ => None).

(** Bytes needed when every inline field is present. *)
Definition inline_total (ks : list fkind) : Z :=
  sum_z (map (fun k => match inline_size k with Some n => n | None => 0 end) ks).

(** The same for structs: members are fixed, so only the map changes. *)
Definition member_ok (sizes : list Z) (a : nat * base * Z) (p : list byte) : Prop :=
  let '(i, src, sp) := a in
  nth_error sizes i = Some (zlen p) /\ delivers src sp p.

Definition final_members (m : nat -> list byte) (l : list ((nat * base * Z) * list byte))
  : nat -> list byte :=
  fold_left (fun m ap j => if Nat.eqb j (fst (fst (fst ap))) then snd ap else m j) l m.

(** Member [i] of the struct at [pos], as one read gives it. *)
Definition read_member (sizes : list Z) (b : base) (pos : Z) (i : nat) (n : Z) : res (list byte) :=
  do s <- base_r b (struct_field_pos pos sizes i) n; Ok (zfirst n (opt_data s)).

(** The bytes the format assigns to member [i] (sum of the earlier sizes). *)
Definition member_bytes (l : list byte) (pos : Z) (sizes : list Z) (i : nat) : list byte :=
  match nth_error sizes i with
  | Some n => zfirst n (zskip (pos + offset_of sizes i) l)
  | None => nil
  end.
