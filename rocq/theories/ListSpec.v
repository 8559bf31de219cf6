(** What vectors should do, stated on images, element lists and permutations. *)
From Coq Require Import ZArith List Bool.
From Coq Require Import Strings.Byte.
From Verif Require Import GoLib BaseModel BaseSpec TableModel TableSpec ListModel.
Import ListNotations.
Open Scope Z_scope.

(** The format: a vector with [n] elements starting at [pos] has its length in
    the four bytes before. *)
Definition vector_at (m : image) (pos n : Z) : Prop :=
  4 <= pos /\ holds_uint m (pos - 4) 4 n.

(** A list node shows the elements at positions [es]. *)
Definition has_elements (k : ekind) (l : lnode) (es : list Z) : Prop :=
  list_vlen l = Ok (zlen es) /\
  forall i e, zget es i = Some e -> list_at k l i = Ok (Some e).

(** The slots of a vector of tables refer to the positions [ts]. *)
Definition refers (l : lnode) (ts : list Z) : Prop :=
  list_vlen l = Ok (zlen ts) /\
  forall i t, zget ts i = Some t ->
    rd 4 (l_io l) (l_pos l + i * 4) = Ok (t - (l_pos l + i * 4)).

(** As in every FlatBuffers vector, the targets come after the slots and are
    within reach of a 32-bit offset. *)
Definition targets_follow (l : lnode) (ts : list Z) : Prop :=
  4 <= l_pos l /\
  forall t, In t ts -> l_pos l + zlen ts * 4 <= t < l_pos l + 2 ^ 32.

(** Replacing and exchanging elements of a list. *)
Definition put {A} (l : list A) (i : Z) (x : A) : list A :=
  zfirst i l ++ x :: zskip (i + 1) l.
Definition swapped {A} (l : list A) (i j : Z) : list A :=
  match zget l i, zget l j with
  | Some a, Some b => put (put l i b) j a
  | _, _ => l
  end.

(** Two images agree outside the [n] slots at [pos]. *)
Definition same_outside (pos n : Z) (m m' : image) : Prop :=
  forall c, 0 <= c -> c < pos \/ pos + n * 4 <= c -> m' c = m c.

(** All indexes a strategy uses are in [0 .. n-1]. *)
Fixpoint in_bounds (n : Z) (s : strategy) : Prop :=
  match s with
  | Done => True
  | Less i j c => 0 <= i < n /\ 0 <= j < n /\ forall r, in_bounds n (c r)
  | Swap i j c => 0 <= i < n /\ 0 <= j < n /\ in_bounds n c
  end.

(** A strategy applied to a plain list with a comparison. *)
Fixpoint run_plain (lt : Z -> Z -> bool) (ts : list Z) (s : strategy) : list Z :=
  match s with
  | Done => ts
  | Less i j c =>
      run_plain lt ts (c (match zget ts i, zget ts j with
                          | Some a, Some b => lt a b
                          | _, _ => false
                          end))
  | Swap i j c => run_plain lt (swapped ts i j) c
  end.

Record strict_weak (lt : Z -> Z -> bool) : Prop := {
  sw_asym : forall a b, lt a b = true -> lt b a = false;
  sw_trans : forall a b c, lt a b = false -> lt b c = false -> lt a c = false
}.

Definition sorted (lt : Z -> Z -> bool) (ts : list Z) : Prop :=
  forall i j a b, i < j -> zget ts i = Some a -> zget ts j = Some b -> lt b a = false.

(** The contract of [sort.Sort] on [n] elements. *)
Definition sorting (n : Z) (s : strategy) : Prop :=
  in_bounds n s /\
  forall lt ts, strict_weak lt -> zlen ts = n -> sorted lt (run_plain lt ts s).

(** The comparison function given to [SortBy] compares what the slots refer to:
    on any list with the same bytes outside the slots and slots referring to
    [ts], it answers [lt] of the two targets. *)
Definition compares (less : lnode -> Z -> Z -> res bool) (lt : Z -> Z -> bool)
    (l0 : lnode) (n : Z) : Prop :=
  forall l ts i j a b m0 m,
    l_pos l = l_pos l0 -> in_memory (l_io l) ->
    shows (l_io l0) m0 -> shows (l_io l) m -> same_outside (l_pos l0) n m0 m ->
    zlen ts = n -> refers l ts -> targets_follow l ts -> zget ts i = Some a -> zget ts j = Some b ->
    less l i j = Ok (lt a b).

(** Reading an inline element of [n] bytes. *)
Definition read_elem (k : ekind) (l : lnode) (i n : Z) : res (option (list byte)) :=
  do p <- list_at k l i;
  match p with
  | None => Ok None
  | Some p => do s <- base_r (l_io l) p n; Ok (Some (zfirst n (opt_data s)))
  end.

(** A history of [SetAt] calls: index, source buffer, position of the element
    in it, and the bytes it has there. *)
Definition lset := (Z * base * Z)%type.

Fixpoint run_sets (k : ekind) (l : lnode) (ops : list lset) : res list_res :=
  match ops with
  | nil => Ok (LOk l)
  | (i, src, sp) :: ops' =>
      do r <- set_at k l i src sp (-1);
      match r with
      | LOk l' => run_sets k l' ops'
      | other => Ok other
      end
  end.

(** The plain list after storing [p] at index [i], appending when [i] is the
    length. *)
Definition store {A} (vals : list A) (i : Z) (p : A) : list A :=
  if i =? zlen vals then vals ++ [p] else put vals i p.

(** Each step's index is at most the current length and its source delivers
    [size] bytes. *)
Fixpoint sets_ok (size n : Z) (ops : list (lset * list byte)) : Prop :=
  match ops with
  | nil => True
  | (i, src, sp, p) :: ops' =>
      0 <= i <= n /\ delivers src sp p /\ zlen p = size /\
      sets_ok size (if i =? n then n + 1 else n) ops'
  end.

Definition final_list (ops : list (lset * list byte)) : list (list byte) :=
  fold_left (fun vals '(i, _, _, p) => store vals i p) ops nil.

(** ** Vectors of tables *)

Definition readable (b : base) (i : Z) : Prop := exists x, peek b i = Ok (Some x).

(** Size of a vtable for a table type with fields [ks]. *)
Definition vtable_size (ks : list fkind) : Z := 4 + 2 * zlen ks.

(** A table at [sp] of [src] whose vtable lies directly before it and whose
    fields are all stored inline; [es] is its size according to [Info].  No
    entry of the journal of [src] starts inside an earlier one. *)
Record self_contained (ks : list fkind) (src : base) (sp es : Z) : Prop := {
  sc_mem : in_memory src;
  sc_clean : no_inner_start (b_diffs src);
  sc_pos : vtable_size ks <= sp;
  sc_vpos : vtable_pos src sp = Ok (sp - vtable_size ks);
  sc_vlen : virtual_table_len src sp = Ok (vtable_size ks);
  sc_tlen : exists tl, table_len src sp = Ok tl;
  sc_entry : forall i, 0 <= i < zlen ks ->
               exists e, rd 2 src (sp - vtable_size ks + 4 + 2 * i) = Ok e;
  sc_size : elem_info (ETable ks) src sp = Ok (Some es);
  sc_min : 4 <= es;
  sc_head : forall j, sp - vtable_size ks <= j < sp -> readable src j
}.

(** Whatever one read of [src] answers inside the block [lo, hi) around [sp],
    one read of [dst] answers at the same place around [t]. *)
Definition same_reads (src : base) (sp : Z) (dst : base) (t lo hi : Z) : Prop :=
  forall k q, lo <= k -> k + zlen q <= hi -> 1 <= zlen q ->
    (forall j, lo <= j < k -> readable src (sp + j)) ->
    delivers src (sp + k) q -> delivers dst (t + k) q.

(** Appending tables one after the other, as [SetAt(Count(), e)]. *)
Fixpoint append_ops (n : Z) (es : list (base * Z * Z)) : list lset :=
  match es with
  | nil => nil
  | (src, sp, _) :: es' => (n, src, sp) :: append_ops (n + 1) es'
  end.

(** Bytes the vector takes after its length word. *)
Fixpoint appended_size (ks : list fkind) (es : list (base * Z * Z)) : Z :=
  match es with
  | nil => 0
  | (_, _, s) :: es' => 4 + vtable_size ks + s + appended_size ks es'
  end.
