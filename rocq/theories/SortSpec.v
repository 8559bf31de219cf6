(** What exchanging and sorting the elements of a stored vector of tables should
    do, stated on images and on trees of stored values. *)
From Coq Require Import ZArith List Bool String Permutation.
From Verif Require Import GoLib BaseModel BaseSpec TableModel TableSpec NameModel StreamModel WalkModel WalkSpec InsSpec PutSpec JourSpec.
Import ListNotations.
Open Scope list_scope.
Open Scope Z_scope.

(** The slots of the vector of tables [Tabs en q vs], field [idx] of the table at
    [tp] of [v], share no byte with what else there is of [v], with the elements
    or with the references to and in all these. *)
Definition slots_apart (m : image) (v : val) (tp idx : Z) (en : string) (q : Z) (vs : list val) : Prop :=
  (forall a k, In (a, k) (parts m (fill tp idx (Absent (TyTables en)) v) ++ flat_map (parts m) vs) -> disjoint a k q (4 * zlen vs)) /\
  (forall a u, In (a, u) ((slot_of m tp idx, q - 4) :: links m (fill tp idx (Absent (TyTables en)) v) ++ flat_map (links m) vs) ->
     disjoint a 4 q (4 * zlen vs)).

(** The elements are stored behind the slots, near enough for any slot to refer
    to any of them. *)
Definition elems_follow (q : Z) (vs : list val) : Prop :=
  forall u, In u vs -> q + 4 * zlen vs <= val_pos u < q + 4294967296.

(** The slots [i] and [j] exchanged: each gets the distance to what the other one
    refers to. *)
Definition swap_slots (m : image) (q : Z) (vs : list val) (i j : Z) : image :=
  match zget vs i, zget vs j with
  | Some x, Some y =>
      if i =? j then m
      else img_write (img_write m (q + 4 * i) (le_encode 4 (val_pos y - (q + 4 * i)))) (q + 4 * j) (le_encode 4 (val_pos x - (q + 4 * j)))
  | _, _ => m
  end.

(** [less] compares what the slots of [Tabs en q vs] refer to: in every buffer
    that has the same bytes outside the slots, read from one place if they were,
    and has the elements in some order, the answer is [lt] of the places of the two elements. *)
Definition compares_elems (less : base -> Z -> Z -> res bool) (lt : Z -> Z -> bool) (s : schema) (b : base) (m : image) (en : string) (q : Z) (vs : list val) : Prop :=
  forall b' m' ws i j x y, in_memory b' -> shows b' m' ->
  (forall a, a < q \/ q + 4 * zlen vs <= a -> m' a = m a) ->
  (forall a k, 1 <= k -> held b a k -> disjoint a k q (4 * zlen vs) -> held b' a k) ->
  Permutation vs ws -> holds_uint m' (q - 4) 4 (zlen ws) -> stored_elems m' s q en ws -> intact b' m' (Tabs en q ws) ->
  zget ws i = Some x -> zget ws j = Some y -> less b' i j = Ok (lt (val_pos x) (val_pos y)).

(** Exactly what a pair of neighbours out of order means. *)
Definition in_order (lt : Z -> Z -> bool) (ws : list val) : Prop :=
  forall i x y, zget ws i = Some x -> zget ws (i + 1) = Some y -> lt (val_pos y) (val_pos x) = false.

(** A comparison as a caller writes it: by the number of [w] bytes, without sign,
    that is the field [k] of the elements of the vector [f]. *)
Definition by_number (n : names) (f : cnode) (k : Z) (w : nat) (b : base) (i j : Z) : res bool :=
  do x <- vec_at n b f i; do y <- vec_at n b f j;
  match x, y with
  | Some x, Some y =>
      do fx <- field_at n b x k; do fy <- field_at n b y k;
      do px <- node_pos fx; do py <- node_pos fy;
      do vx <- rd w b px; do vy <- rd w b py; Ok (vx <? vy)
  | _, _ => Panic
  end.

(** What it compares in [m], for elements at [x] and [y]. *)
Definition smaller_number (m : image) (k : Z) (w : nat) (x y : Z) : bool :=
  num m (slot_of m x k) w <? num m (slot_of m y k) w.
