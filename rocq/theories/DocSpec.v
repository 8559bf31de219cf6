(** What each of a sequence of calls should do to the bytes and to the tree of
    stored values, stated on images and trees, without the functions of the
    model. *)
From Coq Require Import ZArith List Bool String.
From Coq Require Import Strings.Byte.
From Verif Require Import GoLib BaseModel BaseSpec TableModel TableSpec NameModel NameSpec WalkModel WalkSpec InsSpec PutSpec JourSpec ElemSpec SortSpec.
From Verif Require Import DocModel.
From Verif Require BuildSpec ListSpec.
Import ListNotations.
Open Scope list_scope.
Open Scope Z_scope.

(** What a call wrote: the ranges it touched, and the bytes given to it with the
    place where they are put. *)
Record trace := mkTrace { touched : list (Z * Z); given : list (Z * list byte) }.

(** The field [idx] of the only table [Tab tn tp fs] at [tp] of [v] has the type
    [t] and the value [w]. *)
Definition has_field (s : schema) (v : val) (tn : string) (tp idx : Z) (t : ty) (w : val) : Prop :=
  exists fs tys, only_table v (Tab tn tp fs) /\ s tn = Some tys /\ zget tys idx = Some t /\ types_no_union tys idx /\ zget fs idx = Some w.

(** [change n s m v c t m' v']: the call [c] on the value [v] stored in [m] makes it
    [v'] stored in [m']. *)
Inductive change (n : names) (s : schema) (m : image) (v : val) : call -> trace -> image -> val -> Prop :=
| Ch_field : forall e, editable n s m v e ->
    change n s m v (Set_field (e_table e) (e_pos e) (e_idx e) (e_base e) (e_node e))
      (mkTrace [(val_pos (e_old e), zlen (e_bytes e))] [(val_pos (e_old e), e_bytes e)])
      (img_write m (val_pos (e_old e)) (e_bytes e)) v
| Ch_elem : forall tn tp idx t w q k j eb e x, has_field s v tn tp idx t w -> inline_vector w q k -> 0 <= j < k ->
    gives_elem n t eb e x -> x <> [] ->
    (forall a l, In (a, l) (parts m (fill tp idx (Absent t) v)) -> disjoint a l (q + j * zlen x) (zlen x)) ->
    (forall a u, In (a, u) (links m v) -> disjoint a 4 (q + j * zlen x) (zlen x)) ->
    change n s m v (Set_elem tn tp idx j eb e)
      (mkTrace [(q + j * zlen x, zlen x)] [(q + j * zlen x, x)]) (img_write m (q + j * zlen x) x) v
| Ch_table : forall tn tp idx en q vs j old eb e m0 v0 x, has_field s v tn tp idx (TyTables en) (Tabs en q vs) -> zget vs j = Some old ->
    BuildSpec.lone_table n s eb e en m0 v0 -> reach v0 - val_pos v0 <= reach old - val_pos old ->
    measured (Tabs en q vs) -> measured (Tabs en q (set_nth j (carried (val_pos old - val_pos v0) v0) vs)) ->
    zlen x = reach v0 - val_pos v0 + lead v0 -> bytes_at m0 (val_pos v0 - lead v0) x -> 0 <= val_pos old - lead v0 ->
    elem_apart m v tp idx en q vs j (q - 4) 4 -> elem_apart m v tp idx en q vs j (val_pos old - lead v0) (zlen x) ->
    disjoint (q - 4) 4 (val_pos old - lead v0) (zlen x) ->
    change n s m v (Set_elem tn tp idx j eb e)
      (mkTrace [(q - 4, 4); (val_pos old - lead v0, zlen x)] [(val_pos old - lead v0, x)]) (img_write m (val_pos old - lead v0) x)
      (fill tp idx (Tabs en q (set_nth j (carried (val_pos old - val_pos v0) v0) vs)) v)
| Ch_swap : forall tn tp idx en q vs i j, has_field s v tn tp idx (TyTables en) (Tabs en q vs) ->
    slots_apart m v tp idx en q vs -> elems_follow q vs -> 0 <= i < zlen vs -> 0 <= j < zlen vs ->
    change n s m v (Swap_elems tn tp idx i j) (mkTrace [(q, 4 * zlen vs)] []) (swap_slots m q vs i j)
      (fill tp idx (Tabs en q (ListSpec.swapped vs i j)) v).

Inductive changes (n : names) (s : schema) : image -> val -> list call -> list trace -> image -> val -> Prop :=
| Chs_nil : forall m v, changes n s m v [] [] m v
| Chs_cons : forall m v c t m1 v1 cs ts m2 v2, change n s m v c t m1 v1 -> changes n s m1 v1 cs ts m2 v2 ->
    changes n s m v (c :: cs) (t :: ts) m2 v2.

(** None of the ranges [ts] touches the [k] bytes at [a]. *)
Definition untouched (a k : Z) (t : trace) : Prop := Forall (fun r => disjoint a k (fst r) (snd r)) (touched t).

(** The [k] bytes at [a] are part of what one of the calls [ts] on [b] was given,
    or came from one place in [b], and no later call touched them. *)
Definition left_whole (b : base) (ts : list trace) (a k : Z) : Prop :=
  (exists ts1 t ts2 a0 x, ts = ts1 ++ t :: ts2 /\ In (a0, x) (given t) /\ a0 <= a /\ a + k <= a0 + zlen x /\
     Forall (untouched a k) ts2) \/
  (held b a k /\ Forall (untouched a k) ts).

(** An image that has nothing before its start. *)
Definition proper (m : image) : Prop := forall i, i < 0 -> m i = None.
