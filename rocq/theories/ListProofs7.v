(** Inside positions, index checks of the changing calls, and counterexamples
    about vectors. *)
From Coq Require Import ZArith List Bool Lia Permutation.
From Coq Require Import Strings.Byte.
From Verif Require Import GoLib BaseModel GoLemmas BaseSpec BaseProofs BaseProofs2 BaseProofs3.
From Verif Require Import TableModel TableSpec TableProofs TableProofs2 TableProofs3 ListModel ListSpec.
From Verif Require Import ListProofs ListProofs2 ListProofs3.
Import ListNotations.
Open Scope Z_scope.

Lemma at_inside : forall k l n size i, list_vlen l = Ok n -> fixed_size k = Some size -> 0 <= size ->
  0 <= i < n -> exists p, list_at k l i = Ok (Some p) /\
    l_pos l <= p /\ p + size <= l_pos l + n * size.
Proof.
  intros k l n size i HV HS Hs Hi. exists (l_pos l + i * size).
  split; [apply (at_fixed k l n size i); auto|]. nia.
Qed.

Lemma at_table_inside : forall ks l n i off soff es tl, flat (l_io l) ->
  vector_at (img_bytes (sl_data (b_bytes (l_io l)))) (l_pos l) n -> 0 <= i < n ->
  holds_uint (img_bytes (sl_data (b_bytes (l_io l)))) (l_pos l + i * 4) 4 off ->
  table_at (img_bytes (sl_data (b_bytes (l_io l)))) (l_pos l + i * 4 + off) soff es tl -> 0 <= soff ->
  n * 4 <= i * 4 + off ->
  exists p, list_at (ETable ks) l i = Ok (Some p) /\ l_pos l + n * 4 <= p /\ p + 4 <= len_buf (l_io l).
Proof.
  intros ks l n i off soff es tl F V Hi HO T Hs Hf. exists (l_pos l + i * 4 + off).
  split; [eapply at_table_flat; eauto|]. split; [lia|].
  rewrite flat_len_buf by auto. destruct (ta_soff _ _ _ _ _ T) as [_ H].
  destruct (H 3 ltac:(lia)) as (x & Hx & _). unfold img_bytes in Hx. apply zget_some_range in Hx.
  unfold gs_len. lia.
Qed.

Lemma at_fixed_flat : forall k l n size i, flat (l_io l) ->
  vector_at (img_bytes (sl_data (b_bytes (l_io l)))) (l_pos l) n -> fixed_size k = Some size ->
  0 <= i < n -> list_at k l i = Ok (Some (l_pos l + i * size)).
Proof. intros. eapply at_fixed; eauto. apply vlen_flat; auto. Qed.

(** Index checks. *)
Lemma set_at_beyond : forall k l idx src sp es, l_vlen l < idx -> set_at k l idx src sp es = Ok LErr.
Proof.
  intros k l idx src sp es H. destruct k; cbn [set_at]; unfold set_struct_at, set_table_at;
  replace (l_vlen l <? idx) with true by lia; reflexivity.
Qed.

Lemma swap_at_beyond : forall k l n i j, list_vlen l = Ok n -> n <= i \/ n <= j ->
  swap_at k l i j = Ok (l, false).
Proof.
  intros k l n i j HV H. unfold swap_at. rewrite HV. cbn [bind].
  replace ((n <=? i) || (n <=? j)) with true by lia. reflexivity.
Qed.

Definition sevens : base := new_base (gs_of [x07;x07;x07;x07]).
Definition eights : base := new_base (gs_of [x08;x08;x08;x08]).

Lemma set_negative : exists l l', 
  run_sets (EBasic 4) init_list [(0, sevens, 0); (1, eights, 0)] = Ok (LOk l) /\
  list_vlen l = Ok 2 /\ set_at (EBasic 4) l (-1) sevens 0 (-1) = Ok (LOk l') /\
  list_vlen l' <> Ok 2.
Proof.
  eexists. eexists. split; [vm_compute; reflexivity|]. split; [vm_compute; reflexivity|].
  split; [vm_compute; reflexivity|]. vm_compute. congruence.
Qed.

(** A vector of two tables without fields, laid out per the format. *)
Definition two_tables : list byte :=
  [x02;x00;x00;x00; x0c;x00;x00;x00; x10;x00;x00;x00;
   x04;x00;x04;x00; x04;x00;x00;x00;
   x04;x00;x04;x00; x04;x00;x00;x00].
Definition two_node : lnode := mkL (new_base (gs_of two_tables)) 4 4 2 24.

Lemma swap_negative : exists l',
  refers two_node [16; 24] /\
  swap_at (ETable []) two_node (-1) 0 = Ok (l', true) /\ list_vlen l' <> Ok 2.
Proof.
  eexists. split.
  - split; [vm_compute; reflexivity|]. intros i t H.
    pose proof (zget_some_range _ _ _ H) as R. change (zlen [16; 24]) with 2 in R.
    assert (C : i = 0 \/ i = 1) by lia. destruct C as [-> | ->]; vm_compute in H; injection H as <-; vm_compute; reflexivity.
  - split; [vm_compute; reflexivity|]. vm_compute. congruence.
Qed.

(** Swapping inline elements. *)
Lemma swap_zeroes : exists l l',
  run_sets (EBasic 4) init_list [(0, sevens, 0); (1, eights, 0)] = Ok (LOk l) /\
  read_elem (EBasic 4) l 0 4 = Ok (Some [x07;x07;x07;x07]) /\
  read_elem (EBasic 4) l 1 4 = Ok (Some [x08;x08;x08;x08]) /\
  swap_at (EBasic 4) l 0 1 = Ok (l', true) /\
  read_elem (EBasic 4) l' 0 4 = Ok (Some [x00;x00;x00;x00]) /\
  read_elem (EBasic 4) l' 1 4 = Ok (Some [x00;x00;x00;x00]).
Proof.
  eexists. eexists. split; [vm_compute; reflexivity|]. split; [vm_compute; reflexivity|].
  split; [vm_compute; reflexivity|]. split; [vm_compute; reflexivity|]. split; vm_compute; reflexivity.
Qed.

(** In general: swapping two different inline elements leaves zeros. *)
Lemma swap_fixed_zero : forall k l n size i j, in_memory (l_io l) -> 4 <= l_pos l ->
  fixed_size k = Some size -> 1 <= size -> list_vlen l = Ok n -> 0 <= i < n -> 0 <= j < n -> i <> j ->
  exists l', swap_at k l i j = Ok (l', true) /\ l_pos l' = l_pos l /\
    forall m, shows (l_io l) m -> shows (l_io l') (fun c =>
      if ((l_pos l + i * size <=? c) && (c <? l_pos l + i * size + size)) ||
         ((l_pos l + j * size <=? c) && (c <? l_pos l + j * size + size))
      then Some x00 else img_fill m (len_buf (l_io l)) c).
Proof.
  intros k l n size i j Hb Hp HS Hs HV Hi Hj Hij. unfold swap_at. rewrite HV. cbn [bind].
  replace ((n <=? i) || (n <=? j)) with false by lia. replace (i =? j) with false by lia. rewrite HS.
  destruct (flatten_props (l_io l) Hb) as (b1 & E1 & M1 & _ & _ & _ & C1).
  rewrite E1. cbn [bind].
  assert (ZL : zlen (zeros size) = size) by (rewrite zlen_zeros; lia).
  destruct (base_u_spec b1 (l_pos l + i * size) size (zeros size) M1 ltac:(nia) ZL) as (b2 & E2 & M2 & _ & _ & _ & C2).
  rewrite E2. cbn [bind].
  destruct (base_u_spec b2 (l_pos l + j * size) size (zeros size) M2 ltac:(nia) ZL) as (b3 & E3 & M3 & _ & _ & _ & C3).
  rewrite E3. cbn [bind]. exists (set_io l b3). split; [reflexivity|]. split; [reflexivity|].
  intros m Hm c Hc. cbn [set_io l_io]. rewrite peek_content by auto. f_equal. rewrite C3. unfold img_write. rewrite ZL.
  assert (ZG : forall q, 0 <= q < size -> zget (zeros size) q = Some x00).
  { intros q Hq. rewrite zget_zeros. destruct (_ && _) eqn:Q; [reflexivity|lia]. }
  destruct ((l_pos l + j * size <=? c) && (c <? l_pos l + j * size + size)) eqn:X.
  - rewrite orb_true_r. apply ZG. lia.
  - rewrite orb_false_r. rewrite C2. unfold img_write. rewrite ZL.
    destruct ((l_pos l + i * size <=? c) && (c <? l_pos l + i * size + size)) eqn:Y; [apply ZG; lia|].
    apply (shows_unique b1); auto using shows_content.
Qed.

(** The cached length of a second handle. *)
Lemma stale_all : exists l l2,
  run_sets (EBasic 4) init_list [(0, sevens, 0)] = Ok (LOk l) /\
  l2 = mkL (l_io l) (l_npos init_list) (l_pos init_list) (l_vlen init_list) (l_size init_list) /\
  has_elements (EBasic 4) l2 [4] /\ list_all (EBasic 4) l2 = Ok [].
Proof.
  eexists. eexists. split; [vm_compute; reflexivity|]. split; [reflexivity|]. split.
  - split; [vm_compute; reflexivity|]. intros i e H.
    pose proof (zget_some_range _ _ _ H) as R. change (zlen [4]) with 1 in R.
    assert (i = 0) by lia. subst i. vm_compute in H. injection H as <-. vm_compute. reflexivity.
  - vm_compute. reflexivity.
Qed.

(** Sizes reported after appending scalars. *)
Lemma size_stale : exists l,
  run_sets (EBasic 4) init_list [(0, sevens, 0); (1, eights, 0)] = Ok (LOk l) /\
  l_vlen l = 2 /\ l_size l = 4.
Proof. eexists. split; [vm_compute; reflexivity|]. split; reflexivity. Qed.

(** A table none of whose fields is set. *)
Lemma append_empty_table : exists b p,
  init_table [KBasic 1] = Ok (b, p) /\
  run_sets (ETable [KBasic 1]) init_list (append_ops 0 [(b, p, 1)]) = Panic.
Proof. eexists. eexists. split; [vm_compute; reflexivity|]. vm_compute. reflexivity. Qed.

(** A comparison of the kind given to [SortBy]: by the byte [off] bytes into the
    table. *)
Definition byte_key (x : option byte) : Z := match x with Some x => b2z x | None => -1 end.
Definition less_by_byte (off : Z) (l : lnode) (i j : Z) : res bool :=
  do oi <- rd 4 (l_io l) (l_pos l + i * 4);
  do oj <- rd 4 (l_io l) (l_pos l + j * 4);
  do x <- peek (l_io l) (l_pos l + i * 4 + oi + off);
  do y <- peek (l_io l) (l_pos l + j * 4 + oj + off);
  Ok (byte_key x <? byte_key y).

Definition lt_by_byte (m : image) (off a b : Z) : bool :=
  byte_key (m (a + off)) <? byte_key (m (b + off)).

Lemma less_by_byte_compares : forall l m off n, in_memory (l_io l) -> shows (l_io l) m -> 0 <= off ->
  compares (less_by_byte off) (lt_by_byte m off) l n.
Proof.
  intros l m off n Hb HM Ho l1 ts i j a b m0 m1 HP Hb1 HM0 HM1 HO HZ [HV HR] [HT1 HT2] Ha Hb'.
  unfold less_by_byte, lt_by_byte. rewrite (HR i a Ha), (HR j b Hb'). cbn [bind].
  replace (l_pos l1 + i * 4 + (a - (l_pos l1 + i * 4)) + off) with (a + off) by lia.
  replace (l_pos l1 + j * 4 + (b - (l_pos l1 + j * 4)) + off) with (b + off) by lia.
  assert (IN : forall q t, zget ts q = Some t -> l_pos l1 + zlen ts * 4 <= t).
  { intros q t Hq. apply HT2. unfold zget in Hq. destruct (q <? 0); [discriminate|]. eapply nth_error_In; eauto. }
  pose proof (IN i a Ha). pose proof (IN j b Hb'). pose proof (zlen_nonneg ts).
  rewrite (HM1 (a + off)) by lia. rewrite (HM1 (b + off)) by lia. cbn [bind].
  assert (EQ : forall c, l_pos l1 + zlen ts * 4 <= c -> m1 c = m c).
  { intros c Hc. rewrite (HO c) by lia. apply (shows_unique (l_io l)); auto. lia. }
  rewrite (EQ (a + off)) by lia. rewrite (EQ (b + off)) by lia. reflexivity.
Qed.

Lemma lt_by_byte_weak : forall m off, strict_weak (lt_by_byte m off).
Proof. intros m off. constructor; intros a b; unfold lt_by_byte; lia. Qed.

Lemma swap_twice : forall ks l ts i j, in_memory (l_io l) -> refers l ts -> targets_follow l ts ->
  0 <= i < zlen ts -> 0 <= j < zlen ts ->
  exists l1 l2, swap_at (ETable ks) l i j = Ok (l1, true) /\ swap_at (ETable ks) l1 i j = Ok (l2, true) /\
    refers l2 ts.
Proof.
  intros ks l ts i j Hb HR HT Hi Hj.
  destruct (swap_tables ks l ts i j Hb HR HT Hi Hj) as (l1 & E1 & M1 & P1 & _ & R1 & _).
  assert (T1 : targets_follow l1 (swapped ts i j)) by (eapply targets_perm; eauto using swapped_perm).
  destruct (swap_tables ks l1 (swapped ts i j) i j M1 R1 T1) as (l2 & E2 & _ & _ & _ & R2 & _);
    rewrite ?zlen_swapped; auto.
  exists l1, l2. rewrite swapped_twice in R2 by auto. auto.
Qed.
