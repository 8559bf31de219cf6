(** Counterexamples and short consequences about tables and structs. *)
From Coq Require Import ZArith List Bool Lia.
From Coq Require Import Strings.Byte.
From Verif Require Import GoLib BaseModel GoLemmas BaseSpec BaseProofs BaseProofs2 BaseProofs3.
From Verif Require Import TableModel TableSpec TableProofs TableProofs2.
Import ListNotations.
Open Scope Z_scope.

Lemma holds_uint_check : forall l pos n v,
  (0 <=? v) && (v <? 256 ^ Z.of_nat n) = true ->
  forallb (fun k => match zget l (pos + Z.of_nat k) with
                    | Some x => b2z x =? (v / 256 ^ Z.of_nat k) mod 256
                    | None => false end) (seq 0 n) = true ->
  holds_uint (img_bytes l) pos n v.
Proof.
  intros l pos n v H1 H2. split; [lia|]. intros k Hk. rewrite forallb_forall in H2.
  specialize (H2 (Z.to_nat k)). rewrite Z2Nat.id in H2 by lia.
  unfold img_bytes. destruct (zget l (pos + k)) as [x|].
  - exists x. split; [reflexivity|]. apply Z.eqb_eq. apply H2. apply in_seq. lia.
  - assert (false = true) by (apply H2; apply in_seq; lia). discriminate.
Qed.

(** A table whose vtable follows it. *)
Definition neg_table : list byte := [xf8;xff;xff;xff; x2a;x00;x00;x00; x06;x00;x08;x00;x04;x00].

Lemma negative_soffset : exists l pos soff es tl,
  table_at (img_bytes l) pos soff es tl /\ zget es 0 = Some 4 /\
  virtual_table (new_base (gs_of l)) pos 0 = Panic.
Proof.
  exists neg_table, 0, (-8), [4], 8. split.
  - constructor.
    + apply holds_uint_check; vm_compute; reflexivity.
    + vm_compute; split; congruence.
    + vm_compute; split; congruence.
    + apply holds_uint_check; vm_compute; reflexivity.
    + apply holds_uint_check; vm_compute; reflexivity.
    + intros i e H. pose proof (zget_some_range _ _ _ H) as R. unfold zlen in R; cbn [length] in R.
      assert (i = 0) by lia. subst i. injection H as <-.
      apply holds_uint_check; vm_compute; reflexivity.
  - split; vm_compute; reflexivity.
Qed.

(** A vtable without entries, directly before its table. *)
Lemma unknown_field_present : exists l pos soff tl,
  table_at (img_bytes l) pos soff nil tl /\ 0 <= soff /\
  virtual_table_is_zero (new_base (gs_of l)) pos 0 = Ok false.
Proof.
  exists [x04;x00;x04;x00; x04;x00;x00;x00], 4, 4, 4. split.
  - constructor.
    + apply holds_uint_check; vm_compute; reflexivity.
    + vm_compute; split; congruence.
    + vm_compute; split; congruence.
    + apply holds_uint_check; vm_compute; reflexivity.
    + apply holds_uint_check; vm_compute; reflexivity.
    + intros i e H. rewrite zget_nil in H. discriminate.
  - split; vm_compute; congruence.
Qed.

(** In general an index at or beyond the entries reads whatever bytes follow. *)
Lemma unknown_reads_neighbour : forall b pos soff es tl i v, flat b ->
  table_at (img_bytes (sl_data (b_bytes b))) pos soff es tl -> 0 <= soff -> zlen es <= i ->
  holds_uint (img_bytes (sl_data (b_bytes b))) (pos - soff + 4 + 2 * i) 2 v ->
  virtual_table_is_zero b pos i = Ok (v =? 0).
Proof.
  intros b pos soff es tl i v Hf T Hs Hi Hv. pose proof T as [T1 T2 T3 T4 T5 T6].
  unfold virtual_table_is_zero, virtual_table.
  rewrite (flat_vtable_pos b pos soff es tl Hf T Hs). cbn [bind].
  pose proof (holds_uint_bound (sl_data (b_bytes b)) (pos - soff + 4 + 2 * i) 2 v ltac:(lia) Hv) as HB. pose proof (zlen_nonneg es).
  rewrite flat_len_buf by auto. unfold gs_len.
  replace (zlen (sl_data (b_bytes b)) <=? pos - soff + 4 + i * 2) with false by lia. rewrite andb_false_r.
  replace (pos - soff + 4 + i * 2) with (pos - soff + 4 + 2 * i) by lia.
  rewrite (flat_rd 2 b (pos - soff + 4 + 2 * i) v Hf ltac:(lia) ltac:(lia) Hv). cbn [bind]. f_equal.
  destruct (v =? 0) eqn:X; lia.
Qed.

Lemma fresh_table : forall ks, 4 + 2 * zlen ks < 65536 ->
  exists b, init_table ks = Ok (b, 4 + 2 * zlen ks) /\
    table_at (img_bytes (sl_data (b_bytes b))) (4 + 2 * zlen ks) (4 + 2 * zlen ks)
             (repeat 0 (length ks)) 4 /\
    (forall i, 0 <= i < zlen ks -> virtual_table_is_zero b (4 + 2 * zlen ks) i = Ok true).
Proof.
  intros ks H. destruct (init_table_ok ks H) as (b & E & F & C & L & T & V).
  exists b. split; [exact E|]. split; [exact T|]. intros i Hi. pose proof (zlen_nonneg ks).
  destruct (conforming_access b _ _ _ _ F T ltac:(lia)) as (_ & _ & A).
  destruct (zget_repeat (length ks) i 0) as [Q|Q].
  - destruct (A i 0 Q) as (_ & -> & _). reflexivity.
  - apply zget_none_range in Q. rewrite zlen_repeat in Q. unfold zlen in *. lia.
Qed.

(** Fields of a union, table, vector or string are equally absent in a fresh
    table, and the buffer it lives in is exactly vtable and empty table. *)
Lemma fresh_table_len : forall ks b p, 4 + 2 * zlen ks < 65536 -> init_table ks = Ok (b, p) ->
  p = 4 + 2 * zlen ks /\ len_buf b = p + 4.
Proof.
  intros ks b p H E. destruct (init_table_ok ks H) as (b' & E' & F & C & L & _).
  rewrite E in E'. injection E' as <- ->. split; [reflexivity|]. rewrite flat_len_buf by auto. exact L.
Qed.

Lemma init_struct_small : init_struct [2] = Panic.
Proof. vm_compute. reflexivity. Qed.

Lemma init_struct_ok : forall sizes, Forall (fun n => 1 <= n) sizes -> 4 <= sum_z sizes ->
  exists b, init_struct sizes = Ok (b, 0) /\ flat b /\ sl_data (b_bytes b) = zeros (sum_z sizes).
Proof.
  intros sizes HF HS. unfold init_struct. set (b0 := new_base _).
  assert (F0 : flat b0) by (split; reflexivity).
  assert (L0 : gs_len (b_bytes b0) = sum_z sizes).
  { unfold b0, gs_len, new_base, gs_make; cbn [b_bytes sl_data]. rewrite zlen_zeros. lia. }
  assert (E4 : zlen (le_encode 4 0) = 4) by apply zlen_le_encode.
  destruct (poke_flat b0 0 (le_encode 4 0) F0 ltac:(lia) ltac:(lia) ltac:(lia))
    as (b1 & -> & F1 & C1 & L1 & _ & _ & I1). cbn [bind].
  exists b1. split; [reflexivity|]. split; [exact F1|]. apply zget_ext. intros i.
  specialize (I1 i). unfold img_bytes in I1. rewrite I1. unfold img_write.
  assert (HZ : sl_data (b_bytes b0) = zeros (sum_z sizes)) by reflexivity.
  rewrite HZ. change (le_encode 4 0) with (zeros 4). rewrite zlen_zeros.
  destruct ((0 <=? i) && _) eqn:X; [|reflexivity]. rewrite !zget_zeros.
  replace ((0 <=? i - 0) && (i - 0 <? 4)) with true by lia.
  replace ((0 <=? i) && (i <? sum_z sizes)) with true by lia. reflexivity.
Qed.

Lemma struct_init_panics : forall sizes, 0 <= sum_z sizes < 4 -> init_struct sizes = Panic.
Proof.
  intros sizes H. unfold init_struct, poke.
  assert (HE : zlen (le_encode 4 0) = 4) by apply zlen_le_encode. rewrite HE.
  set (b0 := new_base _).
  destruct (base_r_spec b0 0 4 (in_memory_new _) ltac:(lia) ltac:(lia)) as (s & -> & S). cbn [bind].
  assert (HL : opt_len s <= sum_z sizes).
  { assert (N : forall i, find_last (covers i) (b_diffs b0) = None) by reflexivity. rewrite N in S.
    assert (HZ : gs_len (b_bytes b0) = sum_z sizes).
    { unfold b0, gs_len, new_base, gs_make; cbn [b_bytes sl_data]. rewrite zlen_zeros. lia. }
    destruct S as (_ & _ & S). destruct (Z.lt_ge_cases (sum_z sizes) (opt_len s)) as [C|C]; [|lia].
    destruct (S (sum_z sizes) ltac:(lia)) as [S1 _].
    rewrite (zget_ge (sl_data (b_bytes b0))) in S1 by (unfold gs_len in HZ; lia).
    rewrite opt_len_data in C. destruct (zget_some (opt_data s) (sum_z sizes)) as [x Hx]; [lia|congruence]. }
  destruct (opt_len s <? 4) eqn:X; [reflexivity|lia].
Qed.

Lemma bool_reencode : exists l v, length l = width SBool /\ scalar_get SBool l = Ok v /\
  scalar_bytes SBool v <> l.
Proof. exists [x02], 0. split; [reflexivity|]. split; [reflexivity|]. vm_compute. discriminate. Qed.

(** Split scalars: a value stored in two writes cannot be read by its getter. *)
Lemma split_scalar : exists b v, run_wops (new_base (gs_of nil)) [OpWriteAt 0 [x01]; OpWriteAt 1 [x02]] = Ok b /\
  holds_uint (content b) 0 2 v /\ get_scalar SUint16 b 0 = Panic.
Proof.
  eexists; exists 513. split; [vm_compute; reflexivity|]. split; [|vm_compute; reflexivity].
  split; [vm_compute; split; congruence|]. intros k Hk. change (Z.of_nat 2) with 2 in Hk.
  assert (K : k = 0 \/ k = 1) by lia. destruct K as [->| ->]; eexists; split; vm_compute; reflexivity.
Qed.

Lemma struct_value_info_wrong : exists sizes i n, nth_error sizes i = Some n /\
  struct_value_info 0 0 sizes i <> (offset_of sizes i, n).
Proof. exists [4; 8], 1%nat, 8. split; [reflexivity|]. vm_compute. discriminate. Qed.

Lemma struct_layout_differs : exists sizes i, Forall (fun n => 0 < n) sizes /\ (i < length sizes)%nat /\
  struct_field_pos 0 sizes i <> format_offset 0 sizes i.
Proof.
  exists [1; 8], 1%nat. split; [repeat constructor|]. split; [cbn; lia|]. vm_compute. discriminate.
Qed.

Lemma scalar_get_prefix : forall t l r, length l = width t -> scalar_get t (l ++ r) = scalar_get t l.
Proof.
  intros t l r H. unfold scalar_get, get_le. rewrite app_length.
  replace (length l + length r <? width t)%nat with false by (symmetry; apply Nat.ltb_ge; lia).
  replace (length l <? width t)%nat with false by (symmetry; apply Nat.ltb_ge; lia).
  rewrite <- H, firstn_app, Nat.sub_diag, firstn_O, app_nil_r. reflexivity.
Qed.

(** After Flatten every getter delivers the value stored. *)
Lemma flatten_get : forall b m t pos l, in_memory b -> shows b m -> 0 <= pos ->
  zlen l = Z.of_nat (width t) -> (forall k, 0 <= k < zlen l -> m (pos + k) = zget l k) ->
  exists b', base_flatten b = Ok b' /\ get_scalar t b' pos = scalar_get t l.
Proof.
  intros b m t pos l Hb Hm Hp HL HI.
  destruct (flatten_exact b m Hb Hm) as (b' & E & _ & R). exists b'. split; [exact E|].
  assert (HW : 1 <= Z.of_nat (width t)) by (destruct t; cbn; lia).
  assert (HD : forall k, 0 <= k < zlen l -> pos + k < len_buf b).
  { intros k Hk. destruct (Z.lt_ge_cases (pos + k) (len_buf b)) as [|C]; [auto|].
    pose proof (content_ge_len b (pos + k) Hb C) as N. pose proof (HI k Hk) as X.
    rewrite (shows_unique b _ _ Hm (shows_content b Hb) (pos + k) ltac:(lia)) in X.
    destruct (zget_some l k Hk) as [y Hy]. congruence. }
  pose proof (HD 0 ltac:(lia)) as H0.
  pose proof (HD (zlen l - 1) ltac:(lia)) as H1. unfold get_scalar.
  destruct (R pos (match t with SInt8 => 0 | _ => Z.of_nat (width t) end) ltac:(lia)) as (s & -> & SL & SI).
  { destruct t; lia. }
  cbn [bind opt_data].
  assert (EQ : sl_data s = l ++ zskip (zlen l) (sl_data s)).
  { apply zget_ext. intros i. rewrite zget_app. destruct (i <? zlen l) eqn:X.
    - destruct (Z.lt_ge_cases i 0); [rewrite !zget_neg by auto; reflexivity|].
      unfold gs_len in SL. rewrite SI by lia. unfold img_fill. rewrite <- HI by lia.
      rewrite HI by lia. destruct (zget_some l i ltac:(lia)) as [y ->].
      replace ((0 <=? pos + i) && (pos + i <? len_buf b)) with true by lia. reflexivity.
    - rewrite zget_zskip by lia. destruct (i - zlen l <? 0) eqn:Y; [lia|]. f_equal. lia. }
  rewrite EQ. apply scalar_get_prefix. unfold zlen in HL. lia.
Qed.

Lemma member_never_set : forall t b pos sizes i v,
  let (p, sz) := member_node pos sizes i in set_scalar t t b p sz v = Ok None.
Proof. intros. unfold member_node. apply set_struct_member. Qed.

(** A setter that succeeds has the type of the node. *)
Lemma set_own_type : forall nt t b pos v b', in_memory b -> 0 <= pos -> in_range t v ->
  set_scalar nt t b pos (Z.of_nat (width nt)) v = Ok (Some b') ->
  get_scalar nt b' pos = Ok v /\
  forall m, shows b m -> shows b' (img_write m pos (scalar_bytes nt v)).
Proof.
  intros nt t b pos v b' M P R E.
  assert (nt = t).
  { unfold set_scalar in E. destruct (scalar_eqb nt t) eqn:Q; [|discriminate E].
    destruct nt, t; try discriminate Q; reflexivity. }
  subst t. destruct (set_get nt b pos v M P R) as (b2 & E2 & _ & G & F).
  rewrite E in E2. injection E2 as <-. auto.
Qed.
