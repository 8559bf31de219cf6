(** Comparing stored tables through journals. *)
From Coq Require Import ZArith List Bool Lia String.
From Coq Require Import Strings.Byte.
From Verif Require Import GoLib BaseModel GoLemmas BaseSpec BaseProofs TableModel TableSpec TableProofs.
From Verif Require Import TableProofs2 NameModel NameSpec NameProofs NameProofs2 VariantModel VariantProofs.
From Verif Require Import WalkModel WalkSpec WalkProofs WalkProofs2 WalkProofs3 WalkProofs7 EqualModel EqualSpec EqualProofs EqualProofs2.
From Verif Require Import InsSpec PutSpec JourSpec JourProofs JourProofs2 JourProofs3 JourProofs8 JourProofs9 JourProofs10 DocModel DocSpec SameSpec.
From Verif Require PutProofs2 DocProofs FillProofs.
Import ListNotations.
Open Scope list_scope.
Open Scope Z_scope.

(** ** The numbers of a value *)

Lemma member_in : forall ms p i t, zget ms i = Some t -> In (p + struct_size (zfirst i ms), zwidth t) (member_numbers p ms).
Proof.
  induction ms as [|u ms IH]; intros p i t H.
  - rewrite zget_nil in H. discriminate.
  - rewrite zget_cons in H. destruct (i =? 0) eqn:E.
    + injection H as ->. replace i with 0 by lia. unfold zfirst. cbn. left. f_equal. lia.
    + pose proof (zget_some_range _ _ _ H) as R. right. specialize (IH (p + zwidth u) (i - 1) t H).
      unfold zfirst in *. replace (Z.to_nat i) with (S (Z.to_nat (i - 1))) by lia.
      cbn [firstn struct_size fold_right]. fold (struct_size (firstn (Z.to_nat (i - 1)) ms)).
      rewrite Z.add_assoc. exact IH.
Qed.

Lemma element_in : forall q k ms j i t, 0 <= j < k -> zget ms i = Some t ->
  In (q + j * struct_size ms + struct_size (zfirst i ms), zwidth t) (numbers (Structs q k ms)).
Proof.
  intros q k ms j i t Hj Hi. cbn [numbers]. apply in_flat_map. exists (Z.to_nat j). split.
  - apply in_seq. lia.
  - rewrite Z2Nat.id by lia. apply member_in. exact Hi.
Qed.

Lemma uncut_in : forall b v fs name p, In v fs -> uncut b (Tab name p fs) -> uncut b v.
Proof. intros b v fs name p HI H a k Ha. apply H. cbn [numbers]. apply in_flat_map. eauto. Qed.

Lemma uncut_elem : forall b v es name q, In v es -> uncut b (Tabs name q es) -> uncut b v.
Proof. intros b v es name q HI H a k Ha. apply H. cbn [numbers]. apply in_flat_map. eauto. Qed.

Lemma held_exactly : forall b m p k, in_memory b -> shows b m -> 0 <= p -> 1 <= k -> held b p k ->
  exists l, read_exactly b p k = Ok l /\ zlen l = k /\ forall i, 0 <= i < k -> zget l i = m (p + i).
Proof.
  intros b m p k HB HM Hp Hk HH. destruct (FillProofs.held_reads b m HB HM p k k Hp Hk ltac:(lia) HH) as (s & E & L & G).
  unfold read_exactly. rewrite E. cbn [bind]. unfold gs_upto, gs_range, gs_cap. unfold gs_len in *.
  pose proof (zlen_nonneg (sl_spare s)).
  rewrite ?zlen_app.
  replace ((0 <=? 0) && (0 <=? k) && (k <=? zlen (sl_data s) + zlen (sl_spare s))) with true by lia.
  cbn [bind sl_data]. eexists. split; [reflexivity|].
  split.
  - rewrite zlen_zskip, zlen_zfirst, zlen_app. lia.
  - intros i Hi. rewrite <- G by lia. rewrite zget_zskip by lia. rewrite zget_zfirst, zget_app.
    replace (0 + i) with i by lia. replace (i <? k) with true by lia. replace (i <? zlen (sl_data s)) with true by lia.
    rewrite ?(proj2 (Z.ltb_ge i 0)) by lia. reflexivity.
Qed.

Section Two.
Variable n : names.
Variable b1 b2 : base.
Variable m1 m2 : image.
Variable s : schema.
Hypothesis HB1 : in_memory b1.
Hypothesis HB2 : in_memory b2.
Hypothesis HM1 : shows b1 m1.
Hypothesis HM2 : shows b2 m2.
Hypothesis HD : describes n s.
Hypothesis HM : members_described n s.

Local Notation same_bytes := (same_bytes m1 m2).
Local Notation within := (within m1 m2).
Local Notation tnode_at := (tnode_at n).
Local Notation grouped := (grouped n).

Lemma scalars_compared_j : forall k f1 f2 p1 z1 p2 z2, c_node f1 = Some (p1, z1) -> c_node f2 = Some (p2, z2) ->
  0 <= p1 -> 0 <= p2 -> 1 <= k -> held b1 p1 k -> held b2 p2 k ->
  exists r, equal_scalar b1 b2 k f1 f2 = Ok r /\ (r = true <-> same_bytes p1 p2 k).
Proof.
  intros k f1 f2 p1 z1 p2 z2 N1 N2 H1 H2 Hk O1 O2. unfold equal_scalar. rewrite N1, N2.
  destruct (FillProofs.held_reads b1 m1 HB1 HM1 p1 k 0 H1 Hk ltac:(lia) O1) as (s1 & -> & L1 & _).
  destruct (FillProofs.held_reads b2 m2 HB2 HM2 p2 k 0 H2 Hk ltac:(lia) O2) as (s2 & -> & L2 & _).
  cbn [bind opt_len].   replace (gs_len s1 <? k) with false by lia.
  replace (gs_len s2 <? k) with false by lia.
  destruct (held_exactly b1 m1 p1 k HB1 HM1 H1 Hk O1) as (l1 & -> & K1 & G1).
  destruct (held_exactly b2 m2 p2 k HB2 HM2 H2 Hk O2) as (l2 & -> & K2 & G2).
  cbn [bind]. eexists. split; [reflexivity|]. rewrite list_eqb_eq. split.
  - intros -> i Hi. rewrite <- G1, <- G2 by lia. reflexivity.
  - intros S. apply zget_eq; [lia|]. intros i Hi. rewrite G1, G2 by lia. apply S. lia.
Qed.

Lemma members_same_j : forall ms p q,
  (forall i t, zget ms i = Some t ->
     same_bytes (p + struct_size (zfirst i ms)) (q + struct_size (zfirst i ms)) (zwidth t)) <->
  same_bytes p q (struct_size ms).
Proof.
  intros ms p q. split.
  - revert p q. induction ms as [|u ms IH]; intros p q H i Hi.
    + cbn in Hi. lia.
    + cbn [struct_size fold_right] in Hi. fold (struct_size ms) in Hi.
      destruct (Z_lt_dec i (zwidth u)).
      * assert (G : zget (u :: ms) 0 = Some u) by reflexivity. pose proof (H 0 u G i ltac:(lia)) as X. unfold zfirst in X. cbn in X.
        replace (p + 0) with p in X by lia. replace (q + 0) with q in X by lia. exact X.
      * specialize (IH (p + zwidth u) (q + zwidth u)).
        assert (X : same_bytes (p + zwidth u) (q + zwidth u) (struct_size ms)).
        { apply IH. intros j t Hj. pose proof (zget_some_range _ _ _ Hj) as R.
          specialize (H (j + 1) t). rewrite zget_cons in H. replace (j + 1 =? 0) with false in H by lia.
          replace (j + 1 - 1) with j in H by lia. specialize (H Hj).
          unfold zfirst in *. replace (Z.to_nat (j + 1)) with (S (Z.to_nat j)) in H by lia.
          cbn [firstn struct_size fold_right] in H. fold (struct_size (firstn (Z.to_nat j) ms)) in H.
          rewrite !Z.add_assoc in H. exact H. }
        specialize (X (i - zwidth u) ltac:(lia)).
        replace (p + zwidth u + (i - zwidth u)) with (p + i) in X by lia.
        replace (q + zwidth u + (i - zwidth u)) with (q + i) in X by lia. exact X.
  - intros H i t Hi j Hj. destruct (member_end ms i t Hi) as [A B].
    rewrite <- !Z.add_assoc. apply H. lia.
Qed.

Lemma elements_same_j : forall w k p q, 0 <= w -> 0 <= k ->
  (forall j, 0 <= j < k -> same_bytes (p + j * w) (q + j * w) w) <-> same_bytes p q (k * w).
Proof.
  intros w k p q Hw Hk. split.
  - intros H i Hi. assert (0 < w) by nia. specialize (H (i / w)).
    assert (0 <= i / w < k) by (split; [apply Z.div_pos; lia|apply Z.div_lt_upper_bound; nia]).
    specialize (H ltac:(lia) (i mod w) (Z.mod_pos_bound i w ltac:(lia))).
    pose proof (Z.div_mod i w ltac:(lia)) as D.
    replace (p + i / w * w + i mod w) with (p + i) in H by lia.
    replace (q + i / w * w + i mod w) with (q + i) in H by lia. exact H.
  - intros H j Hj i Hi. rewrite <- !Z.add_assoc. apply H. nia.
Qed.

Lemma structs_compared_j : forall go sn ms p1 z1 p2 z2, struct_described n sn ms -> grouped sn ms ->
  0 <= p1 -> 0 <= p2 -> (forall a k, In (a, k) (member_numbers p1 ms) -> held b1 a k) -> (forall a k, In (a, k) (member_numbers p2 ms) -> held b2 a k) ->
  exists r, equal_step n b1 b2 go (Some (new_node n (Some (p1, z1)) no_vinfo sn))
                                  (Some (new_node n (Some (p2, z2)) no_vinfo sn)) = Ok r /\
    (r = true <-> same_bytes p1 p2 (struct_size ms)).
Proof.
  intros go sn ms p1 z1 p2 z2 SD SG H1 H2 O1 O2. unfold equal_step. rewrite new_node_info. cbn [no_vinfo v_pos].
  change (0 <? 0) with false. cbv iota.
  destruct (struct_node n sn ms (Some (p1, z1)) no_vinfo SD) as (_ & _ & L & T). rewrite L.
  destruct (each_indexes (fun i => forall t, zget ms i = Some t ->
      same_bytes (p1 + struct_size (zfirst i ms)) (p2 + struct_size (zfirst i ms)) (zwidth t))
    (equal_field n b1 b2 go (new_node n (Some (p1, z1)) no_vinfo sn) (new_node n (Some (p2, z2)) no_vinfo sn))
    (zlen ms) (zlen_nonneg ms)) as (r & E & R).
  - intros i Hi _. destruct (zget_some ms i Hi) as (t & Ht).
    unfold equal_field. rewrite (group_at_new n (Some (p2, z2)) (Some (p1, z1)) no_vinfo no_vinfo sn i).
    rewrite Z.eqb_refl. cbn [negb].
    destruct (struct_group n sn ms (Some (p1, z1)) no_vinfo i t SD SG Ht) as (-> & ->). cbn [negb].
    destruct (member_found n b1 sn ms p1 z1 i t SD Ht) as (f1 & -> & F1).
    destruct (member_found n b2 sn ms p2 z2 i t SD Ht) as (f2 & -> & F2). cbn [bind].
    rewrite (T i t Ht). destruct (member_end ms i t Ht) as [A B]. pose proof (zwidth_pos t).
    destruct (scalars_compared_j (zwidth t) f1 f2 _ _ _ _ F1 F2 ltac:(lia) ltac:(lia) ltac:(lia)) as (r & E & R).
    + apply O1, member_in. exact Ht.
    + apply O2, member_in. exact Ht.
    + exists r. split; [exact E|]. rewrite R. split.
      * intros S t' Ht'. rewrite Ht in Ht'. injection Ht' as <-. exact S.
      * intros S. apply S. exact Ht.
  - exists r. split; [exact E|]. rewrite R, <- members_same_j. split.
    + intros S i t Ht. apply S; [|exact Ht]. eapply zget_some_range; eauto.
    + intros S i _ t Ht. apply S. exact Ht.
Qed.

Lemma struct_vectors_compared_j : forall f sn ms nd1 q1 z1 k1 nd2 q2 z2 k2,
  struct_described n sn ms -> grouped sn ms ->
  4 <= q1 -> reads b1 (q1 - 4) 4 k1 -> uncut b1 (Structs q1 k1 ms) ->
  4 <= q2 -> reads b2 (q2 - 4) 4 k2 -> uncut b2 (Structs q2 k2 ms) ->
  exists r, equal_step n b1 b2 (node_equal n b1 b2 (S f))
      (Some (new_node n (Some nd1) (mkV q1 z1 k1) ("[]" ++ sn)%string))
      (Some (new_node n (Some nd2) (mkV q2 z2 k2) ("[]" ++ sn)%string)) = Ok r /\
    (r = true <-> k1 <= k2 /\ same_bytes q1 q2 (k1 * struct_size ms)).
Proof.
  intros f sn ms nd1 q1 z1 k1 nd2 q2 z2 k2 SD SG Q1 H1 O1 Q2 H2 O2.
  pose proof (struct_size_nonneg ms) as SP.
  assert (K1 : 0 <= k1) by (destruct H1; lia). assert (K2 : 0 <= k2) by (destruct H2; lia).
  unfold equal_step. rewrite new_node_info. cbn [v_pos v_len].
  replace (0 <? q1) with true by lia.
  destruct (each_indexes (fun i => i < k2 /\ same_bytes (q1 + i * struct_size ms) (q2 + i * struct_size ms) (struct_size ms))
    (equal_elem n b1 b2 (node_equal n b1 b2 (S f)) (new_node n (Some nd1) (mkV q1 z1 k1) ("[]" ++ sn)%string)
       (new_node n (Some nd2) (mkV q2 z2 k2) ("[]" ++ sn)%string)) k1 K1) as (r & E & R).
  - intros i Hi _. unfold equal_elem.
    rewrite (vec_at_struct_j n b1 nd1 q1 z1 k1 sn ms i Q1 H1 SD Hi). cbn [bind].
    destruct (Z_lt_dec i k2) as [Y|N].
    + rewrite (vec_at_struct_j n b2 nd2 q2 z2 k2 sn ms i Q2 H2 SD ltac:(lia)). cbn [bind].
      destruct (structs_compared_j (node_equal n b1 b2 f) sn ms (q1 + i * struct_size ms) (-1) (q2 + i * struct_size ms) (-1) SD SG
        ltac:(nia) ltac:(nia)) as (r & E & R).
      * intros a k Ha. apply O1. cbn [numbers]. apply in_flat_map. exists (Z.to_nat i). split; [apply in_seq; lia|]. rewrite Z2Nat.id by lia. exact Ha.
      * intros a k Ha. apply O2. cbn [numbers]. apply in_flat_map. exists (Z.to_nat i). split; [apply in_seq; lia|]. rewrite Z2Nat.id by lia. exact Ha.
      * exists r. split; [exact E|]. rewrite R. tauto.
    + rewrite (vec_outside_j n b2 nd2 q2 z2 k2 sn i Q2 H2 ltac:(lia)). cbn [bind].
      exists false. split; [reflexivity|]. split; [discriminate|]. tauto.
  - exists r. split; [exact E|]. rewrite R, <- (elements_same_j (struct_size ms) k1 q1 q2 SP K1). split.
    + intros S. split.
      * destruct (Z_le_dec k1 0); [lia|]. specialize (S (k1 - 1) ltac:(lia)). lia.
      * intros j Hj. apply S. exact Hj.
    + intros [A B] i Hi. split; [lia|]. apply B. exact Hi.
Qed.

Lemma byte_same : forall b m x k, in_memory b -> shows b m -> 0 <= x -> held b x 1 -> reads b x 1 k ->
  exists y, m x = Some y /\ k = b2z y.
Proof.
  intros b m x k HB HS Hx HH (_ & R & _). unfold rd in R.
  destruct (FillProofs.held_reads b m HB HS x 1 1 Hx ltac:(lia) ltac:(lia) HH) as (sl & E & L & G).
  change (Z.of_nat 1) with 1 in R. rewrite E in R. cbn [bind opt_data] in R. specialize (G 0 ltac:(lia)). rewrite Z.add_0_r in G.
  unfold gs_len in L. destruct (sl_data sl) as [|y l]; [cbn in L; lia|]. cbn in G. exists y. split; [congruence|].
  unfold get_le in R. cbn in R. injection R as <-. rewrite ?Z.add_0_r. lia.
Qed.

Lemma type_same : forall x y k l, 0 <= x -> 0 <= y -> held b1 x 1 -> held b2 y 1 -> reads b1 x 1 k -> reads b2 y 1 l -> same_bytes x y 1 -> k = l.
Proof.
  intros x y k l Hx Hy H1 H2 R1 R2 S. destruct (byte_same b1 m1 x k HB1 HM1 Hx H1 R1) as (u & U & ->).
  destruct (byte_same b2 m2 y l HB2 HM2 Hy H2 R2) as (w & W & ->). specialize (S 0 ltac:(lia)). rewrite !Z.add_0_r in S. congruence.
Qed.

Lemma byte_pos : forall b p tys es fs i x, seen_fields b s p None tys es fs -> 0 <= p -> zget fs i = Some (Scalar x 1) -> 0 <= x.
Proof.
  intros b p tys es fs i x H Hp Hx. destruct (fields_nth_j b s p None tys es fs H) as (_ & _ & N).
  destruct (N i _ Hx) as (t & e & pv & _ & _ & Hf & _). inversion Hf; subst; try lia;
  match goal with H : seen_table _ _ _ _ (Scalar _ _) |- _ => inversion H end.
Qed.

Definition agree_j (f : nat) : Prop := forall name p1 p2 v1 v2 z1 z2,
  seen_table b1 s name p1 v1 -> seen_table b2 s name p2 v2 -> uncut b1 v1 -> uncut b2 v2 -> full v1 -> full v2 -> (depth v1 <= f)%nat ->
  exists r, node_equal n b1 b2 f (Some (tnode_at name p1 z1)) (Some (tnode_at name p2 z2)) = Ok r /\
    (r = true <-> within v1 v2).

Lemma tables_compared_j : forall f tn q1 z1 es1 q2 z2 es2 nd1 nd2, agree_j f -> table_described n tn ->
  4 <= q1 -> reads b1 (q1 - 4) 4 (zlen es1) -> seen_elems b1 s q1 tn es1 ->
  4 <= q2 -> reads b2 (q2 - 4) 4 (zlen es2) -> seen_elems b2 s q2 tn es2 ->
  (forall v, In v es1 -> uncut b1 v) -> (forall v, In v es2 -> uncut b2 v) -> Forall full es1 -> Forall full es2 -> (forall v, In v es1 -> (depth v <= f)%nat) ->
  exists r, equal_step n b1 b2 (node_equal n b1 b2 f)
      (Some (new_node n (Some nd1) (mkV q1 z1 (zlen es1)) ("[]" ++ tn)%string))
      (Some (new_node n (Some nd2) (mkV q2 z2 (zlen es2)) ("[]" ++ tn)%string)) = Ok r /\
    (r = true <-> within (Tabs tn q1 es1) (Tabs tn q2 es2)).
Proof.
  intros f tn q1 z1 es1 q2 z2 es2 nd1 nd2 IH TD Q1 H1 E1 Q2 H2 E2 C1 C2 F1 F2 DP.
  unfold equal_step. rewrite new_node_info. cbn [v_pos v_len].
  replace (0 <? q1) with true by lia.
  destruct (each_indexes (fun i => forall x, zget es1 i = Some x -> exists y, zget es2 i = Some y /\ within x y)
    (equal_elem n b1 b2 (node_equal n b1 b2 f) (new_node n (Some nd1) (mkV q1 z1 (zlen es1)) ("[]" ++ tn)%string)
       (new_node n (Some nd2) (mkV q2 z2 (zlen es2)) ("[]" ++ tn)%string)) (zlen es1) (zlen_nonneg es1)) as (r & E & R).
  - intros i Hi _. destruct (zget_some es1 i Hi) as (x & Hx). unfold equal_elem.
    rewrite (vec_at_table_j n b1 s nd1 q1 z1 tn es1 i x Q1 H1 TD E1 Hx). cbn [bind].
    destruct (zget es2 i) as [y|] eqn:Hy.
    + rewrite (vec_at_table_j n b2 s nd2 q2 z2 tn es2 i y Q2 H2 TD E2 Hy). cbn [bind].
      destruct (elems_nth_j b1 s q1 tn es1 E1 i x Hx) as (t1 & _ & T1).
      destruct (elems_nth_j b2 s q2 tn es2 E2 i y Hy) as (t2 & _ & T2).
      destruct (stored_pos_j b1 s _ _ _ T1) as (_ & -> & _). destruct (stored_pos_j b2 s _ _ _ T2) as (_ & -> & _).
      rewrite Forall_forall in F1, F2.
      destruct (IH tn t1 t2 x y (-1) (-1) T1 T2 (C1 _ (zget_In _ _ _ _ Hx)) (C2 _ (zget_In _ _ _ _ Hy)) (F1 _ (zget_In _ _ _ _ Hx)) (F2 _ (zget_In _ _ _ _ Hy))
        (DP _ (zget_In _ _ _ _ Hx))) as (r & E & R).
      exists r. split; [exact E|]. rewrite R. split.
      * intros W x' X. rewrite Hx in X. injection X as <-. eauto.
      * intros W. destruct (W x Hx) as (y' & Y & W'). injection Y as <-. exact W'.
    + rewrite (vec_outside_j n b2 nd2 q2 z2 (zlen es2) tn i Q2 H2) by (apply zget_none_range in Hy; lia). cbn [bind].
      exists false. split; [reflexivity|]. split; [discriminate|]. intros W. destruct (W x Hx) as (y & Y & _). discriminate.
  - exists r. split; [exact E|]. rewrite R. clear R E.
    transitivity (zlen es1 <= zlen es2 /\ Forall2 within es1 (firstn (List.length es1) es2)).
    + rewrite prefix_zget. split.
      * intros S i x Hx. apply S; [|exact Hx]. eapply zget_some_range; eauto.
      * intros S i _ x Hx. apply S. exact Hx.
    + split.
      * intros [A B]. constructor; assumption.
      * intros W. inversion W; subst. auto.
Qed.

Lemma agree_step_j : forall f, (forall g, (g <= f)%nat -> agree_j g) -> agree_j (S f).
Proof.
  intros f IH name p1 p2 v1 v2 z1 z2 T1 T2 UC1 UC2 FU1 FU2 DP.
  pose proof T1 as T1'. pose proof T2 as T2'.
  inversion T1 as [? ? so1 es1 tl1 tys fs1 Hs TA1 So1 SF1]; subst.
  inversion T2 as [? ? so2 es2 tl2 tys' fs2 Hs' TA2 So2 SF2]; subst.
  rewrite Hs in Hs'. injection Hs' as <-.
  inversion FU1 as [| | |? ? ? FA1|]; subst. inversion FU2 as [| | |? ? ? FA2|]; subst.
  rewrite Forall_forall in FA1, FA2.
  destruct (fields_nth_j b1 s p1 None tys es1 fs1 SF1) as (L1 & _ & N1).
  destruct (fields_nth_j b2 s p2 None tys es2 fs2 SF2) as (L2 & _ & N2).
  destruct (table_node n s HD name tys (Some (p1, z1)) no_vinfo Hs) as (_ & _ & CG & S4).
  change (node_equal n b1 b2 (S f)) with (equal_step n b1 b2 (node_equal n b1 b2 f)).
  unfold equal_step. replace (c_info (tnode_at name p1 z1)) with no_vinfo by (symmetry; apply new_node_info).
  cbn [no_vinfo v_pos]. change (0 <? 0) with false. cbv iota.
  change (new_node n (Some (p1, z1)) no_vinfo name) with (tnode_at name p1 z1) in CG. rewrite CG.
  pose proof (pos_entry_j b1 p1 so1 es1 tl1 TA1) as HP1. pose proof (pos_entry_j b2 p2 so2 es2 tl2 TA2) as HP2.
  destruct (each_indexes (fun i => forall x y, zget fs1 i = Some x -> zget fs2 i = Some y -> within x y)
    (equal_field n b1 b2 (node_equal n b1 b2 f) (tnode_at name p1 z1) (tnode_at name p2 z2)) (zlen tys)
    (zlen_nonneg tys)) as (r & E & R).
  2: { exists r. split; [exact E|]. rewrite R. split.
       - intros W. constructor. apply forall2_zget. split; [lia|]. intros i x y X Y.
         eapply W; eauto. rewrite L1. eapply zget_some_range; eauto.
       - intros W i _ x y X Y. inversion W as [| | | | |? ? ? ? ? W2|]; subst.
         apply forall2_zget in W2. destruct W2 as [_ W2]. eapply W2; eauto. }
  intros i Hi PREV. rewrite L1 in Hi. destruct (zget_some fs1 i Hi) as (x & Hx).
  destruct (zget_some fs2 i ltac:(lia)) as (y & Hy).
  assert (ONE : forall r, (r = true <-> within x y) <->
    (r = true <-> forall x' y', zget fs1 i = Some x' -> zget fs2 i = Some y' -> within x' y')).
  { intros r. split; intros [A B]; split.
    - intros RT x' y' X Y. rewrite Hx in X. rewrite Hy in Y. injection X as <-. injection Y as <-. auto.
    - intros W. apply B. auto.
    - intros RT. apply (A RT); assumption.
    - intros W. apply B. intros x' y' X Y. rewrite Hx in X. rewrite Hy in Y. injection X as <-. injection Y as <-. exact W. }
  cut (exists r, equal_field n b1 b2 (node_equal n b1 b2 f) (tnode_at name p1 z1) (tnode_at name p2 z2) i = Ok r /\
                 (r = true <-> within x y)).
  { intros (r & E & R). exists r. split; [exact E|]. apply ONE. exact R. }
  clear ONE.
  destruct (N1 i x Hx) as (t & e1 & pv1 & Ht & He1 & Hf1 & PA1 & PB1).
  destruct (N2 i y Hy) as (t' & e2 & pv2 & Ht' & He2 & Hf2 & PA2 & PB2).
  rewrite Ht in Ht'. injection Ht' as <-.
  pose proof (FA1 x (zget_In _ _ _ _ Hx)) as FX. pose proof (FA2 y (zget_In _ _ _ _ Hy)) as FY.
  cbn [depth] in DP. pose proof (depth_in x fs1 (zget_In _ _ _ _ Hx)) as DX.
  assert (DX' : (depth x <= f)%nat) by lia. clear DX DP.
  pose proof (uncut_in b1 x fs1 name p1 (zget_In _ _ _ _ Hx) UC1) as UX. pose proof (uncut_in b2 y fs2 name p2 (zget_In _ _ _ _ Hy) UC2) as UY.
  pose proof (field_at_stored_j n b1 s HD name p1 z1 so1 es1 tl1 tys i t e1 pv1 x Hs TA1 So1 Ht He1 Hf1) as A1.
  pose proof (field_at_stored_j n b2 s HD name p2 z2 so2 es2 tl2 tys i t e2 pv2 y Hs TA2 So2 Ht He2 Hf2) as A2.
  destruct (S4 i t Ht) as (typ & g & G1 & G2 & G3 & G4). fold (tnode_at name p1 z1) in G1, G2, G4.
  assert (G2' : field_type_name n (tnode_at name p2 z2) i = typ).
  { rewrite <- G2. unfold field_type_name, WalkProofs.tnode_at. rewrite !new_node_name. reflexivity. }
  rewrite G2 in A1. rewrite G2' in A2.
  unfold equal_field.
  replace (group_at (tnode_at name p2 z2) i) with (group_at (tnode_at name p1 z1) i) by apply group_at_new.
  rewrite Z.eqb_refl. cbn [negb]. rewrite G1.
  clear G1 G2 G2'.
  pose proof (HM name tys i t Hs Ht) as HG.
  destruct Hf1; try (inversion FX; fail); inversion Hf2; subst; try (inversion FY; fail); cbn [field_described WalkProofs.field_node] in *.
  - (* scalars *)
    destruct G3 as (G3 & _). destruct (says_tests _ _ G3) as (_ & _ & TU & _ & _ & TB). rewrite TU, TB.
    replace (has [CBasic (width t)] 3) with false by (destruct (width_cases t) as [W|[W|[W|W]]]; rewrite W; reflexivity).
    replace (has [CBasic (width t)] 5 || (has [CBasic (width t)] 6 || (has [CBasic (width t)] 7 || (has [CBasic (width t)] 8 || false))))
      with true by (destruct (width_cases t) as [W|[W|[W|W]]]; rewrite W; reflexivity).
    cbn [negb]. rewrite A1, A2. cbn [bind]. rewrite (G4 t eq_refl). pose proof (zwidth_pos t).
    eapply decided_iff.
    + eapply (scalars_compared_j (zwidth t)); [apply new_node_node|apply new_node_node|lia|lia|lia|apply UX; left; reflexivity|apply UY; left; reflexivity].
    + split; [intros; constructor; assumption|intros W; inversion W; assumption].
  - (* structs *)
    destruct G3 as (G3 & -> & SD). destruct (says_tests _ _ G3) as (_ & _ & TU & _ & _ & TB). rewrite TU, TB.
    cbn [has bits map class_bit existsb orb Z.eqb Pos.eqb negb]. rewrite A1, A2. cbn [bind].
    destruct f as [|f']; [cbn [depth] in DX'; lia|].
    eapply decided_iff.
    + eapply (structs_compared_j (node_equal n b1 b2 f') sn ms); [exact SD|exact HG|lia|lia|exact UX|exact UY].
    + split; [intros; constructor; assumption|intros W; inversion W; assumption].
  - (* vectors of structs *)
    destruct G3 as (G3 & -> & SD). destruct (says_tests _ _ G3) as (_ & _ & TU & _ & _ & TB). rewrite TU, TB.
    cbn [has bits map class_bit existsb orb Z.eqb Pos.eqb negb]. rewrite A1, A2. cbn [bind].
    destruct f as [|[|f']]; [cbn [depth] in DX'; lia|cbn [depth] in DX'; lia|].
    match goal with H : sees_vector b1 (_ + ?e) _ _, H' : 4 <= ?e |- _ => destruct (vector_from_pos_j b1 _ _ _ _ HP1 H' H) as [Q1 K1] end.
    match goal with H : sees_vector b2 (_ + ?e) _ _, H' : 4 <= ?e |- _ => destruct (vector_from_pos_j b2 _ _ _ _ HP2 H' H) as [Q2 K2] end.
    eapply decided_iff.
    + eapply (struct_vectors_compared_j f' sn ms); eassumption.
    + split; [intros [? ?]; constructor; assumption|intros W; inversion W; auto].
  - (* tables *)
    destruct G3 as (G3 & ->). destruct (says_tests _ _ G3) as (_ & _ & TU & _ & _ & TB). rewrite TU, TB.
    cbn [has bits map class_bit existsb orb Z.eqb Pos.eqb negb]. rewrite A1, A2. cbn [bind].
    match goal with H : seen_table b1 _ _ _ v |- _ => pose proof H as ST1; destruct (stored_pos_j b1 s _ _ _ H) as (_ & _ & ? & ? & -> & _) end.
    match goal with H : seen_table b2 _ _ _ y |- _ => pose proof H as ST2; destruct (stored_pos_j b2 s _ _ _ H) as (_ & _ & ? & ? & -> & _) end.
    cbn [WalkProofs.field_node]. eapply (IH f); [lia|eassumption..].
  - (* vectors of tables *)
    destruct G3 as (G3 & -> & TD). destruct (says_tests _ _ G3) as (_ & _ & TU & _ & _ & TB). rewrite TU, TB.
    cbn [has bits map class_bit existsb orb Z.eqb Pos.eqb negb]. rewrite A1, A2. cbn [bind].
    destruct f as [|f']; [cbn [depth] in DX'; lia|].
    match goal with H : sees_vector b1 (_ + ?e) _ _, H' : 4 <= ?e |- _ => destruct (vector_from_pos_j b1 _ _ _ _ HP1 H' H) as [Q1 K1] end.
    match goal with H : sees_vector b2 (_ + ?e) _ _, H' : 4 <= ?e |- _ => destruct (vector_from_pos_j b2 _ _ _ _ HP2 H' H) as [Q2 K2] end.
    inversion FX; subst. inversion FY; subst. cbn [depth] in DX'.
    eapply tables_compared_j; try eassumption.
    + apply IH. lia.
    + intros w Hw. eapply uncut_elem; [exact Hw|exact UX].
    + intros w Hw. eapply uncut_elem; [exact Hw|exact UY].
    + intros w Hw. pose proof (depth_in w vs Hw). lia.
  - (* unions *)
    destruct G3 as (G3 & _ & _). destruct (says_tests _ _ G3) as (_ & _ & TU & _ & _ & TB). rewrite TU.
    cbn [has bits map class_bit existsb orb Z.eqb Pos.eqb].
    match goal with H : seen_table b1 _ _ _ v |- _ => pose proof H as ST1; destruct (stored_pos_j b1 s _ _ _ H) as (_ & _ & ? & fs' & -> & _) end.
    match goal with H : seen_table b2 _ _ _ y |- _ => pose proof H as ST2; destruct (stored_pos_j b2 s _ _ _ H) as (_ & _ & ? & fs'' & -> & _) end.
    destruct (follow_stored_j n b1 s HD name p z1 so1 es1 tl1 tys fs1 i us Hs TA1 So1 SF1 Ht _ Hx)
      as [(? & ? & ? & E1 & _ & _ & _ & _ & U1)|(E1 & _)]; [|discriminate E1].
    destruct (follow_stored_j n b2 s HD name p2 z2 so2 es2 tl2 tys fs2 i us Hs TA2 So2 SF2 Ht _ Hy)
      as [(? & ? & ? & E2 & _ & _ & _ & _ & U2)|(E2 & _)]; [|discriminate E2].
    injection E1 as <- <- <-. injection E2 as <- <- <-. rewrite U1, U2. cbn [bind].
    assert (I0 : 0 < i).
    { destruct (Z.eq_dec i 0) as [->|]; [|lia]. specialize (PA1 eq_refl). discriminate. }
    destruct (PB1 I0) as (w1 & W1 & X1). destruct (PB2 I0) as (w2 & W2 & X2).
    injection X1 as <-. injection X2 as <-.
    pose proof (PREV (i - 1) ltac:(lia) _ _ W1 W2) as SB. inversion SB as [| ? ? ? SB'| | | | |]; subst.
    assert (K : k = k0).
    { match goal with H : reads b1 x 1 _ |- _ => match goal with H' : reads b2 ?y' 1 _ |- _ =>
        assert (X0 : 0 <= x) by (eapply byte_pos; [exact SF1|exact HP1|exact W1]);
        assert (Y0 : 0 <= y') by (eapply byte_pos; [exact SF2|exact HP2|exact W2]);
        pose proof (type_same _ _ _ _ X0 Y0 (uncut_in b1 _ fs1 name p (zget_In _ _ _ _ W1) UC1 _ _ (or_introl eq_refl))
          (uncut_in b2 _ fs2 name p2 (zget_In _ _ _ _ W2) UC2 _ _ (or_introl eq_refl)) H H' SB') end end. lia. }
    subst k0.
    match goal with H : zget us k = Some tn |- _ => match goal with H' : zget us k = Some ?tn' |- _ => 
      assert_fails (constr_eq tn tn'); rewrite H in H'; injection H' as <- end end.
    eapply (IH f); [lia|eassumption..].
Qed.

Lemma tables_agree_j : forall f, agree_j f.
Proof.
  intros f. assert (G : forall g, (g <= f)%nat -> agree_j g).
  { induction f as [|f IH].
    - intros g Hg. replace g with O by lia. intros name p1 p2 v1 v2 z1 z2 T1 T2 _ _ _ _ D.
      inversion T1; subst. cbn in D. lia.
    - intros g Hg. destruct (Nat.eq_dec g (S f)) as [->|]; [|apply IH; lia]. apply agree_step_j. exact IH. }
  apply G. lia.
Qed.

End Two.

(** ** Buffers and images *)

Lemma same_j : forall n b1 b2 s m1 m2 name p1 p2 v1 v2 z1 z2 f,
  in_memory b1 -> in_memory b2 -> shows b1 m1 -> shows b2 m2 -> describes n s -> members_described n s ->
  stored_table m1 s name p1 v1 -> stored_table m2 s name p2 v2 -> intact b1 m1 v1 -> intact b2 m2 v2 ->
  uncut b1 v1 -> uncut b2 v2 -> full v1 -> full v2 -> (depth v1 <= f)%nat ->
  exists r, node_equal n b1 b2 f (Some (new_node n (Some (p1, z1)) no_vinfo name))
                                 (Some (new_node n (Some (p2, z2)) no_vinfo name)) = Ok r /\ (r = true <-> within m1 m2 v1 v2).
Proof.
  intros n b1 b2 s m1 m2 name p1 p2 v1 v2 z1 z2 f HB1 HB2 HM1 HM2 HD HM S1 S2 I1 I2 U1 U2 F1 F2 D.
  apply (tables_agree_j n b1 b2 m1 m2 s HB1 HB2 HM1 HM2 HD HM f name p1 p2 v1 v2 z1 z2); auto.
  - exact (proj1 (stored_seen b1 m1 s HB1 HM1) _ _ _ S1 I1).
  - exact (proj1 (stored_seen b2 m2 s HB2 HM2) _ _ _ S2 I2).
Qed.

Lemma both_j : forall n b1 b2 s m1 m2 name p1 p2 v1 v2 z1 z2 f,
  in_memory b1 -> in_memory b2 -> shows b1 m1 -> shows b2 m2 -> describes n s -> members_described n s ->
  let c1 := Some (new_node n (Some (p1, z1)) no_vinfo name) in
  let c2 := Some (new_node n (Some (p2, z2)) no_vinfo name) in
  stored_table m1 s name p1 v1 -> stored_table m2 s name p2 v2 -> intact b1 m1 v1 -> intact b2 m2 v2 ->
  uncut b1 v1 -> uncut b2 v2 -> full v1 -> full v2 -> (depth v1 <= f)%nat -> (depth v2 <= f)%nat ->
  (node_equal n b1 b2 f c1 c2 = Ok true /\ node_equal n b2 b1 f c2 c1 = Ok true <-> same_value m1 m2 v1 v2).
Proof.
  intros n b1 b2 s m1 m2 name p1 p2 v1 v2 z1 z2 f HB1 HB2 HM1 HM2 HD HM c1 c2 S1 S2 I1 I2 U1 U2 F1 F2 D1 D2.
  destruct (same_j n b1 b2 s m1 m2 name p1 p2 v1 v2 z1 z2 f) as (r & E & R); auto.
  destruct (same_j n b2 b1 s m2 m1 name p2 p1 v2 v1 z2 z1 f) as (r' & E' & R'); auto.
  rewrite (same_within m1 m2 f v1 v2 D1). rewrite <- R, <- R'. unfold c1, c2. rewrite E, E'.
  split; intros [A B]; split; congruence.
Qed.

Lemma members_wide : forall ms p a k, In (a, k) (member_numbers p ms) -> 1 <= k.
Proof.
  induction ms as [|t ms IH]; intros p a k H; [destruct H|]. destruct H as [H|H]; [|eauto].
  injection H as _ <-. pose proof (zwidth_pos t). lia.
Qed.

Lemma numbers_wide_all : forall m s,
  (forall name p v, stored_table m s name p v -> forall a k, In (a, k) (numbers v) -> 1 <= k) /\
  (forall p prev tys es fs, stored_fields m s p prev tys es fs -> forall a k, In (a, k) (flat_map numbers fs) -> 1 <= k) /\
  (forall p prev t e v, stored_field m s p prev t e v -> forall a k, In (a, k) (numbers v) -> 1 <= k) /\
  (forall slot tn vs, stored_elems m s slot tn vs -> forall a k, In (a, k) (flat_map numbers vs) -> 1 <= k).
Proof.
  intros m s. apply stored_mind; cbn [numbers flat_map]; try (intros; contradiction).
  - intros name p soff es tl tys fs _ _ _ _ IH a k H. eapply IH, H.
  - intros p prev t tys e es v vs _ IH1 _ IH2 a k H. apply in_app_or in H. destruct H; eauto.
  - intros p prev t e _ _ a k [H|[]]. injection H as _ <-. pose proof (zwidth_pos t). lia.
  - intros p prev sn ms e _ _ a k H. eapply members_wide; eauto.
  - intros p prev sn ms e q k _ _ _ a l H. apply in_flat_map in H. destruct H as (j & _ & H). eapply members_wide; eauto.
  - eauto.
  - eauto.
  - eauto.
  - intros slot tn q v vs _ _ IH1 _ IH2 a k H. apply in_app_or in H. destruct H; eauto.
Qed.

Lemma numbers_wide : forall m s name p v, stored_table m s name p v -> forall a k, In (a, k) (numbers v) -> 1 <= k.
Proof. intros m s. exact (proj1 (numbers_wide_all m s)). Qed.

Lemma same_after : forall n s, describes n s -> members_described n s ->
  forall m v cs ts m' v', changes n s m v cs ts m' v' -> forall b name p, in_memory b -> shows b m ->
  stored_table m s name p v -> intact b m v ->
  exists b' k, (forall fuel, (k <= fuel)%nat -> run_calls n fuel b cs = Ok b') /\
    forall b2 m2 tn tp fs q w z1 z2 f, in_memory b2 -> shows b2 m2 -> In (Tab tn tp fs) (tables v') ->
      stored_table m2 s tn q w -> intact b2 m2 w -> uncut_after b ts (Tab tn tp fs) -> uncut b2 w ->
      full (Tab tn tp fs) -> full w -> (depth (Tab tn tp fs) <= f)%nat -> (depth w <= f)%nat ->
      let c1 := Some (new_node n (Some (tp, z1)) no_vinfo tn) in
      let c2 := Some (new_node n (Some (q, z2)) no_vinfo tn) in
      (exists r, node_equal n b' b2 f c1 c2 = Ok r /\ (r = true <-> within m' m2 (Tab tn tp fs) w)) /\
      (exists r, node_equal n b2 b' f c2 c1 = Ok r /\ (r = true <-> within m2 m' w (Tab tn tp fs))) /\
      (node_equal n b' b2 f c1 c2 = Ok true /\ node_equal n b2 b' f c2 c1 = Ok true <-> same_value m' m2 (Tab tn tp fs) w).
Proof.
  intros n s HD HMD m v cs ts m' v' HC b name p HB HM H HI.
  destruct (DocProofs.calls_done n s HD m v cs ts m' v' HC b name p HB HM H HI) as (b' & k & R & HB' & HM' & S' & I' & L & _).
  exists b', k. split; [exact R|]. intros b2 m2 tn tp fs q w z1 z2 f HB2 HM2 HT SW IW UA UW FU FW D1 D2 c1 c2.
  destruct (proj1 (PutProofs2.tables_stored m' s v') name p S' _ HT) as (nm & q' & gs & E & ST). injection E as <- <- <-.
  pose proof (intact_inside b' m' v' _ I' HT) as IT.
  assert (UT : uncut b' (Tab tn tp fs)).
  { intros a l Ha. apply L; [|apply UA; exact Ha]. eapply numbers_wide; [exact ST|exact Ha]. }
  split; [|split].
  - apply (same_j n b' b2 s m' m2 tn tp q (Tab tn tp fs) w z1 z2 f); auto.
  - apply (same_j n b2 b' s m2 m' tn q tp w (Tab tn tp fs) z2 z1 f); auto.
  - apply (both_j n b' b2 s m' m2 tn tp q (Tab tn tp fs) w z1 z2 f); auto.
Qed.

(** ** Checks for samples *)

Definition uncut_b (b : base) (v : val) : bool := forallb (fun x => held_b b (fst x) (snd x)) (numbers v).

Lemma uncut_sound : forall b v, uncut_b b v = true -> uncut b v.
Proof.
  intros b v H a k Ha. unfold uncut_b in H. rewrite forallb_forall in H. apply held_sound. exact (H (a, k) Ha).
Qed.

Definition uncut_after_b (b : base) (ts : list trace) (v : val) : bool :=
  forallb (fun x => FillProofs.left_b b ts (fst x) (snd x)) (numbers v).

Lemma uncut_after_sound : forall b ts v, uncut_after_b b ts v = true -> uncut_after b ts v.
Proof.
  intros b ts v H a k Ha. unfold uncut_after_b in H. rewrite forallb_forall in H. apply FillProofs.left_sound. exact (H (a, k) Ha).
Qed.
