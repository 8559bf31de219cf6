(** Comparing nodes of stored values: loops, scalars, structs and vectors of
    structs. *)
From Coq Require Import ZArith List Bool Lia String.
From Coq Require Import Strings.Byte.
From Verif Require Import GoLib BaseModel GoLemmas BaseSpec BaseProofs TableModel TableSpec TableProofs.
From Verif Require Import TableProofs2 NameModel NameSpec NameProofs NameProofs2 VariantModel VariantProofs.
From Verif Require Import WalkModel WalkSpec WalkProofs WalkProofs2 WalkProofs3 WalkProofs7 EqualModel EqualSpec.
Import ListNotations.
Open Scope list_scope.
Open Scope Z_scope.

(** ** Loops *)

Lemma each_seq : forall (P : Z -> Prop) f d k, 0 <= k ->
  (forall i, k <= i < k + Z.of_nat d -> (forall j, k <= j < i -> P j) ->
     exists r, f i = Ok r /\ (r = true <-> P i)) ->
  exists r, each f (map Z.of_nat (seq (Z.to_nat k) d)) = Ok r /\
    (r = true <-> forall i, k <= i < k + Z.of_nat d -> P i).
Proof.
  intros P f. induction d as [|d IH]; intros k Hk H.
  - exists true. split; [reflexivity|]. split; [intros _ i Hi; lia|reflexivity].
  - cbn [seq map each]. rewrite Z2Nat.id by lia.
    destruct (H k ltac:(lia) ltac:(intros; lia)) as (r & E & R). rewrite E. cbn [bind].
    destruct r.
    + destruct (IH (k + 1) ltac:(lia)) as (r' & E' & R').
      { intros i Hi HP. apply H; [lia|]. intros j Hj. destruct (Z.eq_dec j k) as [->|]; [tauto|].
        apply HP. lia. }
      replace (Z.to_nat (k + 1)) with (S (Z.to_nat k)) in E' by lia. exists r'. split; [exact E'|].
      rewrite R'. split; intros G i Hi.
      * destruct (Z.eq_dec i k) as [->|]; [tauto|]. apply G. lia.
      * apply G. lia.
    + exists false. split; [reflexivity|]. split; [discriminate|]. intros G.
      apply R. apply G. lia.
Qed.

Lemma each_indexes : forall (P : Z -> Prop) f k, 0 <= k ->
  (forall i, 0 <= i < k -> (forall j, 0 <= j < i -> P j) -> exists r, f i = Ok r /\ (r = true <-> P i)) ->
  exists r, each f (indexes k) = Ok r /\ (r = true <-> forall i, 0 <= i < k -> P i).
Proof.
  intros P f k Hk H. destruct (each_seq P f (Z.to_nat k) 0 ltac:(lia)) as (r & E & R).
  - intros i Hi HP. apply H; [lia|exact HP].
  - exists r. split; [exact E|]. rewrite R. split; intros G i Hi; apply G; lia.
Qed.

(** ** Bytes *)

Lemma flat_base_r : forall b p req k, flat b -> 0 <= p -> 1 <= k ->
  occupied (img_bytes (sl_data (b_bytes b))) p k ->
  base_r b p req = Ok (Some (mkSlice (zskip p (sl_data (b_bytes b))) (sl_spare (b_bytes b)))) /\
  k <= zlen (zskip p (sl_data (b_bytes b))).
Proof.
  intros b p req k [F1 F2] Hp Hk HO.
  destruct (HO (k - 1) ltac:(lia)) as (x & Hx). unfold img_bytes in Hx. pose proof (zget_some_range _ _ _ Hx) as HR.
  assert (L : k <= zlen (zskip p (sl_data (b_bytes b)))) by (rewrite zlen_zskip; lia).
  split; [|exact L]. unfold base_r, writer_r. rewrite F2. change (last_index (covers p) []) with (@None nat). cbv iota.
  unfold gs_len. replace (zlen (sl_data (b_bytes b)) <? p) with false by lia.
  unfold gs_from, gs_len. replace ((0 <=? p) && (p <=? zlen (sl_data (b_bytes b)))) with true by lia.
  cbn [bind opt_len]. unfold gs_len. cbn [sl_data].
  replace (zlen (zskip p (sl_data (b_bytes b))) =? 0) with false by lia. reflexivity.
Qed.

Lemma flat_exactly : forall b p k, flat b -> 0 <= p -> 1 <= k ->
  occupied (img_bytes (sl_data (b_bytes b))) p k ->
  exists l, read_exactly b p k = Ok l /\ zlen l = k /\
    forall i, 0 <= i < k -> zget l i = img_bytes (sl_data (b_bytes b)) (p + i).
Proof.
  intros b p k HF Hp Hk HO. destruct (flat_base_r b p k k HF Hp Hk HO) as (E & L).
  unfold read_exactly. rewrite E. cbn [bind]. unfold gs_upto, gs_range, gs_cap, gs_len. cbn [sl_data sl_spare].
  set (d := zskip p (sl_data (b_bytes b))) in *. pose proof (zlen_nonneg (sl_spare (b_bytes b))).
  rewrite ?zlen_app.
  replace ((0 <=? 0) && (0 <=? k) && (k <=? zlen d + zlen (sl_spare (b_bytes b)))) with true by lia.
  cbn [bind sl_data]. eexists. split; [reflexivity|].
  assert (Z : forall i, 0 <= i < k -> zget (zskip 0 (zfirst k (d ++ sl_spare (b_bytes b)))) i = zget d i).
  { intros i Hi. rewrite zget_zskip by lia. rewrite zget_zfirst, zget_app.
    replace (0 + i) with i by lia. replace (i <? k) with true by lia. replace (i <? zlen d) with true by lia.
    rewrite ?(proj2 (Z.ltb_ge i 0)) by lia. reflexivity. }
  split.
  - rewrite zlen_zskip, zlen_zfirst, zlen_app. lia.
  - intros i Hi. rewrite Z by lia. unfold d. rewrite zget_zskip by lia.
    rewrite ?(proj2 (Z.ltb_ge i 0)) by lia. reflexivity.
Qed.

Lemma zget_eq : forall (l l' : list byte), zlen l = zlen l' ->
  (forall i, 0 <= i < zlen l -> zget l i = zget l' i) -> l = l'.
Proof.
  intros l l' L H. apply zget_ext. intros i. destruct (Z_lt_dec i 0) as [|N].
  - unfold zget. replace (i <? 0) with true by lia. reflexivity.
  - destruct (Z_lt_dec i (zlen l)); [apply H; lia|]. rewrite !zget_ge by lia. reflexivity.
Qed.

Section Two.
Variable n : names.
Variable b1 b2 : base.
Hypothesis HF1 : flat b1.
Hypothesis HF2 : flat b2.

Local Notation m1 := (img_bytes (sl_data (b_bytes b1))).
Local Notation m2 := (img_bytes (sl_data (b_bytes b2))).
Local Notation same_bytes := (same_bytes m1 m2).

Lemma scalars_compared : forall k f1 f2 p1 z1 p2 z2, c_node f1 = Some (p1, z1) -> c_node f2 = Some (p2, z2) ->
  0 <= p1 -> 0 <= p2 -> 1 <= k -> occupied m1 p1 k -> occupied m2 p2 k ->
  exists r, equal_scalar b1 b2 k f1 f2 = Ok r /\ (r = true <-> same_bytes p1 p2 k).
Proof.
  intros k f1 f2 p1 z1 p2 z2 N1 N2 H1 H2 Hk O1 O2. unfold equal_scalar. rewrite N1, N2.
  destruct (flat_base_r b1 p1 0 k HF1 H1 Hk O1) as (-> & L1).
  destruct (flat_base_r b2 p2 0 k HF2 H2 Hk O2) as (-> & L2).
  cbn [bind opt_len]. unfold gs_len. cbn [sl_data].
  replace (zlen (zskip p1 (sl_data (b_bytes b1))) <? k) with false by lia.
  replace (zlen (zskip p2 (sl_data (b_bytes b2))) <? k) with false by lia.
  destruct (flat_exactly b1 p1 k HF1 H1 Hk O1) as (l1 & -> & K1 & G1).
  destruct (flat_exactly b2 p2 k HF2 H2 Hk O2) as (l2 & -> & K2 & G2).
  cbn [bind]. eexists. split; [reflexivity|]. rewrite list_eqb_eq. split.
  - intros -> i Hi. rewrite <- G1, <- G2 by lia. reflexivity.
  - intros S. apply zget_eq; [lia|]. intros i Hi. rewrite G1, G2 by lia. apply S. lia.
Qed.

(** ** Structs *)

Lemma member_end : forall ms i t, zget ms i = Some t ->
  0 <= struct_size (zfirst i ms) /\ struct_size (zfirst i ms) + zwidth t <= struct_size ms.
Proof.
  induction ms as [|u ms IH]; intros i t H.
  - rewrite zget_nil in H. discriminate.
  - split; [apply struct_size_nonneg|]. rewrite zget_cons in H. destruct (i =? 0) eqn:E.
    + injection H as ->. replace i with 0 by lia. unfold zfirst. cbn. fold (struct_size ms).
      pose proof (struct_size_nonneg ms). lia.
    + pose proof (zget_some_range _ _ _ H) as R. destruct (IH _ _ H) as [_ I].
      unfold zfirst in *. replace (Z.to_nat i) with (S (Z.to_nat (i - 1))) by lia.
      cbn [firstn struct_size fold_right]. fold (struct_size ms). fold (struct_size (firstn (Z.to_nat (i - 1)) ms)). lia.
Qed.

Lemma members_same : forall ms p q,
  (forall i t, zget ms i = Some t ->
     same_bytes (p + struct_size (zfirst i ms)) (q + struct_size (zfirst i ms)) (zwidth t)) <->
  same_bytes p q (struct_size ms).
Proof.
  intros ms p q. split.
  - revert p q. induction ms as [|u ms IH]; intros p q H i Hi.
    + cbn in Hi. lia.
    + cbn [struct_size fold_right] in Hi. fold (struct_size ms) in Hi.
      destruct (Z_lt_dec i (zwidth u)).
      * assert (G : zget (u :: ms) 0 = Some u) by reflexivity. pose proof (H 0 u G i ltac:(lia)) as X. unfold zfirst in X. cbn in X.
        replace (p + 0) with p in X by lia. replace (q + 0) with q in X by lia. exact X.
      * specialize (IH (p + zwidth u) (q + zwidth u)).
        assert (X : same_bytes (p + zwidth u) (q + zwidth u) (struct_size ms)).
        { apply IH. intros j t Hj. pose proof (zget_some_range _ _ _ Hj) as R.
          specialize (H (j + 1) t). rewrite zget_cons in H. replace (j + 1 =? 0) with false in H by lia.
          replace (j + 1 - 1) with j in H by lia. specialize (H Hj).
          unfold zfirst in *. replace (Z.to_nat (j + 1)) with (S (Z.to_nat j)) in H by lia.
          cbn [firstn struct_size fold_right] in H. fold (struct_size (firstn (Z.to_nat j) ms)) in H.
          rewrite !Z.add_assoc in H. exact H. }
        specialize (X (i - zwidth u) ltac:(lia)).
        replace (p + zwidth u + (i - zwidth u)) with (p + i) in X by lia.
        replace (q + zwidth u + (i - zwidth u)) with (q + i) in X by lia. exact X.
  - intros H i t Hi j Hj. destruct (member_end ms i t Hi) as [A B].
    rewrite <- !Z.add_assoc. apply H. lia.
Qed.

Lemma group_at_new : forall nd nd' i i' name j,
  group_at (new_node n nd i name) j = group_at (new_node n nd' i' name) j.
Proof. intros. unfold new_node, fetch_index. cbn [c_name]. destruct (lookup (n_idxname n) name); reflexivity. Qed.

Definition grouped (sn : string) (ms : list scalar) : Prop :=
  forall j u, zget ms j = Some u -> exists g, group_of n sn j = Some g /\ says g [CBasic (width u)].

Lemma struct_group : forall sn ms nd i0 j u, struct_described n sn ms -> grouped sn ms -> zget ms j = Some u ->
  is_field_union (group_at (new_node n nd i0 sn) j) = false /\
  is_field_basic (group_at (new_node n nd i0 sn) j) = true.
Proof.
  intros sn ms nd i0 j u (_ & _ & S3 & _) SG Hu. destruct (SG j u Hu) as (g & G1 & G2).
  assert (E : group_at (new_node n nd i0 sn) j = g).
  { unfold group_at, new_node, fetch_index. cbn [c_name]. destruct (lookup (n_idxname n) sn); [|congruence].
    cbn [c_groups]. unfold group_of in G1. destruct (lookup (n_groups n) sn) as [gl|] eqn:L; [|discriminate].
    rewrite (sub_lookup _ _ _ _ L), G1. reflexivity. }
  rewrite E. destruct (says_tests _ _ G2) as (_ & _ & -> & _ & _ & ->).
  destruct (width_cases u) as [->|[->|[->| ->]]]; split; reflexivity.
Qed.

Lemma structs_compared : forall go sn ms p1 z1 p2 z2, struct_described n sn ms -> grouped sn ms ->
  0 <= p1 -> 0 <= p2 -> occupied m1 p1 (struct_size ms) -> occupied m2 p2 (struct_size ms) ->
  exists r, equal_step n b1 b2 go (Some (new_node n (Some (p1, z1)) no_vinfo sn))
                                  (Some (new_node n (Some (p2, z2)) no_vinfo sn)) = Ok r /\
    (r = true <-> same_bytes p1 p2 (struct_size ms)).
Proof.
  intros go sn ms p1 z1 p2 z2 SD SG H1 H2 O1 O2. unfold equal_step. rewrite new_node_info. cbn [no_vinfo v_pos].
  change (0 <? 0) with false. cbv iota.
  destruct (struct_node n sn ms (Some (p1, z1)) no_vinfo SD) as (_ & _ & L & T). rewrite L.
  destruct (each_indexes (fun i => forall t, zget ms i = Some t ->
      same_bytes (p1 + struct_size (zfirst i ms)) (p2 + struct_size (zfirst i ms)) (zwidth t))
    (equal_field n b1 b2 go (new_node n (Some (p1, z1)) no_vinfo sn) (new_node n (Some (p2, z2)) no_vinfo sn))
    (zlen ms) (zlen_nonneg ms)) as (r & E & R).
  - intros i Hi _. destruct (zget_some ms i Hi) as (t & Ht).
    unfold equal_field. rewrite (group_at_new (Some (p2, z2)) (Some (p1, z1)) no_vinfo no_vinfo sn i).
    rewrite Z.eqb_refl. cbn [negb].
    destruct (struct_group sn ms (Some (p1, z1)) no_vinfo i t SD SG Ht) as (-> & ->). cbn [negb].
    destruct (member_found n b1 sn ms p1 z1 i t SD Ht) as (f1 & -> & F1).
    destruct (member_found n b2 sn ms p2 z2 i t SD Ht) as (f2 & -> & F2). cbn [bind].
    rewrite (T i t Ht). destruct (member_end ms i t Ht) as [A B]. pose proof (zwidth_pos t).
    destruct (scalars_compared (zwidth t) f1 f2 _ _ _ _ F1 F2 ltac:(lia) ltac:(lia) ltac:(lia)) as (r & E & R).
    + intros j Hj. rewrite <- Z.add_assoc. apply O1. lia.
    + intros j Hj. rewrite <- Z.add_assoc. apply O2. lia.
    + exists r. split; [exact E|]. rewrite R. split.
      * intros S t' Ht'. rewrite Ht in Ht'. injection Ht' as <-. exact S.
      * intros S. apply S. exact Ht.
  - exists r. split; [exact E|]. rewrite R, <- members_same. split.
    + intros S i t Ht. apply S; [|exact Ht]. eapply zget_some_range; eauto.
    + intros S i _ t Ht. apply S. exact Ht.
Qed.

(** ** Vectors of structs *)

Lemma elements_same : forall w k p q, 0 <= w -> 0 <= k ->
  (forall j, 0 <= j < k -> same_bytes (p + j * w) (q + j * w) w) <-> same_bytes p q (k * w).
Proof.
  intros w k p q Hw Hk. split.
  - intros H i Hi. assert (0 < w) by nia. specialize (H (i / w)).
    assert (0 <= i / w < k) by (split; [apply Z.div_pos; lia|apply Z.div_lt_upper_bound; nia]).
    specialize (H ltac:(lia) (i mod w) (Z.mod_pos_bound i w ltac:(lia))).
    pose proof (Z.div_mod i w ltac:(lia)) as D.
    replace (p + i / w * w + i mod w) with (p + i) in H by lia.
    replace (q + i / w * w + i mod w) with (q + i) in H by lia. exact H.
  - intros H j Hj i Hi. rewrite <- !Z.add_assoc. apply H. nia.
Qed.

Lemma struct_vectors_compared : forall f sn ms nd1 q1 z1 k1 nd2 q2 z2 k2,
  struct_described n sn ms -> grouped sn ms ->
  4 <= q1 -> holds_uint m1 (q1 - 4) 4 k1 -> occupied m1 q1 (k1 * struct_size ms) ->
  4 <= q2 -> holds_uint m2 (q2 - 4) 4 k2 -> occupied m2 q2 (k2 * struct_size ms) ->
  exists r, equal_step n b1 b2 (node_equal n b1 b2 (S f))
      (Some (new_node n (Some nd1) (mkV q1 z1 k1) ("[]" ++ sn)%string))
      (Some (new_node n (Some nd2) (mkV q2 z2 k2) ("[]" ++ sn)%string)) = Ok r /\
    (r = true <-> k1 <= k2 /\ same_bytes q1 q2 (k1 * struct_size ms)).
Proof.
  intros f sn ms nd1 q1 z1 k1 nd2 q2 z2 k2 SD SG Q1 H1 O1 Q2 H2 O2.
  pose proof (struct_size_nonneg ms) as SP.
  assert (K1 : 0 <= k1) by (destruct H1; lia). assert (K2 : 0 <= k2) by (destruct H2; lia).
  unfold equal_step. rewrite new_node_info. cbn [v_pos v_len].
  replace (0 <? q1) with true by lia.
  destruct (each_indexes (fun i => i < k2 /\ same_bytes (q1 + i * struct_size ms) (q2 + i * struct_size ms) (struct_size ms))
    (equal_elem n b1 b2 (node_equal n b1 b2 (S f)) (new_node n (Some nd1) (mkV q1 z1 k1) ("[]" ++ sn)%string)
       (new_node n (Some nd2) (mkV q2 z2 k2) ("[]" ++ sn)%string)) k1 K1) as (r & E & R).
  - intros i Hi _. unfold equal_elem.
    rewrite (vec_at_struct n b1 HF1 nd1 q1 z1 k1 sn ms i Q1 H1 SD Hi). cbn [bind].
    destruct (Z_lt_dec i k2) as [Y|N].
    + rewrite (vec_at_struct n b2 HF2 nd2 q2 z2 k2 sn ms i Q2 H2 SD ltac:(lia)). cbn [bind].
      destruct (structs_compared (node_equal n b1 b2 f) sn ms (q1 + i * struct_size ms) (-1) (q2 + i * struct_size ms) (-1) SD SG
        ltac:(nia) ltac:(nia)) as (r & E & R).
      * intros j Hj. rewrite <- Z.add_assoc. apply O1. nia.
      * intros j Hj. rewrite <- Z.add_assoc. apply O2. nia.
      * exists r. split; [exact E|]. rewrite R. tauto.
    + rewrite (vec_outside n b2 HF2 nd2 q2 z2 k2 sn i Q2 H2 ltac:(lia)). cbn [bind].
      exists false. split; [reflexivity|]. split; [discriminate|]. tauto.
  - exists r. split; [exact E|]. rewrite R, <- (elements_same (struct_size ms) k1 q1 q2 SP K1). split.
    + intros S. split.
      * destruct (Z_le_dec k1 0); [lia|]. specialize (S (k1 - 1) ltac:(lia)). lia.
      * intros j Hj. apply S. exact Hj.
    + intros [A B] i Hi. split; [lia|]. apply B. exact Hi.
Qed.

End Two.
