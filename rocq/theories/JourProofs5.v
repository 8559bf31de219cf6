(** [Info] and [Len] in buffers with journal entries. *)
From Coq Require Import ZArith List Bool Lia String.
From Coq Require Import Strings.Byte.
From Verif Require Import GoLib BaseModel GoLemmas BaseSpec BaseProofs TableModel TableSpec TableProofs.
From Verif Require Import TableProofs2 NameModel NameSpec NameProofs NameProofs2.
From Verif Require Import WalkModel WalkSpec WalkProofs WalkProofs2 WalkProofs3 WalkProofs4 WalkProofs5 WalkProofs7 JourProofs JourProofs2 JourProofs3 JourProofs4.
Import ListNotations.
Open Scope list_scope.
Open Scope Z_scope.

Section Schema.
Variable n : names.
Variable b : base.
Variable s : schema.
Hypothesis HD : describes n s.

Local Notation m := b.
Local Notation tnode_at := (tnode_at n).
Local Notation field_node := (field_node n).
Local Notation node_ok := (node_ok n).
Local Notation sub_ok := (sub_ok n).

Lemma field_end_j : forall p pv t e v, 0 <= p -> seen_field m s p pv t e v ->
  (is_absent v = false -> v_end (field_vinfo p v) = reach v /\ p + 4 <= reach v) /\
  (is_absent v = true -> v_end (field_vinfo p v) <= p \/ exists t, v = Absent (TyScalar t) /\ v_end (field_vinfo p v) = p + zwidth t).
Proof.
  intros p pv t e v Hp H. pose proof (zwidth_pos) as ZP. pose proof struct_size_nonneg as SP.
  split.
  - intros HA. destruct H; cbn [is_absent] in HA; try discriminate; unfold v_end; cbn [field_vinfo v_pos v_size reach].
    + specialize (ZP t). lia.
    + specialize (SP ms). lia.
    + destruct H0 as [[V1 _] [V2 _]]. specialize (ZP t). nia.
    + destruct H0 as [[V1 _] [V2 _]]. specialize (SP ms). nia.
    + pose proof (reach_pos_j b s _ _ _ H1). destruct H0 as [V1 _].
      destruct (stored_pos_j b s _ _ _ H1) as (_ & _ & tys' & fs' & -> & _). cbn [field_vinfo v_pos v_size]. lia.
    + destruct H0 as [[V1 _] _].
      pose proof (proj1 (fold_max_le (map reach vs) (q + 4 * zlen vs) _) (Z.le_refl _)) as [X _].
      pose proof (zlen_nonneg vs). cbn [reach]. lia.
    + pose proof (reach_pos_j b s _ _ _ H3). destruct H2 as [V1 _].
      destruct (stored_pos_j b s _ _ _ H3) as (_ & _ & tys' & fs' & -> & _). cbn [field_vinfo v_pos v_size]. lia.
  - intros HA. destruct v as [t'| | | | | |]; try discriminate. destruct t'; unfold v_end; cbn; eauto; left; lia.
Qed.

Lemma table_info_j : forall f name p fs sz,
  seen_table m s name p (Tab name p fs) -> measured (Tab name p fs) ->
  (forall v, In v fs -> sub_ok (node_info n b (S f)) v) ->
  node_info n b (S (S f)) (tnode_at name p sz) = Ok (mkV p (reach (Tab name p fs) - p) 0).
Proof.
  intros f name p fs sz HT HM HO. inversion HT as [? ? soff es tl tys ? Hs T Hso HSF]; subst.
  inversion HM as [| | | | |? ? ? M1 M2 M3 M4|]; subst.
  pose proof (pos_entry_j b p soff es tl T) as HP.
  destruct (fields_nth_j b s p None tys es fs HSF) as (L1 & L2 & N).
  destruct (table_node n s HD name tys (Some (p, sz)) no_vinfo Hs) as (S1 & (g & S2 & S2') & S3 & S4).
  fold (tnode_at name p sz) in S3.
  change (node_info n b (S (S f)) (tnode_at name p sz)) with
    (info_step n b (node_info n b (S f)) (tnode_at name p sz)).
  unfold info_step. rewrite S3. unfold WalkProofs.tnode_at at 1 2 3 4. rewrite new_node_node, new_node_name, S2. cbn [bind].
  destruct (says_tests _ _ S2') as (_ & _ & _ & _ & _ & ->). cbn [has bits map class_bit existsb orb Z.eqb Pos.eqb]. rewrite S1.
  rewrite L1. rewrite <- (zlen_map _ (field_vinfo p) fs).
  rewrite (collect_indexes _ _ (map (field_vinfo p) fs)).
  2:{ intros i y Hy. rewrite zget_map in Hy. destruct (zget fs i) as [v|] eqn:E; [|discriminate]. injection Hy as <-.
      pose proof (zget_in _ _ _ _ E) as HI.
      apply (value_info_stored_j n b s HD _ name p sz soff es tl tys fs i v); auto.
      - apply node_info_good.
      - intros t ->. apply M3. exact HI. }
  cbn [bind]. f_equal. f_equal.
  assert (FE : forall v, In v fs -> exists pv t e, seen_field m s p pv t e v).
  { intros v Hv. apply In_nth_error in Hv. destruct Hv as [k Hk].
    destruct (N (Z.of_nat k) v) as (t & e & pv & _ & _ & X & _); [|eauto].
    unfold zget. replace (Z.of_nat k <? 0) with false by lia. rewrite Nat2Z.id. exact Hk. }
  pose proof (proj1 (fold_max_le (map reach fs) (p + 4) _) (Z.le_refl _)) as [R1 R2].
  change (fold_right Z.max (p + 4) (map reach fs)) with (reach (Tab name p fs)) in R1, R2.
  apply fold_grow.
  - lia.
  - intros w Hw. apply in_map_iff in Hw. destruct Hw as (v & <- & Hv).
    destruct (FE v Hv) as (pv & t & e & X). destruct (field_end_j p pv t e v HP X) as [E1 E2].
    destruct (is_absent v) eqn:EA.
    + destruct (E2 eq_refl) as [E|(t' & -> & E)]; [lia|]. rewrite E. apply M2. exact Hv.
    + destruct (E1 eq_refl) as [-> _]. apply R2. apply in_map. exact Hv.
  - right. assert (G : exists v, In v fs /\ is_absent v = false /\ reach v = reach (Tab name p fs)).
    { destruct (fold_max_in (map reach fs) (p + 4)) as [E|E];
        change (fold_right Z.max (p + 4) (map reach fs)) with (reach (Tab name p fs)) in E.
      - destruct M1 as (v & Hv & HA). exists v. split; [auto|]. split; [auto|].
        destruct (FE v Hv) as (pv & t & e & X). destruct (field_end_j p pv t e v HP X) as [E1 _].
        destruct (E1 HA) as [_ E3]. pose proof (R2 (reach v) (in_map reach _ _ Hv)). lia.
      - apply in_map_iff in E. destruct E as (v & Ev & Hv). exists v. split; [auto|]. split; [|auto].
        destruct v as [t| | | | | |]; auto. change (reach (Absent t)) with 0 in Ev. lia. }
    destruct G as (v & Hv & HA & <-). exists (field_vinfo p v). split; [apply in_map; auto|].
    destruct (FE v Hv) as (pv & t & e & X). destruct (field_end_j p pv t e v HP X) as [E1 _]. apply E1. exact HA.
Qed.

Lemma info_stored_j :
  (forall name p v, seen_table m s name p v -> measured v ->
     exists k, forall f, (k <= f)%nat -> node_ok (node_info n b f) name v) /\
  (forall p prev tys es fs, seen_fields m s p prev tys es fs -> Forall measured fs ->
     exists k, forall f, (k <= f)%nat -> forall v, In v fs -> sub_ok (node_info n b f) v) /\
  (forall p prev t e v, seen_field m s p prev t e v -> measured v ->
     exists k, forall f, (k <= f)%nat -> sub_ok (node_info n b f) v) /\
  (forall slot tn vs, seen_elems m s slot tn vs -> Forall measured vs ->
     exists k, forall f, (k <= f)%nat -> forall v, In v vs -> node_ok (node_info n b f) tn v).
Proof.
  assert (TAB : forall tn q v, seen_table m s tn q v ->
    (measured v -> exists k, forall f, (k <= f)%nat -> node_ok (node_info n b f) tn v) ->
    measured v -> exists k, forall f, (k <= f)%nat -> sub_ok (node_info n b f) v).
  { intros tn q v HS IH HM. destruct (IH HM) as [k Hk]. exists k. intros f Hf.
    destruct (stored_pos_j b s _ _ _ HS) as (_ & _ & tys & fs & -> & _). cbn [WalkProofs3.sub_ok]. apply Hk. exact Hf. }
  apply seen_mind; try (intros; exists 0%nat; intros; exact I).
  - intros name p soff es tl tys fs Hs T Hso HSF IH HM.
    inversion HM as [| | | | |? ? ? M1 M2 M3 M4|]; subst. destruct (IH M4) as [k Hk].
    exists (S (S k)). intros f Hf sz. destruct f as [|[|f]]; [lia|lia|]. cbn [val_pos].
    apply table_info_j; auto.
    + econstructor; eauto.
    + apply Hk. lia.
  - intros p prev _. exists 0%nat. intros f _ v [].
  - intros p prev t tys e es v vs _ IH1 _ IH2 HM. inversion HM; subst.
    destruct IH1 as [k1 K1]; auto. destruct IH2 as [k2 K2]; auto.
    exists (Nat.max k1 k2). intros f Hf w [<-|Hw]; [apply K1; lia|apply K2; [lia|auto]].
  - intros p prev tn e q v _ _ HS IH HM. eapply TAB; eauto.
  - intros p prev tn e q vs _ _ _ IH HM. inversion HM as [| | | | | |? ? ? M1 M2]; subst. destruct (IH M2) as [k Hk].
    exists k. intros f Hf. cbn [WalkProofs3.sub_ok]. split; [apply Hk; auto|exact M1].
  - intros p us e x k tn q v _ _ _ _ HS IH HM. eapply TAB; eauto.
  - intros slot tn _. exists 0%nat. intros f _ v [].
  - intros slot tn q v vs _ _ IH1 _ IH2 HM. inversion HM; subst.
    destruct IH1 as [k1 K1]; auto. destruct IH2 as [k2 K2]; auto.
    exists (Nat.max k1 k2). intros f Hf w [<-|Hw]; [apply K1; lia|apply K2; [lia|auto]].
Qed.

Lemma measured_info_j : forall name p v sz, seen_table m s name p v -> measured v ->
  exists k, forall f, (k <= f)%nat ->
    node_info n b f (new_node n (Some (p, sz)) no_vinfo name) = Ok (mkV p (reach v - p) 0).
Proof.
  intros name p v sz H HM. destruct (proj1 info_stored_j name p v H HM) as [k Hk]. exists k. intros f Hf.
  specialize (Hk f Hf sz). destruct (stored_pos_j b s _ _ _ H) as (_ & E & _). rewrite E in Hk. exact Hk.
Qed.

Lemma root_stored_j : forall name p v, seen_table m s name p v -> reads m 0 4 p ->
  root_node n b name = Ok (new_node n (Some (p, -1)) no_vinfo name).
Proof.
  intros name p v H HR. unfold root_node. rewrite (reads_rd 4 b 0 p ltac:(lia) ltac:(lia) HR). cbn [bind].
  rewrite (load_table_j b s _ _ _ H). reflexivity.
Qed.

Lemma measured_len_j : forall name p v, seen_table m s name p v -> measured v -> reads m 0 4 p ->
  exists c k r, root_node n b name = Ok c /\
    (forall f, (k <= f)%nat -> node_len n b f c = Ok r) /\
    r mod 8 = 0 /\ reach v <= r < reach v + 8.
Proof.
  intros name p v H HM HR. destruct (measured_info_j name p v (-1) H HM) as [k Hk].
  exists (new_node n (Some (p, -1)) no_vinfo name), k.
  pose proof (reach_pos_j b s _ _ _ H) as RP. destruct (stored_pos_j b s _ _ _ H) as (P0 & _).
  exists (if Z.rem (reach v) 8 =? 0 then reach v else reach v + (8 - Z.rem (reach v) 8)).
  split; [eapply root_stored_j; eauto|]. split.
  - intros f Hf. unfold node_len. rewrite (Hk f Hf). cbn [bind v_pos v_size].
    replace (p + (reach v - p)) with (reach v) by lia. reflexivity.
  - rewrite Z.rem_mod_nonneg by lia. pose proof (Z.div_mod (reach v) 8 ltac:(lia)) as DM.
    pose proof (Z.mod_pos_bound (reach v) 8 ltac:(lia)).
    destruct (reach v mod 8 =? 0) eqn:E; (split; [|lia]).
    + lia.
    + replace (reach v + (8 - reach v mod 8)) with ((reach v / 8 + 1) * 8) by lia. apply Z.mod_mul. lia.
Qed.

End Schema.
