(** Stored values are seen through the journal. *)
From Coq Require Import ZArith List Bool Lia String.
From Coq Require Import Strings.Byte.
From Verif Require Import GoLib BaseModel GoLemmas BaseSpec BaseProofs BaseProofs2 BaseProofs3 TableModel TableSpec TableProofs.
From Verif Require Import TableProofs2 NameModel NameSpec NameProofs NameProofs2.
From Verif Require Import WalkModel WalkSpec WalkProofs WalkProofs2 WalkProofs3 WalkProofs5 InsSpec InsProofs7.
From Verif Require Import PutSpec JourSpec JourProofs.
Import ListNotations.
Open Scope list_scope.
Open Scope Z_scope.

Lemma held_whole : forall b p k, held b p k -> whole (b_diffs b) (gs_len (b_bytes b)) p k.
Proof. intros b p k H. exact H. Qed.

Lemma held_one : forall b p x, in_memory b -> content b p = Some x -> held b p 1.
Proof.
  intros b p x HB H. destruct (find_last (covers p) (b_diffs b)) as [d|] eqn:E.
  - apply find_last_split in E. destruct E as (l1 & l2 & E & C & F). unfold covers in C. left. exists l1, d, l2.
    split; [exact E|]. split; [lia|]. split; [lia|]. eapply Forall_impl; [|exact F]. intros e He. unfold covers in He.
    unfold beside. assert (0 <= d_len e) by (unfold d_len; apply zlen_nonneg). lia.
  - right. split.
    + unfold content, over in H. rewrite E in H. apply zget_some_range in H. unfold gs_len. lia.
    + apply Forall_forall. intros e He. pose proof (find_last_none _ _ _ _ E He) as C. unfold covers in C.
      unfold beside. assert (0 <= d_len e) by (unfold d_len; apply zlen_nonneg). lia.
Qed.

Section See.
Variable b : base.
Variable m : image.
Variable s : schema.
Hypothesis HB : in_memory b.
Hypothesis HM : shows b m.

Lemma shown : forall i, 0 <= i -> content b i = m i.
Proof. intros i Hi. specialize (HM i Hi). rewrite (peek_content b i HB Hi) in HM. congruence. Qed.

Lemma holds_reads : forall p k v, 0 <= p -> (1 <= k)%nat -> holds_uint m p k v -> held b p (Z.of_nat k) -> reads b p k v.
Proof.
  intros p k v Hp Hk H HH.
  assert (HC : holds_uint (content b) p k v) by (eapply holds_uint_ext; [|exact H]; intros; apply shown; lia).
  split; [exact (proj1 H)|]. split; [apply rd_whole; auto; exact HH|].
  destruct HC as [_ HC]. destruct (HC (Z.of_nat k - 1) ltac:(lia)) as (x & X & _).
  destruct (Z_le_gt_dec (p + Z.of_nat k) (len_buf b)) as [|G]; [assumption|].
  rewrite content_ge_len in X by (auto; lia). discriminate.
Qed.

Definition fine (v : val) : Prop := intact b m v.

Lemma fine_field : forall nm p fs i f, fine (Tab nm p fs) -> zget fs i = Some f -> fine f.
Proof.
  intros nm p fs i f [F1 F2] H. split.
  - intros a k Hak. apply F1. cbn [frame]. do 3 right. apply in_or_app. right. apply in_flat_map. exists f. split; [eapply zget_in; eauto|exact Hak].
  - intros a t Hat. apply (F2 a t). rewrite links_tab. eapply in_concat_numbered; [exact H|]. apply in_or_app. right. exact Hat.
Qed.

Lemma fine_slot : forall nm p fs i f t, fine (Tab nm p fs) -> zget fs i = Some f -> start f = Some t -> held b (slot_of m p i) 4.
Proof.
  intros nm p fs i f t [F1 F2] H E. apply (F2 _ t). rewrite links_tab. eapply in_concat_numbered; [exact H|].
  rewrite E. left. reflexivity.
Qed.

Lemma fine_elem : forall nm q es i e, fine (Tabs nm q es) -> zget es i = Some e -> fine e /\ held b (q + 4 * i) 4.
Proof.
  intros nm q es i e [F1 F2] H. split; [split|].
  - intros a k Hak. apply F1. cbn [frame]. right. apply in_flat_map. exists e. split; [eapply zget_in; eauto|exact Hak].
  - intros a t Hat. apply (F2 a t). rewrite links_tabs. eapply in_concat_numbered; [exact H|]. right. exact Hat.
  - apply (F2 _ (val_pos e)). rewrite links_tabs. eapply in_concat_numbered; [exact H|]. left. reflexivity.
Qed.

Lemma table_seen : forall nm p fs so es l, table_at m p so es l -> 0 <= so -> zlen es = zlen fs -> fine (Tab nm p fs) ->
  seen_at b p so es l.
Proof.
  intros nm p fs so es l T Hso HL [F _]. pose proof (table_vtable m p so es l T Hso) as EV.
  cbn [frame] in F. rewrite EV in F. destruct T as [T1 T2 T3 T4 T5 T6].
  constructor; auto.
  - apply holds_reads; [lia|lia|assumption|]. apply F. left. reflexivity.
  - apply holds_reads; [lia|lia|assumption|]. apply F. right. left. reflexivity.
  - apply holds_reads; [lia|lia|assumption|]. apply F. right. right. left. reflexivity.
  - intros i e He. pose proof (zget_some_range _ _ _ He) as R. apply holds_reads; [lia|lia|exact (T6 i e He)|]. apply F.
    do 3 right. apply in_or_app. left. apply in_map_iff. exists (Z.to_nat i). split; [f_equal; lia|].
    apply in_seq. unfold zlen in *. lia.
Qed.

Definition lies (pv : option val) : Prop := forall x w, pv = Some (Scalar x w) -> 0 <= x.

Lemma stored_seen :
  (forall name p v, stored_table m s name p v -> fine v -> seen_table b s name p v) /\
  (forall p prev tys es fs, stored_fields m s p prev tys es fs -> 0 <= p -> lies prev ->
     (forall i f e, zget fs i = Some f -> zget es i = Some e -> fine f /\ (start f <> None -> held b (p + e) 4)) ->
     seen_fields b s p prev tys es fs) /\
  (forall p prev t e v, stored_field m s p prev t e v -> 0 <= p -> lies prev ->
     fine v -> (start v <> None -> held b (p + e) 4) -> seen_field b s p prev t e v /\ lies (Some v)) /\
  (forall slot tn vs, stored_elems m s slot tn vs -> 0 <= slot ->
     (forall i e, zget vs i = Some e -> fine e /\ held b (slot + 4 * i) 4) -> seen_elems b s slot tn vs).
Proof.
  assert (VEC : forall p e q k, 0 <= p -> 4 <= e -> vector_from m (p + e) q k -> held b (p + e) 4 -> held b (q - 4) 4 -> sees_vector b (p + e) q k).
  { intros p e q k Hp He ((V1 & V2) & V3) H1 H2. split; [split; [exact V1|]|]; apply holds_reads; auto; try lia. }
  assert (LV : forall v, (forall x w, v <> Scalar x w) -> lies (Some v)).
  { intros v H x w E. injection E as ->. exfalso. eapply H. reflexivity. }
  assert (TV : forall name p v, stored_table m s name p v -> (forall x w, v <> Scalar x w) /\ start v = Some p).
  { intros name p v H. inversion H; subst. split; [discriminate|reflexivity]. }
  apply stored_mind.
  - intros name p so es l tys fs Hs T Hso HSF IH HF. apply Rt_table with (soff := so) (es := es) (tl := l) (tys := tys); auto.
    + eapply table_seen; eauto. clear - HSF. induction HSF; [reflexivity|]. rewrite !zlen_cons. lia.
    + apply IH; [apply (ta_vpos _ _ _ _ _ T)|discriminate|]. intros i f e Hf He. split; [eapply fine_field; eauto|].
      intros NS. rewrite <- (table_slot m p so es l i e T Hso He). destruct (start f) as [t|] eqn:ES; [|congruence]. eapply fine_slot; eauto.
  - intros p prev _ _ _. constructor.
  - intros p prev t tys e es v vs _ IH1 _ IH2 Hp HL HA.
    destruct (HA 0 v e eq_refl eq_refl) as [A1 A2]. destruct (IH1 Hp HL A1 A2) as [S1 S2]. constructor; [exact S1|].
    apply IH2; auto. intros i f e' Hf He. pose proof (zget_some_range _ _ _ Hf). apply (HA (i + 1)); rewrite zget_cons; replace (i + 1 =? 0) with false by lia;
      replace (i + 1 - 1) with i by lia; assumption.
  - intros p prev t Hu _ _ _ _. split; [constructor; exact Hu|apply LV; discriminate].
  - intros p prev t e He HO Hp _ _ _. split; [constructor; auto|]. intros x w E. injection E as <- <-. lia.
  - intros p prev sn ms e He HO Hp _ _ _. split; [constructor; auto|apply LV; discriminate].
  - intros p prev t e q k He HV HO Hp _ [F _] HS. split; [|apply LV; discriminate]. constructor; auto. apply VEC; auto.
    + apply HS. discriminate.
    + apply F. left. reflexivity.
  - intros p prev sn ms e q k He HV HO Hp _ [F _] HS. split; [|apply LV; discriminate]. constructor; auto. apply VEC; auto.
    + apply HS. discriminate.
    + apply F. left. reflexivity.
  - intros p prev tn e q v He (P1 & P2) HT IH Hp _ HF HS. destruct (TV _ _ _ HT) as [T1 T2]. split; [|apply LV; exact T1].
    apply Rv_table with (q := q); auto. split; [exact P1|]. apply holds_reads; [lia|lia|assumption|]. apply HS. congruence.
  - intros p prev tn e q vs He HV HE IH Hp _ HF HS. split; [|apply LV; discriminate]. constructor; auto.
    + apply VEC; auto; [apply HS; discriminate|]. apply (proj1 HF). left. reflexivity.
    + destruct HV as ((V1 & _) & _). apply IH; [lia|]. intros i x Hx. eapply fine_elem; eauto.
  - intros p us e x k tn q v He HX HU (P1 & P2) HT IH Hp HL HF HS. destruct (TV _ _ _ HT) as [T1 T2]. split; [|apply LV; exact T1].
    assert (X0 : 0 <= x) by (eapply HL; reflexivity).
    apply Rv_union with (k := k) (tn := tn) (q := q); auto.
    + apply holds_reads; auto. destruct HX as [_ HX]. destruct (HX 0 ltac:(lia)) as (y & Y & _). rewrite Z.add_0_r in Y.
      eapply held_one; [exact HB|]. rewrite shown by exact X0. exact Y.
    + split; [exact P1|]. apply holds_reads; [lia|lia|assumption|]. apply HS. congruence.
  - intros p us x HX Hp HL _ _. split; [|apply LV; discriminate]. assert (X0 : 0 <= x) by (eapply HL; reflexivity).
    apply Rv_no_union. apply holds_reads; auto. destruct HX as [_ HX]. destruct (HX 0 ltac:(lia)) as (y & Y & _). rewrite Z.add_0_r in Y.
    eapply held_one; [exact HB|]. rewrite shown by exact X0. exact Y.
  - intros p us t Hw _ _ _ _. split; [apply Rv_untyped_union; exact Hw|apply LV; discriminate].
  - intros slot tn _ _. constructor.
  - intros slot tn q v vs (P1 & P2) HT IH1 _ IH2 Hs HA. destruct (HA 0 v eq_refl) as [A1 A2]. replace (slot + 4 * 0) with slot in A2 by lia.
    apply Re_cons with (q := q); auto.
    + split; [exact P1|]. apply holds_reads; auto; try lia.
    + apply IH2; [lia|]. intros i x Hx. pose proof (zget_some_range _ _ _ Hx). replace (slot + 4 + 4 * i) with (slot + 4 * (i + 1)) by lia. apply HA. rewrite zget_cons.
      replace (i + 1 =? 0) with false by lia. replace (i + 1 - 1) with i by lia. exact Hx.
Qed.

End See.
