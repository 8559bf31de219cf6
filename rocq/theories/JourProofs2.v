(** Fields of tables in buffers with journal entries. *)
From Coq Require Import ZArith List Bool Lia String.
From Coq Require Import Strings.Byte.
From Verif Require Import GoLib BaseModel GoLemmas BaseSpec BaseProofs TableModel TableSpec TableProofs.
From Verif Require Import TableProofs2 NameModel NameSpec NameProofs NameProofs2.
From Verif Require Import WalkModel WalkSpec WalkProofs WalkProofs2 WalkProofs3 WalkProofs4 WalkProofs5 WalkProofs7 JourProofs.
Import ListNotations.
Open Scope list_scope.
Open Scope Z_scope.

Section Schema.
Variable n : names.
Variable b : base.
Variable s : schema.
Hypothesis HD : describes n s.

Local Notation m := b.
Local Notation tnode_at := (tnode_at n).
Local Notation field_node := (field_node n).

Lemma fields_nth_j : forall p prev tys es fs, seen_fields m s p prev tys es fs ->
  zlen tys = zlen fs /\ zlen es = zlen fs /\
  forall i v, zget fs i = Some v -> exists t e pv,
    zget tys i = Some t /\ zget es i = Some e /\ seen_field m s p pv t e v /\
    (i = 0 -> pv = prev) /\ (0 < i -> exists v', zget fs (i - 1) = Some v' /\ pv = Some v').
Proof.
  intros p prev tys es fs H. induction H as [|p prev t tys e es v vs H1 H2 IH].
  - split; [reflexivity|]. split; [reflexivity|]. intros i v Hi. rewrite zget_nil in Hi. discriminate.
  - destruct IH as (L1 & L2 & IH).
    split; [rewrite !zlen_cons; lia|]. split; [rewrite !zlen_cons; lia|].
    intros i w Hi. rewrite zget_cons in Hi. destruct (i =? 0) eqn:E.
    + injection Hi as <-. assert (i = 0) by lia. subst i. exists t, e, prev.
      repeat (split; [rewrite ?zget_cons; auto|]). lia.
    + apply zget_some_range in Hi as R. destruct (IH (i - 1) w Hi) as (t' & e' & pv & A1 & A2 & A3 & A4 & A5).
      exists t', e', pv. rewrite !zget_cons, E. split; [auto|]. split; [auto|]. split; [auto|]. split; [lia|].
      intros Hp. destruct (Z.eq_dec i 1) as [->|].
      * exists v. split; [reflexivity|]. apply A4. lia.
      * destruct (A5 ltac:(lia)) as (v' & B1 & B2). exists v'. split; auto.
        replace (i - 1 =? 0) with false by lia. exact B1.
Qed.

Lemma load_table_j : forall name p v, seen_table m s name p v -> load_node b p = Ok (p, -1).
Proof.
  intros name p v H. destruct H as [name p soff es tl tys fs H1 H2 H3 H4].
  unfold load_node. rewrite (seen_preload b p soff es tl H2 H3). reflexivity.
Qed.

Lemma stored_pos_j : forall name p v, seen_table m s name p v -> 0 <= p /\ val_pos v = p /\
  exists tys fs, v = Tab name p fs /\ s name = Some tys.
Proof.
  intros name p v H. destruct H as [name p soff es tl tys fs H1 H2 H3 H4].
  split; [apply (se_vpos _ _ _ _ _ H2)|]. split; [reflexivity|]. eauto.
Qed.

Lemma pos_entry_j : forall p soff es tl, seen_at m p soff es tl -> 0 <= p.
Proof. intros p soff es tl H. apply (se_vpos _ _ _ _ _ H). Qed.

Lemma list_info_at_j : forall p soff es tl i e q k, seen_at m p soff es tl -> 0 <= soff ->
  zget es i = Some e -> 4 <= e -> sees_vector m (p + e) q k ->
  list_info b p i = Ok (mkV q 0 k).
Proof.
  intros p soff es tl i e q k T Hs He H4 ((Hq & HO) & HK). unfold list_info.
  rewrite (seen_vector_access b p soff es tl i e (q - 4 - (p + e)) k T Hs He ltac:(lia)).
  - cbn [bind]. do 2 f_equal. lia.
  - exact HO.
  - replace (p + e + (q - 4 - (p + e))) with (q - 4) by lia. exact HK.
Qed.

Lemma table_ref_at_j : forall p soff es tl i e q, seen_at m p soff es tl -> 0 <= soff ->
  zget es i = Some e -> 4 <= e -> sees_at m (p + e) q -> table_ref b p i = Ok q.
Proof.
  intros p soff es tl i e q T Hs He H4 (Hq & HO).
  destruct (seen_access b p soff es tl T Hs) as (_ & _ & A).
  destruct (A i e He) as (_ & _ & _ & B). rewrite (B (q - (p + e)) ltac:(lia) HO). f_equal. lia.
Qed.

Lemma holds_u32_j : forall p v, reads m p 4 v -> u32 v = v.
Proof. intros p v [H _]. unfold u32. apply Z.mod_small. cbn in H. lia. Qed.

Lemma field_at_stored_j : forall name p sz soff es tl tys i t e pv v,
  s name = Some tys -> seen_at m p soff es tl -> 0 <= soff ->
  zget tys i = Some t -> zget es i = Some e -> seen_field m s p pv t e v ->
  field_at n b (tnode_at name p sz) i =
  Ok (field_node (field_type_name n (tnode_at name p sz) i) p v).
Proof.
  intros name p sz soff es tl tys i t e pv v Hs T Hso Ht He Hv.
  destruct (table_node n s HD name tys (Some (p, sz)) no_vinfo Hs) as (S1 & S2 & S3 & S4).
  destruct (S4 i t Ht) as (typ & g & G1 & G2 & G3 & G4). fold (tnode_at name p sz) in *.
  unfold field_at. unfold WalkProofs.tnode_at at 1. rewrite new_node_node.
  replace (c_name (tnode_at name p sz)) with name by (symmetry; apply new_node_name).
  rewrite S1, G1, G2.
  destruct (seen_access b p soff es tl T Hso) as (_ & _ & A).
  destruct (A i e He) as (A1 & A2 & A3 & A4). rewrite A2. cbn [bind].
  assert (NZ : forall x, 4 <= x -> (x =? 0) = false) by (intros; lia).
  destruct Hv; cbn [WalkProofs.field_node field_described] in *.
  - reflexivity.
  - rewrite NZ by auto. destruct G3 as (G3 & _). destruct (says_tests _ _ G3) as (-> & -> & -> & -> & -> & ->).
    rewrite A1, (G4 t eq_refl). destruct (width_cases t) as [E|[E|[E|E]]]; rewrite E; reflexivity.
  - rewrite NZ by auto. destruct G3 as (G3 & _). destruct (says_tests _ _ G3) as (-> & _). rewrite A1. reflexivity.
  - rewrite NZ by auto. destruct G3 as (G3 & _). destruct (says_tests _ _ G3) as (-> & -> & -> & -> & -> & ->).
    rewrite (list_info_at_j p soff es tl i e q k T Hso He) by auto.
    match goal with H : sees_vector _ _ _ _ |- _ => destruct H as [_ HK] end. apply holds_u32_j in HK.
    unfold zwidth. destruct (width_cases t) as [E|[E|[E|E]]]; rewrite E; cbn; rewrite ?HK; try reflexivity;
      unfold load_node; rewrite (seen_preload b p soff es tl T Hso); reflexivity.
  - rewrite NZ by auto. destruct G3 as (G3 & _). destruct (says_tests _ _ G3) as (-> & -> & -> & -> & -> & ->).
    rewrite (list_info_at_j p soff es tl i e q k T Hso He) by auto. cbn.
    unfold load_node. rewrite (seen_preload b p soff es tl T Hso). reflexivity.
  - rewrite NZ by auto. destruct G3 as (G3 & _). destruct (says_tests _ _ G3) as (-> & -> & -> & -> & -> & ->).
    cbn. rewrite (table_ref_at_j p soff es tl i e q T Hso He) by auto. cbn [bind].
    match goal with H : seen_table _ _ _ _ _ |- _ => rewrite (load_table_j _ _ _ H); destruct (stored_pos_j _ _ _ H) as (_ & _ & tys' & fs & -> & _) end.
    reflexivity.
  - rewrite NZ by auto. destruct G3 as (G3 & _). destruct (says_tests _ _ G3) as (-> & -> & -> & -> & -> & ->).
    rewrite (list_info_at_j p soff es tl i e q (zlen vs) T Hso He) by auto. cbn.
    unfold load_node. rewrite (seen_preload b p soff es tl T Hso). reflexivity.
  - rewrite NZ by auto. destruct G3 as (G3 & _). destruct (says_tests _ _ G3) as (-> & -> & -> & -> & -> & ->).
    cbn. rewrite (table_ref_at_j p soff es tl i e q T Hso He) by auto. cbn [bind].
    match goal with H : seen_table _ _ _ _ _ |- _ => rewrite (load_table_j _ _ _ H); destruct (stored_pos_j _ _ _ H) as (_ & _ & tys' & fs & -> & _) end.
    reflexivity.
  - reflexivity.
  - reflexivity.
Qed.

End Schema.
