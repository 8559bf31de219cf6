(** Comparing stored tables. *)
From Coq Require Import ZArith List Bool Lia String.
From Coq Require Import Strings.Byte.
From Verif Require Import GoLib BaseModel GoLemmas BaseSpec BaseProofs TableModel TableSpec TableProofs.
From Verif Require Import TableProofs2 NameModel NameSpec NameProofs NameProofs2 VariantModel VariantProofs.
From Verif Require Import WalkModel WalkSpec WalkProofs WalkProofs2 WalkProofs3 WalkProofs7 EqualModel EqualSpec EqualProofs.
Import ListNotations.
Open Scope list_scope.
Open Scope Z_scope.

(** ** Lists of values *)

Lemma forall2_zget : forall A B (R : A -> B -> Prop) l l', Forall2 R l l' <->
  zlen l = zlen l' /\ forall i x y, zget l i = Some x -> zget l' i = Some y -> R x y.
Proof.
  intros A B R. induction l as [|a l IH]; intros [|a' l']; split.
  - intros _. split; [reflexivity|]. intros i x y H. rewrite zget_nil in H. discriminate.
  - constructor.
  - intros H. inversion H.
  - intros [H _]. rewrite zlen_cons in H. pose proof (zlen_nonneg l'). change (zlen (@nil A)) with 0 in H. lia.
  - intros H. inversion H.
  - intros [H _]. rewrite zlen_cons in H. pose proof (zlen_nonneg l). change (zlen (@nil B)) with 0 in H. lia.
  - intros H. inversion H as [|? ? ? ? H1 H2]; subst. apply IH in H2. destruct H2 as [L H2].
    split; [rewrite !zlen_cons; lia|]. intros i x y. rewrite !zget_cons. destruct (i =? 0).
    + intros X Y. injection X as <-. injection Y as <-. exact H1.
    + apply H2.
  - intros [L H]. rewrite !zlen_cons in L. constructor.
    + apply (H 0); reflexivity.
    + apply IH. split; [lia|]. intros i x y X Y. pose proof (zget_some_range _ _ _ X) as RG.
      apply (H (i + 1)); rewrite zget_cons; replace (i + 1 =? 0) with false by lia;
        replace (i + 1 - 1) with i by lia; assumption.
Qed.

Lemma prefix_zget : forall A B (R : A -> B -> Prop) l l',
  (zlen l <= zlen l' /\ Forall2 R l (firstn (List.length l) l')) <->
  forall i x, zget l i = Some x -> exists y, zget l' i = Some y /\ R x y.
Proof.
  intros A B R. induction l as [|a l IH]; intros l'.
  - split.
    + intros _ i x H. rewrite zget_nil in H. discriminate.
    + intros _. split; [apply zlen_nonneg|constructor].
  - destruct l' as [|a' l'].
    + split.
      * intros [H _]. rewrite zlen_cons in H. pose proof (zlen_nonneg l). change (zlen (@nil B)) with 0 in H. lia.
      * intros H. destruct (H 0 a eq_refl) as (y & Y & _). rewrite zget_nil in Y. discriminate.
    + rewrite !zlen_cons. cbn [List.length firstn]. specialize (IH l'). split.
      * intros [L H]. inversion H as [|? ? ? ? H1 H2]; subst. intros i x. rewrite !zget_cons.
        destruct (i =? 0); [intros X; injection X as <-; eauto|]. apply IH. split; [lia|exact H2].
      * intros H. destruct (H 0 a eq_refl) as (y & Y & RY). cbn in Y. injection Y as <-.
        assert (T : zlen l <= zlen l' /\ Forall2 R l (firstn (List.length l) l')).
        { apply IH. intros i x X. pose proof (zget_some_range _ _ _ X) as RG. specialize (H (i + 1) x).
          rewrite !zget_cons in H. replace (i + 1 =? 0) with false in H by lia.
          replace (i + 1 - 1) with i in H by lia. apply H. exact X. }
        destruct T. split; [lia|]. constructor; assumption.
Qed.

Lemma depth_in : forall v l, In v l -> (depth v <= fold_right Nat.max O (map depth l))%nat.
Proof.
  intros v l. induction l as [|w l IH]; intros H; [destruct H|]. cbn [map fold_right].
  destruct H as [->|H]; [lia|]. specialize (IH H). lia.
Qed.

Lemma zget_In : forall A (l : list A) i x, zget l i = Some x -> In x l.
Proof. exact zget_in. Qed.

Lemma decided_iff : forall (e : res bool) (P Q : Prop),
  (exists r, e = Ok r /\ (r = true <-> P)) -> (P <-> Q) -> exists r, e = Ok r /\ (r = true <-> Q).
Proof. intros e P Q (r & E & R) H. exists r. split; [exact E|]. rewrite R. exact H. Qed.

Section Two.
Variable n : names.
Variable b1 b2 : base.
Variable s : schema.
Hypothesis HF1 : flat b1.
Hypothesis HF2 : flat b2.
Hypothesis HD : describes n s.
Hypothesis HM : members_described n s.

Local Notation m1 := (img_bytes (sl_data (b_bytes b1))).
Local Notation m2 := (img_bytes (sl_data (b_bytes b2))).
Local Notation same_bytes := (same_bytes m1 m2).
Local Notation within := (within m1 m2).
Local Notation tnode_at := (tnode_at n).

Lemma holds_same : forall x y k l, holds_uint m1 x 1 k -> holds_uint m2 y 1 l -> same_bytes x y 1 -> k = l.
Proof.
  intros x y k l [H1 G1] [H2 G2] S. destruct (G1 0 ltac:(lia)) as (a & A1 & A2).
  destruct (G2 0 ltac:(lia)) as (c & C1 & C2). specialize (S 0 ltac:(lia)).
  rewrite A1, C1 in S. injection S as <-. cbn in H1, H2. rewrite Z.pow_0_r, Z.div_1_r, Z.mod_small in A2, C2 by lia. lia.
Qed.

Definition agree (f : nat) : Prop := forall name p1 p2 v1 v2 z1 z2,
  stored_table m1 s name p1 v1 -> stored_table m2 s name p2 v2 -> full v1 -> full v2 -> (depth v1 <= f)%nat ->
  exists r, node_equal n b1 b2 f (Some (tnode_at name p1 z1)) (Some (tnode_at name p2 z2)) = Ok r /\
    (r = true <-> within v1 v2).

Lemma tables_compared : forall f tn q1 z1 es1 q2 z2 es2 nd1 nd2, agree f -> table_described n tn ->
  4 <= q1 -> holds_uint m1 (q1 - 4) 4 (zlen es1) -> stored_elems m1 s q1 tn es1 ->
  4 <= q2 -> holds_uint m2 (q2 - 4) 4 (zlen es2) -> stored_elems m2 s q2 tn es2 ->
  Forall full es1 -> Forall full es2 -> (forall v, In v es1 -> (depth v <= f)%nat) ->
  exists r, equal_step n b1 b2 (node_equal n b1 b2 f)
      (Some (new_node n (Some nd1) (mkV q1 z1 (zlen es1)) ("[]" ++ tn)%string))
      (Some (new_node n (Some nd2) (mkV q2 z2 (zlen es2)) ("[]" ++ tn)%string)) = Ok r /\
    (r = true <-> within (Tabs tn q1 es1) (Tabs tn q2 es2)).
Proof.
  intros f tn q1 z1 es1 q2 z2 es2 nd1 nd2 IH TD Q1 H1 E1 Q2 H2 E2 F1 F2 DP.
  unfold equal_step. rewrite new_node_info. cbn [v_pos v_len].
  replace (0 <? q1) with true by lia.
  destruct (each_indexes (fun i => forall x, zget es1 i = Some x -> exists y, zget es2 i = Some y /\ within x y)
    (equal_elem n b1 b2 (node_equal n b1 b2 f) (new_node n (Some nd1) (mkV q1 z1 (zlen es1)) ("[]" ++ tn)%string)
       (new_node n (Some nd2) (mkV q2 z2 (zlen es2)) ("[]" ++ tn)%string)) (zlen es1) (zlen_nonneg es1)) as (r & E & R).
  - intros i Hi _. destruct (zget_some es1 i Hi) as (x & Hx). unfold equal_elem.
    rewrite (vec_at_table n b1 s HF1 nd1 q1 z1 tn es1 i x Q1 H1 TD E1 Hx). cbn [bind].
    destruct (zget es2 i) as [y|] eqn:Hy.
    + rewrite (vec_at_table n b2 s HF2 nd2 q2 z2 tn es2 i y Q2 H2 TD E2 Hy). cbn [bind].
      destruct (elems_nth b1 s q1 tn es1 E1 i x Hx) as (t1 & _ & T1).
      destruct (elems_nth b2 s q2 tn es2 E2 i y Hy) as (t2 & _ & T2).
      destruct (stored_pos b1 s _ _ _ T1) as (_ & -> & _). destruct (stored_pos b2 s _ _ _ T2) as (_ & -> & _).
      rewrite Forall_forall in F1, F2.
      destruct (IH tn t1 t2 x y (-1) (-1) T1 T2 (F1 _ (zget_In _ _ _ _ Hx)) (F2 _ (zget_In _ _ _ _ Hy))
        (DP _ (zget_In _ _ _ _ Hx))) as (r & E & R).
      exists r. split; [exact E|]. rewrite R. split.
      * intros W x' X. rewrite Hx in X. injection X as <-. eauto.
      * intros W. destruct (W x Hx) as (y' & Y & W'). injection Y as <-. exact W'.
    + rewrite (vec_outside n b2 HF2 nd2 q2 z2 (zlen es2) tn i Q2 H2) by (apply zget_none_range in Hy; lia). cbn [bind].
      exists false. split; [reflexivity|]. split; [discriminate|]. intros W. destruct (W x Hx) as (y & Y & _). discriminate.
  - exists r. split; [exact E|]. rewrite R. clear R E.
    transitivity (zlen es1 <= zlen es2 /\ Forall2 within es1 (firstn (List.length es1) es2)).
    + rewrite prefix_zget. split.
      * intros S i x Hx. apply S; [|exact Hx]. eapply zget_some_range; eauto.
      * intros S i _ x Hx. apply S. exact Hx.
    + split.
      * intros [A B]. constructor; assumption.
      * intros W. inversion W; subst. auto.
Qed.

Lemma agree_step : forall f, (forall g, (g <= f)%nat -> agree g) -> agree (S f).
Proof.
  intros f IH name p1 p2 v1 v2 z1 z2 T1 T2 FU1 FU2 DP.
  pose proof T1 as T1'. pose proof T2 as T2'.
  inversion T1 as [? ? so1 es1 tl1 tys fs1 Hs TA1 So1 SF1]; subst.
  inversion T2 as [? ? so2 es2 tl2 tys' fs2 Hs' TA2 So2 SF2]; subst.
  rewrite Hs in Hs'. injection Hs' as <-.
  inversion FU1 as [| | |? ? ? FA1|]; subst. inversion FU2 as [| | |? ? ? FA2|]; subst.
  rewrite Forall_forall in FA1, FA2.
  destruct (fields_nth b1 s p1 None tys es1 fs1 SF1) as (L1 & _ & N1).
  destruct (fields_nth b2 s p2 None tys es2 fs2 SF2) as (L2 & _ & N2).
  destruct (table_node n s HD name tys (Some (p1, z1)) no_vinfo Hs) as (_ & _ & CG & S4).
  change (node_equal n b1 b2 (S f)) with (equal_step n b1 b2 (node_equal n b1 b2 f)).
  unfold equal_step. replace (c_info (tnode_at name p1 z1)) with no_vinfo by (symmetry; apply new_node_info).
  cbn [no_vinfo v_pos]. change (0 <? 0) with false. cbv iota.
  change (new_node n (Some (p1, z1)) no_vinfo name) with (tnode_at name p1 z1) in CG. rewrite CG.
  pose proof (pos_entry b1 p1 so1 es1 tl1 TA1) as HP1. pose proof (pos_entry b2 p2 so2 es2 tl2 TA2) as HP2.
  destruct (each_indexes (fun i => forall x y, zget fs1 i = Some x -> zget fs2 i = Some y -> within x y)
    (equal_field n b1 b2 (node_equal n b1 b2 f) (tnode_at name p1 z1) (tnode_at name p2 z2)) (zlen tys)
    (zlen_nonneg tys)) as (r & E & R).
  2: { exists r. split; [exact E|]. rewrite R. split.
       - intros W. constructor. apply forall2_zget. split; [lia|]. intros i x y X Y.
         eapply W; eauto. rewrite L1. eapply zget_some_range; eauto.
       - intros W i _ x y X Y. inversion W as [| | | | |? ? ? ? ? W2|]; subst.
         apply forall2_zget in W2. destruct W2 as [_ W2]. eapply W2; eauto. }
  intros i Hi PREV. rewrite L1 in Hi. destruct (zget_some fs1 i Hi) as (x & Hx).
  destruct (zget_some fs2 i ltac:(lia)) as (y & Hy).
  assert (ONE : forall r, (r = true <-> within x y) <->
    (r = true <-> forall x' y', zget fs1 i = Some x' -> zget fs2 i = Some y' -> within x' y')).
  { intros r. split; intros [A B]; split.
    - intros RT x' y' X Y. rewrite Hx in X. rewrite Hy in Y. injection X as <-. injection Y as <-. auto.
    - intros W. apply B. auto.
    - intros RT. apply (A RT); assumption.
    - intros W. apply B. intros x' y' X Y. rewrite Hx in X. rewrite Hy in Y. injection X as <-. injection Y as <-. exact W. }
  cut (exists r, equal_field n b1 b2 (node_equal n b1 b2 f) (tnode_at name p1 z1) (tnode_at name p2 z2) i = Ok r /\
                 (r = true <-> within x y)).
  { intros (r & E & R). exists r. split; [exact E|]. apply ONE. exact R. }
  clear ONE.
  destruct (N1 i x Hx) as (t & e1 & pv1 & Ht & He1 & Hf1 & PA1 & PB1).
  destruct (N2 i y Hy) as (t' & e2 & pv2 & Ht' & He2 & Hf2 & PA2 & PB2).
  rewrite Ht in Ht'. injection Ht' as <-.
  pose proof (FA1 x (zget_In _ _ _ _ Hx)) as FX. pose proof (FA2 y (zget_In _ _ _ _ Hy)) as FY.
  cbn [depth] in DP. pose proof (depth_in x fs1 (zget_In _ _ _ _ Hx)) as DX.
  assert (DX' : (depth x <= f)%nat) by lia. clear DX DP.
  pose proof (field_at_stored n b1 s HF1 HD name p1 z1 so1 es1 tl1 tys i t e1 pv1 x Hs TA1 So1 Ht He1 Hf1) as A1.
  pose proof (field_at_stored n b2 s HF2 HD name p2 z2 so2 es2 tl2 tys i t e2 pv2 y Hs TA2 So2 Ht He2 Hf2) as A2.
  destruct (S4 i t Ht) as (typ & g & G1 & G2 & G3 & G4). fold (tnode_at name p1 z1) in G1, G2, G4.
  assert (G2' : field_type_name n (tnode_at name p2 z2) i = typ).
  { rewrite <- G2. unfold field_type_name, WalkProofs.tnode_at. rewrite !new_node_name. reflexivity. }
  rewrite G2 in A1. rewrite G2' in A2.
  unfold equal_field.
  replace (group_at (tnode_at name p2 z2) i) with (group_at (tnode_at name p1 z1) i) by apply group_at_new.
  rewrite Z.eqb_refl. cbn [negb]. rewrite G1.
  clear G1 G2 G2'.
  pose proof (HM name tys i t Hs Ht) as HG.
  destruct Hf1; try (inversion FX; fail); inversion Hf2; subst; try (inversion FY; fail); cbn [field_described WalkProofs.field_node] in *.
  - (* scalars *)
    destruct G3 as (G3 & _). destruct (says_tests _ _ G3) as (_ & _ & TU & _ & _ & TB). rewrite TU, TB.
    replace (has [CBasic (width t)] 3) with false by (destruct (width_cases t) as [W|[W|[W|W]]]; rewrite W; reflexivity).
    replace (has [CBasic (width t)] 5 || (has [CBasic (width t)] 6 || (has [CBasic (width t)] 7 || (has [CBasic (width t)] 8 || false))))
      with true by (destruct (width_cases t) as [W|[W|[W|W]]]; rewrite W; reflexivity).
    cbn [negb]. rewrite A1, A2. cbn [bind]. rewrite (G4 t eq_refl). pose proof (zwidth_pos t).
    eapply decided_iff.
    + eapply (scalars_compared b1 b2 HF1 HF2 (zwidth t)); [apply new_node_node|apply new_node_node|..]; try eassumption; lia.
    + split; [intros; constructor; assumption|intros W; inversion W; assumption].
  - (* structs *)
    destruct G3 as (G3 & -> & SD). destruct (says_tests _ _ G3) as (_ & _ & TU & _ & _ & TB). rewrite TU, TB.
    cbn [has bits map class_bit existsb orb Z.eqb Pos.eqb negb]. rewrite A1, A2. cbn [bind].
    destruct f as [|f']; [cbn [depth] in DX'; lia|].
    eapply decided_iff.
    + eapply (structs_compared n b1 b2 HF1 HF2 (node_equal n b1 b2 f') sn ms); try eassumption; lia.
    + split; [intros; constructor; assumption|intros W; inversion W; assumption].
  - (* vectors of structs *)
    destruct G3 as (G3 & -> & SD). destruct (says_tests _ _ G3) as (_ & _ & TU & _ & _ & TB). rewrite TU, TB.
    cbn [has bits map class_bit existsb orb Z.eqb Pos.eqb negb]. rewrite A1, A2. cbn [bind].
    destruct f as [|[|f']]; [cbn [depth] in DX'; lia|cbn [depth] in DX'; lia|].
    match goal with H : vector_from m1 (_ + ?e) _ _, H' : 4 <= ?e |- _ => destruct (vector_from_pos b1 _ _ _ _ HP1 H' H) as [Q1 K1] end.
    match goal with H : vector_from m2 (_ + ?e) _ _, H' : 4 <= ?e |- _ => destruct (vector_from_pos b2 _ _ _ _ HP2 H' H) as [Q2 K2] end.
    eapply decided_iff.
    + eapply (struct_vectors_compared n b1 b2 HF1 HF2 f' sn ms); eassumption.
    + split; [intros [? ?]; constructor; assumption|intros W; inversion W; auto].
  - (* tables *)
    destruct G3 as (G3 & ->). destruct (says_tests _ _ G3) as (_ & _ & TU & _ & _ & TB). rewrite TU, TB.
    cbn [has bits map class_bit existsb orb Z.eqb Pos.eqb negb]. rewrite A1, A2. cbn [bind].
    match goal with H : stored_table m1 _ _ _ v |- _ => pose proof H as ST1; destruct (stored_pos b1 s _ _ _ H) as (_ & _ & ? & ? & -> & _) end.
    match goal with H : stored_table m2 _ _ _ y |- _ => pose proof H as ST2; destruct (stored_pos b2 s _ _ _ H) as (_ & _ & ? & ? & -> & _) end.
    cbn [WalkProofs.field_node]. eapply (IH f); [lia|eassumption..].
  - (* vectors of tables *)
    destruct G3 as (G3 & -> & TD). destruct (says_tests _ _ G3) as (_ & _ & TU & _ & _ & TB). rewrite TU, TB.
    cbn [has bits map class_bit existsb orb Z.eqb Pos.eqb negb]. rewrite A1, A2. cbn [bind].
    destruct f as [|f']; [cbn [depth] in DX'; lia|].
    match goal with H : vector_from m1 (_ + ?e) _ _, H' : 4 <= ?e |- _ => destruct (vector_from_pos b1 _ _ _ _ HP1 H' H) as [Q1 K1] end.
    match goal with H : vector_from m2 (_ + ?e) _ _, H' : 4 <= ?e |- _ => destruct (vector_from_pos b2 _ _ _ _ HP2 H' H) as [Q2 K2] end.
    inversion FX; subst. inversion FY; subst. cbn [depth] in DX'.
    eapply tables_compared; try eassumption.
    + apply IH. lia.
    + intros w Hw. pose proof (depth_in w vs Hw). lia.
  - (* unions *)
    destruct G3 as (G3 & _ & _). destruct (says_tests _ _ G3) as (_ & _ & TU & _ & _ & TB). rewrite TU.
    cbn [has bits map class_bit existsb orb Z.eqb Pos.eqb].
    match goal with H : stored_table m1 _ _ _ v |- _ => pose proof H as ST1; destruct (stored_pos b1 s _ _ _ H) as (_ & _ & ? & fs' & -> & _) end.
    match goal with H : stored_table m2 _ _ _ y |- _ => pose proof H as ST2; destruct (stored_pos b2 s _ _ _ H) as (_ & _ & ? & fs'' & -> & _) end.
    destruct (follow_stored n b1 s HF1 HD name p z1 so1 es1 tl1 tys fs1 i us Hs TA1 So1 SF1 Ht _ Hx)
      as [(? & ? & ? & E1 & _ & _ & _ & _ & U1)|(E1 & _)]; [|discriminate E1].
    destruct (follow_stored n b2 s HF2 HD name p2 z2 so2 es2 tl2 tys fs2 i us Hs TA2 So2 SF2 Ht _ Hy)
      as [(? & ? & ? & E2 & _ & _ & _ & _ & U2)|(E2 & _)]; [|discriminate E2].
    injection E1 as <- <- <-. injection E2 as <- <- <-. rewrite U1, U2. cbn [bind].
    assert (I0 : 0 < i).
    { destruct (Z.eq_dec i 0) as [->|]; [|lia]. specialize (PA1 eq_refl). discriminate. }
    destruct (PB1 I0) as (w1 & W1 & X1). destruct (PB2 I0) as (w2 & W2 & X2).
    injection X1 as <-. injection X2 as <-.
    pose proof (PREV (i - 1) ltac:(lia) _ _ W1 W2) as SB. inversion SB as [| ? ? ? SB'| | | | |]; subst.
    assert (K : k = k0).
    { match goal with H : holds_uint m1 x 1 _ |- _ => match goal with H' : holds_uint m2 _ 1 _ |- _ =>
        pose proof (holds_same _ _ _ _ H H' SB') end end. lia. }
    subst k0.
    match goal with H : zget us k = Some tn |- _ => match goal with H' : zget us k = Some ?tn' |- _ => 
      assert_fails (constr_eq tn tn'); rewrite H in H'; injection H' as <- end end.
    eapply (IH f); [lia|eassumption..].
Qed.

Lemma tables_agree : forall f, agree f.
Proof.
  intros f. assert (G : forall g, (g <= f)%nat -> agree g).
  { induction f as [|f IH].
    - intros g Hg. replace g with O by lia. intros name p1 p2 v1 v2 z1 z2 T1 T2 _ _ D.
      inversion T1; subst. cbn in D. lia.
    - intros g Hg. destruct (Nat.eq_dec g (S f)) as [->|]; [|apply IH; lia]. apply agree_step. exact IH. }
  apply G. lia.
Qed.

End Two.

(** ** Both ways *)

Lemma tables_same : forall n b1 b2 s name p1 p2 v1 v2 z1 z2 f,
  flat b1 -> flat b2 -> describes n s -> members_described n s ->
  let m1 := img_bytes (sl_data (b_bytes b1)) in
  let m2 := img_bytes (sl_data (b_bytes b2)) in
  stored_table m1 s name p1 v1 -> stored_table m2 s name p2 v2 -> full v1 -> full v2 ->
  (depth v1 <= f)%nat ->
  exists r, node_equal n b1 b2 f (Some (new_node n (Some (p1, z1)) no_vinfo name))
                                 (Some (new_node n (Some (p2, z2)) no_vinfo name)) = Ok r /\ (r = true <-> within m1 m2 v1 v2).
Proof. intros n b1 b2 s name p1 p2 v1 v2 z1 z2 f F1 F2 HD HM m1 m2. apply tables_agree; assumption. Qed.

Lemma same_within : forall m1 m2 f v1 v2, (depth v1 <= f)%nat ->
  same_value m1 m2 v1 v2 <-> within m1 m2 v1 v2 /\ within m2 m1 v2 v1.
Proof.
  intros m1 m2. unfold same_value, within.
  assert (SB : forall a c p q k, same_bytes a c p q k -> same_bytes c a q p k).
  { intros a c p q k H i Hi. symmetry. apply H. exact Hi. }
  assert (L2 : forall (R : Z -> Z -> Prop) a c (l l' : list val) (P : val -> val -> Prop),
     (forall x y, In x l -> alike a c R x y -> P x y) -> Forall2 (alike a c R) l l' -> Forall2 P l l').
  { intros R a c l l' P H F. revert H. induction F; intros H1; constructor.
    - apply H1; [left; reflexivity|assumption].
    - apply IHF. intros. apply H1; [right; assumption|assumption]. }
  assert (FL : forall A B (R : A -> B -> Prop) l l', Forall2 R l l' -> List.length l = List.length l').
  { intros A B R l l' H. induction H; cbn; congruence. }
  assert (SW : forall A B (R : A -> B -> Prop) l l', Forall2 R l l' -> Forall2 (fun y x => R x y) l' l).
  { intros A B R l l' H. induction H; constructor; auto. }
  induction f as [|f IH]; intros v1 v2 D.
  - split.
    + intros H. destruct v1; try (cbn in D; lia); inversion H; subst; split; constructor; auto; lia.
    + intros [H1 H2]. destruct v1; try (cbn in D; lia); inversion H1; subst; inversion H2; subst; constructor; auto; lia.
  - assert (TAB : forall l l', (forall x, In x l -> (depth x <= f)%nat) ->
      (Forall2 (alike m1 m2 eq) l l' <-> Forall2 (alike m1 m2 Z.le) l l' /\ Forall2 (alike m2 m1 Z.le) l' l)).
    { intros l l' DP. split.
      - intros H. split.
        + eapply L2; [|exact H]. intros x y X Y. apply (proj1 (IH x y (DP x X))). exact Y.
        + apply SW. eapply (L2 eq m1 m2 l l' (fun x y => alike m2 m1 Z.le y x)); [|exact H].
          intros x y X Y. apply (proj1 (IH x y (DP x X))). exact Y.
      - intros [H1 H2]. apply SW in H2. revert H2 DP. induction H1; intros H2 DP; constructor; inversion H2; subst.
        + apply IH; [apply DP; left; reflexivity|auto].
        + apply IHForall2; [assumption|]. intros z Hz. apply DP. right. exact Hz. }
    destruct v1 as [t|p w|p ms|p k w|p k ms|name p fs|name p es].
    6: { cbn [depth] in D. assert (DP : forall x, In x fs -> (depth x <= f)%nat).
         { intros x X. pose proof (depth_in x fs X). lia. }
         split.
         - intros H. inversion H as [| | | | |? ? ? ? gs HE|]; subst. apply TAB in HE; [|exact DP]. destruct HE. split; constructor; assumption.
         - intros [H1 H2]. inversion H1; subst. inversion H2; subst. constructor. apply TAB; auto. }
    6: { cbn [depth] in D. assert (DP : forall x, In x es -> (depth x <= f)%nat).
         { intros x X. pose proof (depth_in x es X). lia. }
         assert (ZL : forall (l l' : list val), zlen l = zlen l' -> List.length l = List.length l') by (unfold zlen; intros; lia).
         split.
         - intros H. inversion H as [| | | | | |? ? ? ? gs HL HE]; subst. pose proof (ZL _ _ HL) as LL.
           rewrite LL, firstn_all in HE. apply TAB in HE; [|exact DP]. destruct HE as [HA HB].
           split; constructor; try lia; [rewrite LL, firstn_all; exact HA|rewrite <- LL, firstn_all; exact HB].
         - intros [H1 H2]. inversion H1 as [| | | | | |? ? ? ? gs HL HE]; subst. inversion H2 as [| | | | | |? ? ? ? ? HL' HE']; subst.
           assert (HZ : zlen es = zlen gs) by lia. pose proof (ZL _ _ HZ) as LL.
           rewrite LL, firstn_all in HE. rewrite <- LL, firstn_all in HE'.
           constructor; [exact HZ|]. rewrite LL, firstn_all. apply TAB; auto. }
    all: split; [intros H; inversion H; subst; split; constructor; auto; lia|].
    all: intros [H1 H2]; inversion H1; subst; inversion H2; subst; constructor; auto; lia.
Qed.

Lemma equal_both : forall n b1 b2 s name p1 p2 v1 v2 z1 z2 f,
  flat b1 -> flat b2 -> describes n s -> members_described n s ->
  let m1 := img_bytes (sl_data (b_bytes b1)) in
  let m2 := img_bytes (sl_data (b_bytes b2)) in
  let c1 := Some (new_node n (Some (p1, z1)) no_vinfo name) in
  let c2 := Some (new_node n (Some (p2, z2)) no_vinfo name) in
  stored_table m1 s name p1 v1 -> stored_table m2 s name p2 v2 -> full v1 -> full v2 ->
  (depth v1 <= f)%nat -> (depth v2 <= f)%nat ->
  (node_equal n b1 b2 f c1 c2 = Ok true /\ node_equal n b2 b1 f c2 c1 = Ok true <->
   same_value m1 m2 v1 v2).
Proof.
  intros n b1 b2 s name p1 p2 v1 v2 z1 z2 f F1 F2 HD HM m1 m2 c1 c2 S1 S2 U1 U2 D1 D2.
  destruct (tables_same n b1 b2 s name p1 p2 v1 v2 z1 z2 f F1 F2 HD HM S1 S2 U1 U2 D1) as (r & E & R).
  destruct (tables_same n b2 b1 s name p2 p1 v2 v1 z2 z1 f F2 F1 HD HM S2 S1 U2 U1 D2) as (r' & E' & R').
  pose proof (same_within m1 m2 f v1 v2 D1) as SW. rewrite SW. fold m1 m2 in R, R'. rewrite <- R, <- R'. unfold c1, c2. rewrite E, E'.
  split; intros [A B]; split; congruence.
Qed.
