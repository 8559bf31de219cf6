(** Histories of calls of the builder. *)
From Coq Require Import ZArith List Bool Lia String.
From Coq Require Import Strings.Byte.
From Verif Require Import GoLib BaseModel GoLemmas BaseSpec BaseProofs BaseProofs2 BaseProofs3.
From Verif Require Import TableModel TableSpec TableProofs TableProofs2 NameModel NameSpec.
From Verif Require Import WalkModel WalkSpec WalkProofs WalkProofs2 WalkProofs3 WalkProofs4.
From Verif Require Import EqualSpec BuildModel BuildSpec BuildProofs BuildProofs2 BuildProofs3 BuildProofs4 BuildProofs5.
Import ListNotations.
Open Scope list_scope.
Open Scope Z_scope.

Section Table.
Variable n : names.
Variable s : schema.
Variable name : string.
Variable tys : list ty.
Hypothesis HD : describes n s.
Hypothesis HS : s name = Some tys.
Hypothesis HB : buildable tys.

Notation ks := (kinds (new_node n None no_vinfo name)).
Notation sizes := (map field_size tys).
Notation tp := (TableProofs2.tpos ks).
Notation c := (new_node n (Some (tp, -1)) no_vinfo name).
Notation ginv := (ginv ks sizes).
Notation bst := (bst n s name tys).
Notation sizes_pos := (sizes_pos tys HB).
Notation ref_size := (ref_size n s name tys HD HS).
Notation g_zero := (grid_is_zero ks sizes sizes_pos ref_size).
Notation g_virtual := (grid_virtual_table ks sizes sizes_pos ref_size).
Notation g_preload := (grid_preload ks sizes sizes_pos ref_size).
Notation all_absent st := (forall j t', zget tys j = Some t' -> is_ref t' = true -> st j = Nothing).

Lemma vtable_small : forall m tn p v tys', stored_table m s tn p v -> s tn = Some tys' -> 4 + 2 * zlen tys' < 65536.
Proof.
  intros m tn p v tys' H Hs. destruct H as [tn p soff es tl tys2 fs H1 H2 H3 H4].
  assert (tys2 = tys') by congruence. subst tys2.
  assert (L : zlen tys' = zlen es).
  { clear -H4. induction H4 as [|p prev t tys e es v vs H1 H2 IH]; [reflexivity|]. rewrite !zlen_cons. lia. }
  pose proof (proj1 (ta_vlen _ _ _ _ _ H2)) as V. change (256 ^ Z.of_nat 2) with 65536 in V. lia.
Qed.

Lemma table_step : forall b vt tl vals st i t fb f tn m v, bst b vt tl vals st ->
  zget tys i = Some t -> (t = TyTable tn \/ exists us, t = TyUnion us /\ In tn us) -> all_absent st ->
  (forall us, t = TyUnion us -> forall x, st (i - 1) = Bytes [x] -> b2z x <= zlen us) ->
  lone_table n s fb f tn m v ->
  exists k b' vt' tl' vals',
    (forall fuel, (k <= fuel)%nat -> set_table n fuel b c tp i fb f = Ok (Set_ok b')) /\
    bst b' vt' tl' vals' (put st i (Value m v)).
Proof.
  intros b vt tl vals st i t fb f tn m v I Ht Htn HA HU (pos & z & tys' & Hf & HF & Em & Hs & Hpos & HL & HT & HM & Hz).
  set (vs := 4 + 2 * zlen tys') in *.
  assert (Hr : is_ref t = true) by (destruct Htn as [->|(us & -> & _)]; reflexivity).
  assert (FS : field_size t = 4) by (destruct t; try discriminate; reflexivity).
  pose proof (bs_g _ _ _ _ _ _ _ _ _ I) as G.
  destruct (flat_source fb HF) as (F1 & F2 & F3).
  assert (TP : 0 <= tp) by (rewrite (tp_eq n s name tys HD HS); pose proof (zlen_nonneg tys); lia).
  assert (HT' : stored_table m s tn pos v).
  { eapply stored_mono; [|exact HT]. intros q x H. subst m. eapply window_sub; eauto. }
  assert (RP : pos + 4 <= reach v) by (subst m; eapply reach_pos; eauto).
  pose proof (vtable_small _ _ _ _ _ HT Hs) as VS. fold vs in VS. pose proof (zlen_nonneg tys') as ZT.
  destruct (entry_of _ _ _ _ HD HS _ _ _ _ _ i t I Ht) as (e & E1 & E2).
  assert (Hst : st i = Nothing) by (eapply HA; eauto).
  assert (e = 0) by (apply E2; exact Hst). subst e.
  rewrite Em in HT'. destruct (measured_info n fb s HF HD tn pos v z HT' HM) as [k Hk].
  assert (OLD : forall fuel, (1 <= fuel)%nat -> exists r, value_info n b (node_info n b fuel) c i = Ok r).
  { eapply (value_absent n s name tys HD HS HB b vt tl vals st i t I Ht Hst).
    destruct Htn as [->|(us & -> & _)]; [exact Logic.I|apply HU; reflexivity]. }
  destruct (bst_insert n s name tys HD HS HB b vt tl vals st i t 4 I Ht Hst FS) as (b1 & A1 & A2 & A3 & A4 & A5).
  assert (ZS : zget sizes i = Some 4) by (rewrite zget_map, Ht, <- FS; reflexivity).
  set (size := reach v - pos).
  destruct (grid_space ks sizes sizes_pos ref_size b1 _ _ _ (vs + size) A2 ltac:(unfold size; lia)) as (b2 & S1 & S2).
  assert (ZU : zlen (le_encode 4 (vs + 4)) = 4) by apply zlen_le_encode.
  destruct (grid_u ks sizes sizes_pos ref_size b2 _ _ _ i tl (le_encode 4 (vs + 4)) S2 A3 A4) as (b3 & U1 & U2 & _).
  { rewrite ZU. exact ZS. }
  set (vals2 := fmap_set (bump ks 4 i 0 (fmap_set vals i (zeros 4))) i (le_encode 4 (vs + 4))) in *.
  assert (V2 : vals2 i = Some (le_encode 4 (vs + 4))) by (unfold vals2, fmap_set; rewrite Z.eqb_refl; reflexivity).
  destruct (grid_blob ks sizes ref_size b3 _ _ _ fb (pos - vs) (size + vs) (size + vs) U2 F1 F2)
    as (b4 & B1 & B2 & B3); try (unfold size; lia).
  { apply flat_defined; auto; unfold size; lia. }
  exists (S k), b4, (upd vt i tl), (tl + 4), vals2. split.
  - intros fuel Hfu. destruct (OLD fuel ltac:(lia)) as (r & R1). unfold set_table.
    assert (CN : c_node f = Some (pos, z)) by (rewrite Hf, new_node_node; reflexivity). rewrite CN.
    replace (if z <=? 0
      then do v0 <- node_info n fb fuel f; (if v_size v0 <=? 0 then Panic else Ok (v_size v0))
      else Ok z) with (@Ok Z size).
    2:{ destruct (z <=? 0) eqn:X.
        - rewrite Hf, (Hk fuel ltac:(lia)). cbn [bind v_size]. fold size.
          replace (size <=? 0) with false by (unfold size; lia). reflexivity.
        - unfold size. f_equal. lia. }
    cbn [bind]. rewrite R1. cbn [bind]. rewrite (g_zero _ _ _ _ i 0 G E1). cbn [bind Z.eqb].
    rewrite A1. cbn [bind].
    destruct (table_node n s HD tn tys' (Some (pos, z)) no_vinfo Hs) as (_ & _ & ML & _).
    rewrite <- Hf in ML. rewrite ML. replace (zlen tys' * 2 + 4) with vs by (unfold vs; lia).
    replace (tp + tl + 4) with (tp + (tl + 4)) by lia. rewrite S1. cbn [bind t_io].
    replace (u32 (u32 vs + 4)) with (vs + 4).
    2:{ unfold u32. change (2 ^ 32) with 4294967296. rewrite (Z.mod_small vs) by lia.
        rewrite Z.mod_small by lia. reflexivity. }
    rewrite ZU in U1. rewrite U1. cbn [bind]. rewrite B1. cbn [bind].
    rewrite (g_preload _ _ _ _ B2). reflexivity.
  - apply A5; auto.
    + intros j Hj. unfold vals2, fmap_set. replace (j =? i) with false by lia. reflexivity.
    + rewrite Hr. exists (pos - vs), vs. split; [rewrite V2; do 2 f_equal; lia|]. split.
      * split.
        { intros q' Hq'. subst m. replace q' with (pos - vs + (q' - (pos - vs))) by lia. rewrite <- F3.
          apply (flat_defined fb (pos - vs) (reach v - (pos - vs))); auto; lia. }
        right. split; [lia|]. exists tn. split; [exact Htn|]. replace (pos - vs + vs) with pos by lia. exact HT.
      * split; [lia|]. intros j Hj. rewrite B3 by (unfold size; lia). rewrite F3, Em. reflexivity.
Qed.

(** ** One call *)

Lemma same_type_name : forall i f typ, field_type_name n c i = typ -> typ = c_name f -> is_same_type n c i (c_name f) = true.
Proof. intros i f typ H1 H2. unfold is_same_type. rewrite H1, H2, String.eqb_refl. reflexivity. Qed.

Lemma labelled_name : forall i f typ, labelled n name i f -> field_type_name n c i = typ -> typ = c_name f.
Proof.
  intros i f typ (l & L1 & L2) H. rewrite <- H. unfold field_type_name. rewrite new_node_name.
  rewrite (sub_lookup _ _ _ _ L1), L2. reflexivity.
Qed.

Lemma call_step : forall b vt tl vals st i t fb f e, bst b vt tl vals st ->
  zget tys i = Some t -> gives n s name i t fb f e -> allowed tys st i t ->
  exists k b' vt' tl' vals',
    (forall fuel, (k <= fuel)%nat -> set_field_at n fuel b c i fb f = Ok (Set_ok b')) /\
    bst b' vt' tl' vals' (put st i e).
Proof.
  intros b vt tl vals st i t fb f e I Ht Hg Ha.
  pose proof (zget_some_range _ _ _ Ht) as R.
  destruct (table_node n s HD name tys (Some (tp, -1)) no_vinfo HS) as (SN & _ & ML & TN).
  destruct (TN i t Ht) as (typ & g & G1 & G2 & G3 & G4).
  assert (OUT : map_len (c_groups c) <=? i = false) by lia.
  assert (VEC : forall t0, t = t0 -> is_ref t = true -> is_field_slice g = true ->
    labelled n name i f ->
    (exists m v q nd, e = Value m v /\ f = new_node n (Some nd) (mkV q (reach v - q) (vector_len v)) (c_name f) /\
        flat fb /\ m = img_bytes (sl_data (b_bytes fb)) /\
        4 <= q /\ reach v <= zlen (sl_data (b_bytes fb)) /\
        stored_vector (window m (q - 4) (reach v)) s t q v /\ measured v) ->
    exists k b' vt' tl' vals',
    (forall fuel, (k <= fuel)%nat -> set_field_at n fuel b c i fb f = Ok (Set_ok b')) /\
    bst b' vt' tl' vals' (put st i e)).
  { intros t0 _ Hr Hsl HLb (m & v & q & nd & -> & Hf & HF & Em & Hq & HL & HV & HM).
    destruct (Ha Hr) as [HA _]. pose proof (labelled_name i f typ HLb G2) as HN.
    destruct (vector_step n s name tys HD HS HB b vt tl vals st i t fb f m v q nd I Ht) as (k & b' & vt' & tl' & vals' & K1 & K2);
      auto; try congruence.
    exists k, b', vt', tl', vals'. split; [|exact K2]. intros fuel Hfu. unfold set_field_at. rewrite OUT.
    rewrite (same_type_name i f typ G2 HN). cbn [negb]. rewrite new_node_node, G1, Hsl. apply K1. exact Hfu. }
  destruct t as [t|sn ms|tn|us|t|sn ms|tn]; cbn [gives] in Hg; cbn [field_described] in G3.
  - destruct Hg as (HLb & p & pos & z & -> & CN & LP & DL).
    destruct G3 as [G3 _]. pose proof (says_tests _ _ G3) as (T1 & T2 & T3 & T4 & T5 & T6).
    assert (W : is_field_struct g = false /\ is_field_slice g = false /\ is_field_basic g = true).
    { rewrite T1, T4, T6. destruct (width_cases t) as [W|[W|[W|W]]]; rewrite W; auto. }
    destruct W as (W1 & W2 & W3).
    destruct (inline_step n s name tys HD HS HB b vt tl vals st i _ p fb f pos z I Ht eq_refl LP CN DL) as (b' & vt' & tl' & vals' & K1 & K2).
    { intros fuel Hfu. rewrite G1, W1. rewrite (G4 t eq_refl). reflexivity. }
    exists 1%nat, b', vt', tl', vals'. split; [|exact K2]. intros fuel Hfu. unfold set_field_at. rewrite OUT.
    rewrite (same_type_name i f typ G2 (labelled_name i f typ HLb G2)). cbn [negb]. rewrite new_node_node, G1, W1, W2, W3.
    cbn [orb]. apply K1. exact Hfu.
  - destruct Hg as (p & pos & z & -> & Hf & LP & DL). destruct G3 as (G3 & -> & SD).
    pose proof (says_tests _ _ G3) as (T1 & T2 & T3 & T4 & T5 & T6). cbn in T1, T4, T6.
    destruct (inline_step n s name tys HD HS HB b vt tl vals st i _ p fb f pos z I Ht eq_refl LP) as (b' & vt' & tl' & vals' & K1 & K2).
    { rewrite Hf. apply new_node_node. }
    { exact DL. }
    { intros fuel Hfu. rewrite G1, T1. destruct fuel as [|fu]; [lia|]. rewrite Hf.
      rewrite (proj2 (node_info_good n fb fu) sn ms pos z SD). reflexivity. }
    exists 1%nat, b', vt', tl', vals'. split; [|exact K2]. intros fuel Hfu. unfold set_field_at. rewrite OUT.
    assert (CN : sn = c_name f) by (rewrite Hf, new_node_name; reflexivity).
    rewrite (same_type_name i f sn G2 CN). cbn [negb]. rewrite new_node_node, G1, T1, T4. cbn [orb]. apply K1. exact Hfu.
  - destruct Hg as (m & v & -> & LT). destruct (Ha eq_refl) as [HA _]. destruct G3 as (G3 & ->).
    pose proof (says_tests _ _ G3) as (T1 & T2 & T3 & T4 & T5 & T6). cbn in T1, T2, T3, T4, T6.
    destruct (table_step b vt tl vals st i _ fb f tn m v I Ht (or_introl eq_refl) HA) as (k & b' & vt' & tl' & vals' & K1 & K2).
    { intros us C. discriminate. }
    { exact LT. }
    exists k, b', vt', tl', vals'. split; [|exact K2]. intros fuel Hfu. unfold set_field_at. rewrite OUT.
    destruct LT as (pos & z & tys' & Hf & _).
    assert (CN : tn = c_name f) by (rewrite Hf, new_node_name; reflexivity).
    rewrite (same_type_name i f tn G2 CN). cbn [negb]. rewrite new_node_node, G1, T1, T2, T3, T4, T6. cbn [orb]. apply K1. exact Hfu.
  - destruct Hg as (tn & m & v & HIn & -> & LT). destruct (Ha eq_refl) as [HA HU]. destruct G3 as (G3 & GU & _).
    pose proof (says_tests _ _ G3) as (T1 & T2 & T3 & T4 & T5 & T6). cbn in T1, T2, T3, T4, T6.
    destruct (table_step b vt tl vals st i _ fb f tn m v I Ht (or_intror (ex_intro _ us (conj eq_refl HIn))) HA) as (k & b' & vt' & tl' & vals' & K1 & K2).
    { intros us' C. injection C as <-. exact HU. }
    { exact LT. }
    exists k, b', vt', tl', vals'. split; [|exact K2]. intros fuel Hfu. unfold set_field_at. rewrite OUT.
    destruct LT as (pos & z & tys' & Hf & _).
    assert (CN : c_name f = tn) by (rewrite Hf, new_node_name; reflexivity).
    assert (SM : is_same_type n c i (c_name f) = true).
    { unfold is_same_type. rewrite G1, T3, G2, (sub_lookup _ _ _ _ GU), CN. apply orb_true_iff. right.
      cbn [andb]. apply existsb_exists. exists tn. split; [exact HIn|apply String.eqb_refl]. }
    rewrite SM. cbn [negb]. rewrite new_node_node, G1, T1, T2, T3, T4, T6. cbn [orb]. apply K1. exact Hfu.
  - destruct Hg as [HLb Hg]. apply (VEC _ eq_refl eq_refl); auto. destruct G3 as [G3 _].
    pose proof (says_tests _ _ G3) as (T1 & T2 & T3 & T4 & T5 & T6). rewrite T4.
    destruct (width_cases t) as [W|[W|[W|W]]]; rewrite W; reflexivity.
  - destruct Hg as [HLb Hg]. apply (VEC _ eq_refl eq_refl); auto. destruct G3 as [G3 _].
    pose proof (says_tests _ _ G3) as (T1 & T2 & T3 & T4 & T5 & T6). rewrite T4. reflexivity.
  - destruct Hg as [HLb Hg]. apply (VEC _ eq_refl eq_refl); auto. destruct G3 as [G3 _].
    pose proof (says_tests _ _ G3) as (T1 & T2 & T3 & T4 & T5 & T6). rewrite T4. reflexivity.
Qed.

Lemma history_steps : forall st l st', history n s name tys st l st' ->
  forall b vt tl vals, bst b vt tl vals st ->
  exists k b' vt' tl' vals',
    (forall fuel, (k <= fuel)%nat -> set_fields n fuel b c l = Ok (Some b')) /\ bst b' vt' tl' vals' st'.
Proof.
  intros st l st' H. induction H as [st|st i fb f t e l st' Ht Hg Ha Hh IH]; intros b vt tl vals I.
  - exists 0%nat, b, vt, tl, vals. split; [reflexivity|exact I].
  - destruct (call_step b vt tl vals st i t fb f e I Ht Hg Ha) as (k1 & b1 & vt1 & tl1 & vals1 & K1 & I1).
    destruct (IH b1 vt1 tl1 vals1 I1) as (k2 & b2 & vt2 & tl2 & vals2 & K2 & I2).
    exists (Nat.max k1 k2), b2, vt2, tl2, vals2. split; [|exact I2]. intros fuel Hfu. cbn [set_fields].
    rewrite (K1 fuel ltac:(lia)). cbn [bind]. apply K2. lia.
Qed.

Lemma build_steps : forall l st, history n s name tys start l st ->
  exists k b vt tl vals,
    (forall fuel, (k <= fuel)%nat -> build_table n fuel name l = Ok (Some (b, c))) /\ bst b vt tl vals st.
Proof.
  intros l st H. destruct (bst_init n s name tys HD HS HB) as (b0 & E0 & I0).
  destruct (history_steps start l st H _ _ _ _ I0) as (k & b & vt & tl & vals & K & I).
  exists k, b, vt, tl, vals. split; [|exact I]. intros fuel Hfu. unfold build_table. rewrite E0. cbn [bind].
  rewrite (K fuel Hfu). reflexivity.
Qed.

End Table.
