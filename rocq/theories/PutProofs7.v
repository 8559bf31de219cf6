(** References replaced in place. *)
From Coq Require Import ZArith List Bool Lia String.
From Coq Require Import Strings.Byte.
From Verif Require Import GoLib BaseModel GoLemmas BaseSpec BaseProofs TableModel TableSpec TableProofs TableProofs2 NameModel NameSpec.
From Verif Require Import WalkModel WalkSpec WalkProofs WalkProofs2 WalkProofs3 WalkProofs4 WalkProofs5 EqualSpec ListProofs2.
From Verif Require Import BuildModel BuildProofs6 InsModel InsSpec InsProofs InsProofs2 InsProofs4 InsProofs5 InsProofs7 InsProofs11.
From Verif Require Import PutModel PutSpec PutProofs PutProofs2.
From Verif Require BuildSpec BuildProofs3 BuildProofs5 AddProofs7.
Import ListNotations.
Open Scope list_scope.
Open Scope Z_scope.

Lemma own_parts : forall m tp idx t, 0 <= idx -> forall v tn fs,
  (forall nm gs, In (Tab nm tp gs) (tables v) -> nm = tn /\ gs = fs) -> In (Tab tn tp fs) (tables v) ->
  In (tp, 4) (parts m (fill tp idx (Absent t) v)) /\ In (vtable_of m tp, 4 + 2 * zlen fs) (parts m (fill tp idx (Absent t) v)).
Proof.
  intros m tp idx t HI v tn fs. induction v as [ty|q0 w|q0 ms|q0 k w|q0 k ms|nm0 p fs0 go|nm0 p vs go] using val_deep; intros HU Hin; try (destruct Hin; fail).
  - destruct (Z.eq_dec p tp) as [->|NE].
    + destruct (HU nm0 fs0 (or_introl eq_refl)) as [-> ->]. cbn [fill parts]. rewrite Z.eqb_refl. split; [left; reflexivity|right; left].
      rewrite zlen_set_nth, zlen_map. reflexivity.
    + cbn [tables] in Hin. destruct Hin as [E|Hin]; [congruence|]. apply in_flat_map in Hin. destruct Hin as (f & F1 & F2).
      destruct (go f F1) as [G1 G2]; auto.
      { intros nm gs HG. apply (HU nm gs). right. apply in_flat_map. eauto. }
      cbn [fill parts]. replace (p =? tp) with false by lia.
      split; right; right; apply in_flat_map; exists (fill tp idx (Absent t) f); (split; [apply in_map; exact F1|assumption]).
  - cbn [tables] in Hin. apply in_flat_map in Hin. destruct Hin as (f & F1 & F2).
    destruct (go f F1) as [G1 G2]; auto.
    { intros nm gs HG. apply (HU nm gs). cbn [tables]. apply in_flat_map. eauto. }
    cbn [fill parts]. split; right; apply in_flat_map; exists (fill tp idx (Absent t) f); (split; [apply in_map; exact F1|assumption]).
Qed.

Section Image.
Variable m : image.
Variable s : schema.

(** Bytes changed only where nothing but the old field was. *)
Lemma in_place : forall name p v tn tp fs tys idx t so es l e w m' dst len,
  stored_table m s name p v -> only_table v (Tab tn tp fs) -> s tn = Some tys -> zget tys idx = Some t -> types_no_union tys idx ->
  table_at m tp so es l -> 0 <= so -> zget es idx = Some e -> zlen es = zlen fs ->
  (forall i, i < dst \/ dst + len <= i -> m' i = m i) ->
  (forall a k, In (a, k) (parts m (fill tp idx (Absent t) v)) -> disjoint a k dst len) ->
  (forall a u, In (a, u) (links m (fill tp idx (Absent t) v)) -> disjoint a 4 dst len) ->
  (forall pv, stored_field m' s tp pv t e w) ->
  stored_table m' s name p (fill tp idx w v) /\ same_value m m' (fill tp idx (Absent t) v) (fill tp idx (Absent t) v).
Proof.
  intros name p v tn tp fs tys idx t so es l e w m' dst len H [OT1 OT2] HS Ht HNU T Hso He HL OUT DP DL HX.
  pose proof (zget_some_range _ _ _ Ht) as RI.
  assert (UN : forall nm gs, In (Tab nm tp gs) (tables v) -> nm = tn /\ gs = fs).
  { intros nm gs HG. specialize (OT2 _ HG eq_refl). split; congruence. }
  destruct (bounded ((tp, tp) :: ties m (fill tp idx (Absent t) v))) as (B & HB).
  assert (SH : forall y, shift B 0 y = y) by (intros y; unfold shift; destruct (y <? B); lia).
  set (PS := parts m (fill tp idx (Absent t) v)) in *. set (LS := links m (fill tp idx (Absent t) v)) in *.
  assert (COPY : forall y k, In (y, k) PS -> forall j, 0 <= j < k -> m' (shift B 0 y + j) = m (y + j)).
  { intros y k HI j Hj. rewrite SH. apply OUT. specialize (DP y k HI). unfold disjoint in DP. lia. }
  assert (LINK : forall a u, In (a, u) LS -> a + 4 <= u -> holds_uint m a 4 (u - a) -> holds_uint m' (shift B 0 a) 4 (shift B 0 u - shift B 0 a)).
  { intros a u HI _ HO. rewrite !SH. eapply holds_uint_ext; [|exact HO]. intros j Hj. apply OUT. specialize (DL a u HI). unfold disjoint in DL. lia. }
  destruct (own_parts m tp idx t ltac:(lia) v tn fs UN OT1) as (P1 & P2).
  assert (KP : kept m B PS LS tp (fill tp idx (Absent t) v)).
  { split; [apply besides_parts|]. split; [apply incl_refl|]. intros a u Hau. destruct (HB a u (or_intror Hau)). lia. }
  assert (T1 : table_at m' tp so (set_nth idx e es) l).
  { rewrite set_nth_same by exact He. rewrite (table_vtable m tp so es l T Hso) in P2. fold PS in P1, P2. pose proof (zlen_nonneg es) as LN.
    pose proof (DP _ _ P1) as D1. pose proof (DP _ _ P2) as D2. unfold disjoint in D1, D2.
    destruct T as [Ta Tb Tc Td Te Tf]. constructor; auto.
    - eapply holds_uint_ext; [|exact Ta]. intros j Hj. apply OUT. lia.
    - eapply holds_uint_ext; [|exact Td]. intros j Hj. apply OUT. lia.
    - eapply holds_uint_ext; [|exact Te]. intros j Hj. apply OUT. lia.
    - intros i y Hy. pose proof (zget_some_range _ _ _ Hy). eapply holds_uint_ext; [|exact (Tf i y Hy)]. intros j Hj. apply OUT. lia. }
  split.
  - pose proof (stored_put m m' s B 0 (Z.le_refl 0) PS LS COPY LINK tp idx (proj1 (HB tp tp (or_introl eq_refl))) ltac:(lia) w t tn tys t so es l l e
      HS Ht HNU Hso T T1 HX v KP) as SP.
    specialize (SP ltac:(intros nm gs HG; apply (UN nm gs HG)) name p H). cbn beta in SP. rewrite SH, moved_zero in SP. exact SP.
  - pose proof (alike_put m m' B 0 PS LS COPY LINK tp idx (fill tp idx (Absent t) v)) as AL. rewrite moved_zero in AL. apply AL. apply besides_parts.
Qed.

End Image.

Section Place.
Variable b : base.
Variable s : schema.
Local Notation m := (img_bytes (sl_data (b_bytes b))).

(** One copy into a buffer without a journal. *)
Lemma copied_in : forall fb lo len dst, flat b -> flat fb -> 0 <= lo -> 1 <= len -> lo + len <= zlen (sl_data (b_bytes fb)) -> 0 <= dst ->
  exists b' m', base_copy b fb lo len dst 0 = Ok b' /\ shows b' m' /\
    (forall i, i < dst \/ dst + len <= i -> m' i = m i) /\
    (forall i, 0 <= i < len -> m' (dst + i) = img_bytes (sl_data (b_bytes fb)) (lo + i)).
Proof.
  intros fb lo len dst HF HG Hlo Hlen Hle Hd.
  set (x := zfirst len (zskip lo (sl_data (b_bytes fb)))).
  assert (ZX : zlen x = len).
  { unfold x. rewrite zlen_zfirst, zlen_zskip. lia. }
  assert (DV : delivers fb lo x).
  { apply AddProofs7.flat_delivers; auto; try lia; [unfold gs_len; lia|rewrite ZX; reflexivity]. }
  destruct (copy_any b fb lo x dst DV ltac:(lia) Hd) as (sl & pre & CP1 & CP2 & CP3). destruct HF as [F1 F2]. rewrite F2, app_nil_r, ZX in CP1.
  set (b' := set_diffs b (pre ++ [mkDiff dst sl])) in *.
  assert (CT : forall i, content b' i = img_write m dst x i).
  { intros i. unfold content, b'. cbn [set_diffs b_diffs b_bytes].
    assert (ONE : over [mkDiff dst sl] m i = img_write m dst x i).
    { rewrite over_one. cbn [d_off]. unfold d_data. cbn [d_sl]. rewrite CP2. reflexivity. }
    destruct CP3 as [->|(D1 & tt & -> & D2)]; [exact ONE|]. cbn [app]. rewrite over_front by (auto; lia). exact ONE. }
  assert (MB' : in_memory b').
  { split; [exact F1|]. unfold b'. cbn [set_diffs b_diffs]. apply Forall_app. split; [|repeat constructor; cbn [d_off]; lia].
    destruct CP3 as [->|(D1 & tt & -> & D2)]; repeat constructor; cbn [d_off]; lia. }
  exists b', (img_write m dst x). split; [exact CP1|]. split; [|split].
  - intros i Hi. pose proof (shows_content b' MB' i Hi) as SC. rewrite CT in SC. exact SC.
  - intros i Hi. unfold img_write. replace ((dst <=? i) && (i <? dst + zlen x)) with false by lia. reflexivity.
  - intros i Hi. unfold img_write. replace ((dst <=? dst + i) && (dst + i <? dst + zlen x)) with true by lia.
    replace (dst + i - dst) with i by lia. unfold x. rewrite zget_zfirst, zget_zskip by lia. replace (i <? len) with true by lia. replace (i <? 0) with false by lia. reflexivity.
Qed.
End Place.

Lemma carried_shift : forall d v, carried d v = BuildProofs3.shift d v.
Proof. reflexivity. Qed.

(** ** What is there, and what comes *)

Definition has_lead (t : ty) : bool := match t with TyTable _ | TyScalars _ | TyStructs _ _ | TyTables _ => true | _ => false end.
Definition head (t : ty) : Z := match t with TyTable _ => 0 | _ => 4 end.

Lemma old_ref : forall m s p pv t e w, stored_field m s p pv t e w -> has_lead t = true -> is_absent w = false ->
  4 <= e /\ points_to m (p + e) (val_pos w - head t).
Proof.
  intros m s p pv t e w H HL HA. destruct H; cbn [has_lead is_absent head val_pos] in *; try discriminate.
  - destruct H0 as [H0 _]. auto.
  - destruct H0 as [H0 _]. auto.
  - split; [exact H|]. inversion H1; subst; cbn [val_pos]. rewrite Z.sub_0_r. exact H0.
  - destruct H0 as [H0 _]. auto.
Qed.

Lemma new_vector : forall m s t q v, BuildSpec.stored_vector m s t q v -> forall p e pv, 4 <= e -> points_to m (p + e) (q - 4) ->
  stored_field m s p pv t e v.
Proof.
  intros m s t q v H p e pv He HP. destruct t; destruct v; cbn [BuildSpec.stored_vector] in H; try contradiction; destruct H as (-> & -> & H1 & H2).
  - constructor; auto. split; auto.
  - constructor; auto. split; auto.
  - constructor; auto. split; auto.
Qed.

Lemma vector_val : forall m s t q v, BuildSpec.stored_vector m s t q v -> val_pos v = q /\ lead v = 4 /\ head t = 4 /\ has_lead t = true /\
  is_union t = false /\ (forall tn q fs, v <> Tab tn q fs).
Proof.
  intros m s t q v H. destruct t; destruct v; cbn [BuildSpec.stored_vector] in H; try contradiction; destruct H as (-> & -> & H1 & H2); cbn; repeat split; discriminate.
Qed.

Lemma size_of : forall p w t m s pv e, stored_field m s p pv t e w -> has_lead t = true -> is_absent w = false -> v_size (field_vinfo p w) = reach w - val_pos w.
Proof.
  intros p w t m s pv e H HL HA. destruct H; cbn [has_lead is_absent] in *; try discriminate; cbn [field_vinfo reach val_pos v_size]; try lia.
  inversion H1; subst. reflexivity.
Qed.

Lemma fields_zlen : forall m s p pv tys es fs, stored_fields m s p pv tys es fs -> zlen tys = zlen fs /\ zlen es = zlen fs.
Proof.
  intros m s p pv tys es fs H. induction H as [|p prev t tys e es v vs H1 H2 [I1 I2]]; [split; reflexivity|]. rewrite !zlen_cons. lia.
Qed.

Section Replace.
Variable n : names.
Variable b : base.
Variable s : schema.
Hypothesis HF : flat b.
Hypothesis HD : describes n s.
Local Notation m := (img_bytes (sl_data (b_bytes b))).

(** The call comes down to one copy. *)
Lemma one_copy : forall tn tp z so es l fs tys idx t w e pv fb f m0 v0,
  s tn = Some tys -> zget tys idx = Some t -> has_lead t = true ->
  table_at m tp so es l -> 0 <= so -> stored_fields m s tp None tys es fs ->
  zget fs idx = Some w -> is_absent w = false -> measured w ->
  zget es idx = Some e -> stored_field m s tp pv t e w ->
  BuildSpec.gives n s tn idx t fb f (BuildSpec.Value m0 v0) -> claims f v0 -> fits w v0 ->
  let c := new_node n (Some (tp, z)) no_vinfo tn in
  let lo := val_pos v0 - lead v0 in let len := reach v0 - lo in let dst := val_pos w - lead v0 in
  flat fb /\ m0 = img_bytes (sl_data (b_bytes fb)) /\ 0 <= lo /\ 4 <= len /\ lo + len <= zlen (sl_data (b_bytes fb)) /\
  (BuildSpec.stored_vector (BuildSpec.window m0 lo (reach v0)) s t (val_pos v0) v0 \/
   exists tn', t = TyTable tn' /\ stored_table (BuildSpec.window m0 lo (reach v0)) s tn' (val_pos v0) v0) /\
  exists k, forall fuel, (k <= fuel)%nat -> put_field n fuel b c idx fb f = do b' <- base_copy b fb lo len dst 0; Ok (Put_ok b' c).
Proof.
  intros tn tp z so es l fs tys idx t w e pv fb f m0 v0 HS Ht HL T Hso SF Hw Ha Hm He Hf Hg HC HFit c lo len dst.
  pose proof (zget_some_range _ _ _ Ht) as R.
  destruct (table_node n s HD tn tys (Some (tp, z)) no_vinfo HS) as (SN & _ & ML & TN).
  destruct (TN idx t Ht) as (typ & g & G1 & G2 & G3 & G4). fold c in SN, ML, G1, G2, G4.
  assert (OUT : map_len (c_groups c) <=? idx = false) by lia.
  assert (ST : typ = c_name f -> is_same_type n c idx (c_name f) = true).
  { intros E. unfold is_same_type. rewrite G2, E, String.eqb_refl. reflexivity. }
  destruct (conforming_access b tp so es l HF T Hso) as (_ & _ & CA). destruct (CA idx e He) as (C1 & C2 & _ & C4).
  destruct (old_ref m s tp pv t e w Hf HL Ha) as (E4 & EP1 & EP2).
  specialize (C4 _ ltac:(lia) EP2). replace (tp + e + (val_pos w - head t - (tp + e))) with (val_pos w - head t) in C4 by lia.
  destruct (proj1 (proj2 (proj2 (info_stored n b s HF HD))) tp pv t e w Hf Hm) as [k1 Hk1].
  assert (VI : forall fuel, (S k1 <= fuel)%nat -> value_info n b (node_info n b fuel) c idx = Ok (field_vinfo tp w)).
  { intros fuel Hfu. apply (value_info_stored n b s HF HD (node_info n b fuel) tn tp z so es l tys fs idx w); auto.
    - destruct fuel as [|fu]; [lia|]. apply node_info_good.
    - intros t0 ->. discriminate.
    - apply Hk1. lia. }
  pose proof (size_of tp w t m s pv e Hf HL Ha) as SZ.
  assert (VEC : is_field_slice g = true ->
    BuildSpec.labelled n tn idx f -> (exists m1 v q nd, BuildSpec.Value m0 v0 = BuildSpec.Value m1 v /\
      f = new_node n (Some nd) (mkV q (reach v - q) (BuildSpec.vector_len v)) (c_name f) /\
        flat fb /\ m1 = img_bytes (sl_data (b_bytes fb)) /\
        4 <= q /\ reach v <= zlen (sl_data (b_bytes fb)) /\
        BuildSpec.stored_vector (BuildSpec.window m1 (q - 4) (reach v)) s t q v /\ measured v) ->
    flat fb /\ m0 = img_bytes (sl_data (b_bytes fb)) /\ 0 <= lo /\ 4 <= len /\ lo + len <= zlen (sl_data (b_bytes fb)) /\
    (BuildSpec.stored_vector (BuildSpec.window m0 lo (reach v0)) s t (val_pos v0) v0 \/
     exists tn', t = TyTable tn' /\ stored_table (BuildSpec.window m0 lo (reach v0)) s tn' (val_pos v0) v0) /\
    exists k, forall fuel, (k <= fuel)%nat -> put_field n fuel b c idx fb f = do b' <- base_copy b fb lo len dst 0; Ok (Put_ok b' c)).
  { intros Hsl HLb (m1 & v & q & nd & E & Hfe & FF & -> & Hq & Hle & SV & MV).
    assert (m0 = img_bytes (sl_data (b_bytes fb))) by congruence. assert (v0 = v) by congruence. subst m0 v0. clear E.
    destruct (vector_val _ _ _ _ _ SV) as (V1 & V2 & V3 & _ & _ & V6).
    pose proof (BuildProofs5.vector_reach s _ _ _ _ SV) as RQ. unfold len, dst, lo. rewrite V1, V2.
    replace (reach v - (q - 4)) with (reach v - q + 4) by lia.
    assert (HV' : BuildSpec.stored_vector (img_bytes (sl_data (b_bytes fb))) s t q v).
    { rewrite <- (BuildProofs3.shift_0 v). rewrite <- (Z.add_0_r q). eapply BuildProofs3.vector_shift with (m0 := img_bytes (sl_data (b_bytes fb))); [| | |exact SV].
      - intros q' x H. rewrite Z.add_0_r. eapply BuildProofs5.window_sub; eauto.
      - intros q' x H. eapply BuildProofs5.window_sub; eauto.
      - intros q' x H. eapply BuildProofs5.window_sub; eauto. }
    assert (NM : typ = c_name f).
    { destruct HLb as (li & L1 & L2). rewrite <- G2. unfold field_type_name. unfold c. rewrite new_node_name.
      rewrite (sub_lookup _ _ _ _ L1), L2. reflexivity. }
    split; [exact FF|]. split; [reflexivity|]. split; [lia|]. split; [lia|]. split; [lia|]. split; [left; exact SV|].
    destruct (BuildProofs5.vector_info n s HD fb t q v nd f typ tn idx g) as [k2 Hk2]; auto; try congruence.
    assert (FE : reach v - q = reach w - val_pos w).
    { unfold fits in HFit. rewrite V1 in HFit. destruct v; auto. exfalso. exact (V6 _ _ _ eq_refl). }
    destruct nd as [np fz]. assert (CN : c_node f = Some (np, fz)) by (rewrite Hfe, new_node_node; reflexivity).
    specialize (HC np fz CN). rewrite V1 in HC.
    assert (CI : c_info f = mkV q (reach v - q) (BuildSpec.vector_len v)) by (rewrite Hfe, new_node_info; reflexivity).
    exists (S (k1 + k2))%nat. intros fuel Hfu. destruct (Hk2 fuel ltac:(lia)) as (r & R1 & R2).
    unfold put_field. rewrite OUT, (ST NM). cbn [negb]. unfold c at 1. rewrite new_node_node. rewrite G1, Hsl. unfold put_vector. rewrite CN.
    replace (if fz <=? 0
      then do v1 <- info_slice n fb (node_info n fb fuel) f; (if v_size v1 <? 0 then Panic else Ok (v_size v1))
      else Ok fz) with (@Ok Z (reach v - q)).
    2:{ destruct (fz <=? 0) eqn:X; [|f_equal; lia]. rewrite R1. cbn [bind]. rewrite R2. replace (reach v - q <? 0) with false by lia. reflexivity. }
    cbn [bind]. rewrite C2. cbn [bind]. replace (e =? 0) with false by lia. rewrite (VI fuel ltac:(lia)). cbn [bind].
    assert (NP : node_pos c = Ok tp) by (unfold node_pos, c; rewrite new_node_node; reflexivity). rewrite NP. cbn [bind].
    rewrite C4, V3. cbn [bind]. rewrite CI. cbn [v_pos v_size]. rewrite SZ. replace (reach v - q - (reach w - val_pos w)) with 0 by lia. reflexivity. }
  destruct t as [t|sn ms|tn'|us|t|sn ms|tn']; try discriminate HL; cbn [BuildSpec.gives] in Hg; cbn [field_described] in G3.
  - clear VEC. destruct Hg as (m1 & v & E & pos & fz & tys' & Hfe & FF & -> & HS' & Hpos & Hle & SV & MV & Hz).
    assert (m0 = img_bytes (sl_data (b_bytes fb))) by congruence. assert (v0 = v) by congruence. subst m0 v0. clear E.
    assert (SV' : stored_table (img_bytes (sl_data (b_bytes fb))) s tn' pos v).
    { eapply BuildProofs3.stored_mono; [|exact SV]. intros q x H. eapply BuildProofs5.window_sub; eauto. }
    assert (RP : pos + 4 <= reach v) by (eapply reach_pos; eauto).
    assert (EV : exists fs0, v = Tab tn' pos fs0 /\ zlen fs0 = zlen tys').
    { inversion SV as [? ? so1 es1 l1 tys1 fs1 Hs1 T1 Hso1 SF1]; subst. exists fs1. split; [reflexivity|]. assert (tys1 = tys') by congruence. subst tys1.
      destruct (fields_zlen _ _ _ _ _ _ _ SF1). congruence. }
    destruct EV as (fs0 & -> & LN). set (v := Tab tn' pos fs0) in *. pose proof (zlen_nonneg tys') as ZT.
    assert (EL : val_pos v - lead v = pos - (4 + 2 * zlen tys')) by (cbn [val_pos lead v]; rewrite LN; reflexivity).
    unfold len, dst, lo. rewrite EL. replace (val_pos w - lead v) with (val_pos w - (4 + 2 * zlen tys')) by (cbn [lead v]; rewrite LN; lia).
    split; [exact FF|]. split; [reflexivity|]. split; [lia|]. split; [lia|]. split; [lia|]. split; [right; exists tn'; split; [reflexivity|exact SV]|].
    destruct (measured_info n fb s FF HD tn' pos v fz SV' MV) as [k2 Hk2].
    destruct G3 as [G3 ET]. pose proof (says_tests _ _ G3) as (T1 & T2 & T3 & T4 & T5 & T6). cbn in T1, T2, T3, T4, T5, T6.
    exists (S (k1 + k2))%nat. intros fuel Hfu. unfold put_field. rewrite OUT, ST by (rewrite ET, Hfe, new_node_name; reflexivity). cbn [negb]. unfold c at 1. rewrite new_node_node.
    rewrite G1, T1, T2, T3, T4, T6. cbn [orb]. unfold put_table.
    assert (CN : c_node f = Some (pos, fz)) by (rewrite Hfe, new_node_node; reflexivity). rewrite CN.
    replace (if fz <=? 0
      then do v1 <- node_info n fb fuel f; (if v_size v1 <=? 0 then Panic else Ok (v_size v1))
      else Ok fz) with (@Ok Z (reach v - pos)).
    2:{ destruct (fz <=? 0) eqn:X; [|f_equal; lia]. rewrite Hfe, (Hk2 fuel ltac:(lia)). cbn [bind v_size]. replace (reach v - pos <=? 0) with false by lia. reflexivity. }
    cbn [bind]. rewrite (VI fuel ltac:(lia)). cbn [bind]. rewrite C2. cbn [bind]. replace (e =? 0) with false by lia. rewrite C4. cbn [bind head].
    destruct (table_node n s HD tn' tys' (Some (pos, fz)) no_vinfo HS') as (_ & _ & ML' & _).
    rewrite <- Hfe in ML'. rewrite ML'. rewrite SZ. unfold fits in HFit. cbn [v] in HFit. fold v in HFit.
    replace (Z.max 0 (reach v - pos - (reach w - val_pos w))) with 0 by lia.
    replace (zlen tys' * 2 + 4) with (4 + 2 * zlen tys') by lia. replace (reach v - (pos - (4 + 2 * zlen tys'))) with (reach v - pos + (4 + 2 * zlen tys')) by lia.
    rewrite Z.sub_0_r. reflexivity.
  - destruct Hg as [H1 H2]. apply VEC; auto. destruct G3 as (G3 & _). pose proof (says_tests _ _ G3) as (T1 & T2 & T3 & T4 & T5 & T6). rewrite T4. reflexivity.
  - destruct Hg as [H1 H2]. apply VEC; auto. destruct G3 as (G3 & _). pose proof (says_tests _ _ G3) as (T1 & T2 & T3 & T4 & T5 & T6). rewrite T4. reflexivity.
  - destruct Hg as [H1 H2]. apply VEC; auto. destruct G3 as (G3 & _). pose proof (says_tests _ _ G3) as (T1 & T2 & T3 & T4 & T5 & T6). rewrite T4. reflexivity.
Qed.

Lemma put_replaced : forall name p v tn tp z fs tys idx t w fb f m0 v0,
  stored_table m s name p v -> only_table v (Tab tn tp fs) -> s tn = Some tys -> zget tys idx = Some t -> is_union t = false -> types_no_union tys idx ->
  zget fs idx = Some w -> is_absent w = false -> measured w ->
  BuildSpec.gives n s tn idx t fb f (BuildSpec.Value m0 v0) -> claims f v0 -> fits w v0 ->
  let d := val_pos w - val_pos v0 in let dst := val_pos w - lead v0 in let len := reach v0 + d - dst in
  0 <= dst -> disjoint (slot_of m tp idx) 4 dst len ->
  (forall a k, In (a, k) (parts m (fill tp idx (Absent t) v)) -> disjoint a k dst len) ->
  (forall a u, In (a, u) (links m (fill tp idx (Absent t) v)) -> disjoint a 4 dst len) ->
  let c := new_node n (Some (tp, z)) no_vinfo tn in
  exists k, forall fuel, (k <= fuel)%nat -> exists b' m',
    put_field n fuel b c idx fb f = Ok (Put_ok b' c) /\ shows b' m' /\
    stored_table m' s name p (fill tp idx (carried d v0) v) /\ same_value m' m0 (carried d v0) v0 /\
    same_value m m' (fill tp idx (Absent t) v) (fill tp idx (Absent t) v).
Proof.
  intros name p v tn tp z fs tys idx t w fb f m0 v0 H OT HS Ht HU HNU Hw Ha Hm Hg HC HFit d dst len D0 DS DP DL c.
  pose proof (zget_some_range _ _ _ Ht) as RI.
  destruct (proj1 (tables_stored m s v) name p H _ (proj1 OT)) as (nm & q & gs & E & HT). injection E as <- <- <-.
  assert (INV : exists so es l, table_at m tp so es l /\ 0 <= so /\ stored_fields m s tp None tys es fs).
  { inversion HT as [? ? so es l tys' ? Hs' T Hso SF]; subst. rewrite HS in Hs'. injection Hs' as <-. exists so, es, l. auto. }
  destruct INV as (so & es & l & T & Hso & SF).
  destruct (fields_nth b s tp None tys es fs SF) as (L1 & L2 & N). destruct (N idx w Hw) as (t' & e & pv & N1 & N2 & N3 & _).
  assert (t' = t) by congruence. subst t'.
  assert (HL : has_lead t = true).
  { destruct t; try reflexivity; cbn [BuildSpec.gives] in Hg; try discriminate HU.
    - destruct Hg as (_ & ? & ? & ? & X & _). discriminate.
    - destruct Hg as (? & ? & ? & X & _). discriminate. }
  destruct (one_copy tn tp z so es l fs tys idx t w e pv fb f m0 v0 HS Ht HL T Hso SF Hw Ha Hm N2 N3 Hg HC HFit) as (FF & Em & Hlo & Hlen & Hle & SV & k & Hk).
  set (lo := val_pos v0 - lead v0) in *. fold dst in Hk.
  assert (EL : reach v0 - lo = len) by (unfold len, dst, lo, d; lia). rewrite EL in *.
  destruct (copied_in b fb lo len dst HF FF Hlo ltac:(lia) Hle D0) as (b' & m' & CP & SH & OUT & INS).
  exists k. intros fuel Hfu. exists b', m'. split; [unfold c; rewrite (Hk fuel Hfu), CP; reflexivity|]. split; [exact SH|].
  destruct (old_ref m s tp pv t e w N3 HL Ha) as (E4 & EP1 & EP2).
  assert (ES : slot_of m tp idx = tp + e).
  { unfold slot_of. rewrite (table_vtable m tp so es l T Hso). rewrite (num_holds m 2 _ e (ta_entry _ _ _ _ _ T idx e N2)). reflexivity. }
  rewrite ES in DS. unfold disjoint in DS.
  assert (PT : points_to m' (tp + e) (val_pos w - head t)).
  { split; [exact EP1|]. eapply holds_uint_ext; [|exact EP2]. intros j Hj. apply OUT. lia. }
  assert (HM : forall q x, BuildSpec.window m0 lo (reach v0) q = Some x -> 0 <= q + d /\ m' (q + d) = Some x).
  { intros q x Hq. apply BuildProofs3.window_some in Hq. destruct Hq as [Q1 Q2]. split; [unfold d, dst, lo in *; lia|].
    replace (q + d) with (dst + (q - lo)) by (unfold d, dst, lo; lia). rewrite INS by lia. rewrite <- Em. replace (lo + (q - lo)) with q by lia. exact Q2. }
  assert (HM0 : forall q x, BuildSpec.window m0 lo (reach v0) q = Some x -> m0 q = Some x).
  { intros q x Hq. apply BuildProofs3.window_some in Hq. apply Hq. }
  assert (NN : forall q x, BuildSpec.window m0 lo (reach v0) q = Some x -> 0 <= q).
  { intros q x Hq. apply BuildProofs3.window_some in Hq. lia. }
  assert (NEW : (forall pv', stored_field m' s tp pv' t e (carried d v0)) /\ same_value m' m0 (carried d v0) v0).
  { rewrite carried_shift. destruct SV as [SV|(tn' & -> & SV)].
    - destruct (vector_val _ _ _ _ _ SV) as (V1 & V2 & V3 & _).
      destruct (BuildProofs3.vector_shift _ m' m0 s d HM HM0 NN t (val_pos v0) v0 SV) as (A1 & A2 & _).
      split; [|exact A2]. intros pv'. eapply new_vector; [exact A1|exact E4|]. rewrite V3 in PT.
      replace (val_pos v0 + d - 4) with (val_pos w - 4) by (unfold d; lia). exact PT.
    - destruct (proj1 (BuildProofs3.stored_shift _ m' m0 s d HM HM0) tn' (val_pos v0) v0 SV) as (A1 & A2).
      split; [|exact A2]. intros pv'. apply Sv_table with (q := val_pos w); [exact E4| |].
      + cbn [head] in PT. rewrite Z.sub_0_r in PT. exact PT.
      + replace (val_pos v0 + d) with (val_pos w) in A1 by (unfold d; lia). exact A1. }
  destruct NEW as [NEW1 NEW2].
  destruct (in_place m s name p v tn tp fs tys idx t so es l e (carried d v0) m' dst len H OT HS Ht HNU T Hso N2) as [I1 I2]; auto.
Qed.
End Replace.
