(** Adding an element to a separated vector. *)
From Coq Require Import ZArith List Bool Lia.
From Coq Require Import Strings.Byte.
From Verif Require Import GoLib BaseModel GoLemmas BaseSpec BaseProofs BaseProofs2 BaseProofs3.
From Verif Require Import TableModel TableSpec TableProofs TableProofs2 ListModel ListSpec.
From Verif Require Import ListProofs ListProofs2 ListProofs3 ListProofs4 ListProofs5.
From Verif Require Import AddModel AddSpec AddProofs AddProofs2 AddProofs3 AddProofs4 AddProofs5 AddProofs7.
From Verif Require Import SepModel SepSpec SepProofs.
Import ListNotations.
Open Scope Z_scope.

Lemma filter_keep : forall A (p : A -> bool) l, (forall x, In x l -> p x = true) -> filter p l = l.
Proof.
  induction l as [|x l IH]; intros H; [reflexivity|]. cbn [filter]. rewrite (H x (or_introl eq_refl)).
  f_equal. apply IH. intros y Hy. apply H. right. exact Hy.
Qed.

Lemma filter_drop : forall A (p : A -> bool) l, (forall x, In x l -> p x = false) -> filter p l = nil.
Proof.
  induction l as [|x l IH]; intros H; [reflexivity|]. cbn [filter]. rewrite (H x (or_introl eq_refl)).
  apply IH. intros y Hy. apply H. right. exact Hy.
Qed.

Section SetAt.
Variable ks : list fkind.
Notation V := (vtable_size ks).
Notation k := (ETable ks).

(** Refreshing a node of which only the last element can be read. *)
Lemma refresh_last : forall l n t s, 0 <= n -> l_pos l = 4 -> l_vlen l = n -> list_vlen l = Ok (n + 1) ->
  (forall i, 0 <= i < n -> list_at k l i = Ok None) -> list_at k l n = Ok (Some t) ->
  elem_info k (l_io l) t = Ok (Some s) -> 4 <= t + s ->
  refresh k l = Ok (LOk (mkL (l_io l) (l_npos l) 4 (n + 1) (t + s - 4))).
Proof.
  intros l n t s Hn Hp Hv HV HA HL HI Hs. unfold refresh, info_slice, list_last. rewrite HV. cbn [bind].
  replace (n + 1 - 1) with n by lia. rewrite HL. cbn [bind]. rewrite HI. cbn [bind option_map].
  unfold index_on_max_pos, list_all, list_select. rewrite HV. cbn [bind]. rewrite Hv.
  assert (E : select_loop k l (fun _ => true) (zseq n) = Ok nil).
  { assert (G : forall is, (forall i, In i is -> 0 <= i < n) -> select_loop k l (fun _ => true) is = Ok nil).
    { induction is as [|i is IH]; intros H; [reflexivity|]. cbn [select_loop].
      rewrite (HA i (H i (or_introl eq_refl))). cbn [bind]. rewrite IH by (intros j Hj; apply H; right; exact Hj).
      reflexivity. }
    apply G. intros i Hi. apply zseq_in in Hi. exact Hi. }
  rewrite E. cbn [bind max_pos_loop]. rewrite (at_outside k l (n + 1) (-1) HV) by lia. cbn [bind].
  replace (n + 1 =? 0) with false by lia. rewrite Hp. replace (4 + -1 <? t + s) with true by lia.
  cbn [bind]. reflexivity.
Qed.

Lemma hinv_total : forall b bl np es sz, hinv ks b bl -> Forall2 (good ks) es bl ->
  (zlen es = 0 \/ sz = appended_size ks es) ->
  vlen_total k (mkL b np 4 (zlen es) sz) = Ok (Some (mkL b np 4 (zlen es) (appended_size ks es))).
Proof.
  intros b bl np es sz I HG HS. pose proof (Forall2_zlen _ _ _ _ _ HG) as LZ. pose proof (zlen_nonneg es) as HN.
  unfold vlen_total. cbn [l_pos l_vlen l_size l_io l_npos]. change (4 =? 0) with false. cbn [orb].
  destruct (Z.eq_dec (zlen es) 0) as [H0|H0].
  - rewrite H0. change (0 =? 0) with true. cbn [orb].
    assert (HV : list_vlen (mkL b np 4 0 sz) = Ok 0).
    { unfold list_vlen. cbn [l_io l_pos]. change (4 - 4) with 0. rewrite (hi_count _ _ _ I). congruence. }
    assert (EI : info_slice k (mkL b np 4 0 sz) = Ok (Some (4, 0, 0))).
    { unfold info_slice, list_last, index_on_max_pos, list_all, list_select. rewrite HV. cbn [bind].
      rewrite (at_outside k _ 0 (0 - 1) HV) by lia. cbn [bind l_vlen]. change (zseq 0) with (@nil Z).
      cbn [select_loop bind max_pos_loop]. rewrite (at_outside k _ 0 (-1) HV) by lia. reflexivity. }
    rewrite EI. cbn [bind option_map set_info l_vlen]. change (0 =? 0) with true. cbn [l_io l_npos l_pos].
    destruct es as [|e es]; [reflexivity|]. rewrite zlen_cons in H0. pose proof (zlen_nonneg es). lia.
  - replace (zlen es =? 0) with false by lia. cbn [orb]. destruct HS as [|HS]; [lia|]. subst sz.
    rewrite (good_size ks es bl HG) at 1. pose proof (zlen_nonneg (concat bl)).
    replace (4 * zlen es + zlen (concat bl) =? 0) with false by lia. cbn [bind l_vlen].
    replace (zlen es =? 0) with false by lia. reflexivity.
Qed.

Lemma flat_same : forall src sp s, self_contained ks src sp s -> flat src -> sp = V ->
  same_reads src sp (new_base (gs_of (sl_data (b_bytes src)))) V (- V) s.
Proof.
  intros src sp s SC F -> j p Hj Hj2 Hp HR HD. pose proof (V_ge ks).
  apply flat_gives; auto; try (split; reflexivity); try lia. intros i Hi. cbn [new_base b_bytes gs_of sl_data].
  apply (flat_given src); auto. lia.
Qed.

Lemma sep_step : forall b bl np es sz f src sp e,
  hinv ks b bl -> Forall2 (good ks) es bl -> np < 8 -> (zlen es = 0 \/ sz = appended_size ks es) ->
  f_data f = concat bl -> fills_buffer ks src sp e ->
  appended_size ks (es ++ [(src, sp, e)]) < 4294967296 - 4 ->
  exists b' f', sep_set_at ks (mkSep (mkL b np 4 (zlen es) sz) (File f) (zlen (concat bl))) (zlen es) src sp =
      Ok (SOk (mkSep (mkL b' np 4 (zlen es + 1) (appended_size ks (es ++ [(src, sp, e)]))) (File f')
                (zlen (concat bl) + (e + V)))) /\
    hinv ks b' (bl ++ [sl_data (b_bytes src)]) /\ f_data f' = concat bl ++ sl_data (b_bytes src) /\
    good ks (src, sp, e) (sl_data (b_bytes src)).
Proof.
  intros b0 bl np es sz f src sp e I HG HNP HSZ HF (SC & FL & HSP & HLEN) HM.
  pose proof (Forall2_zlen _ _ _ _ _ HG) as LZ. pose proof (zlen_nonneg bl) as HN.
  pose proof (V_ge ks) as HV4. pose proof (sc_min _ _ _ _ SC) as HES. pose proof (zlen_nonneg (concat bl)) as HD0.
  pose proof I as [C1 (m & C2 & C2') C6 C4 C5 C7].
  assert (EA : appended_size ks (es ++ [(src, sp, e)]) = 4 * zlen bl + zlen (concat bl) + 4 + V + e).
  { rewrite size_snoc, (good_size ks es bl HG), LZ. reflexivity. }
  rewrite EA in HM |- *.
  set (q := sl_data (b_bytes src)).
  assert (LQ : zlen q = V + e) by exact HLEN.
  unfold sep_set_at. cbn [s_w s_list l_vlen s_len]. rewrite Z.eqb_refl. cbn [negb].
  rewrite (sc_size _ _ _ _ SC). cbn [bind]. unfold set_at, set_table_at. cbn [l_vlen].
  replace (zlen es <? zlen es) with false by lia. rewrite (hinv_total b0 bl np es sz I HG HSZ).
  cbn [bind l_vlen l_pos l_size l_io]. replace (zlen es <? zlen es) with false by lia. cbn [bind].
  replace (e <=? 0) with false by lia. cbn [bind]. rewrite Z.eqb_refl.
  replace (zlen ks * 2 + 4) with V by (unfold vtable_size; lia).
  replace (Z.max 0 (e + V)) with (e + V) by lia. rewrite (good_size ks es bl HG), LZ.
  set (n := zlen bl) in *. set (D := zlen (concat bl)) in *.
  replace (4 + n * 4) with (4 + 4 * n) by lia.
  assert (Zc : forall v, zlen (le_encode 4 v) = 4) by (intros; apply zlen_le_encode).
  assert (CNT0 : delivers b0 0 (le_encode 4 n)) by apply (delivers_rd 4 b0 0 n ltac:(lia) C5).
  (* room for the slot *)
  unfold list_insert_space. cbn [l_io l_npos l_pos l_vlen l_size].
  assert (BS0 : Forall (beside (4 + 4 * n)) (b_diffs b0)).
  { eapply Forall_impl; [|exact C6]. intros d. apply shp_beside. }
  rewrite (insert_space_beside b0 (4 + 4 * n) 4 true ltac:(lia) ltac:(lia) BS0). cbn [bind].
  rewrite (in_root_outside b0 _ np C1 ltac:(rewrite Zc; lia) CNT0 HNP). cbn [bind l_vlen].
  replace (4 + 4 * n <? 4) with false by lia.
  assert (EM0 : map (ins_shift (4 + 4 * n) 4) (b_diffs b0) = b_diffs b0).
  { rewrite <- (map_id (b_diffs b0)) at 2. apply map_ext_in. intros d Hd. rewrite Forall_forall in C6.
    specialize (C6 d Hd). unfold ins_shift. replace (4 + 4 * n <=? d_off d) with false; [reflexivity|].
    symmetry. apply Z.leb_gt. destruct C6 as [(j & j2 & H1 & H2 & H3 & H4)|H]; lia. }
  rewrite EM0. set (b1 := mkBase _ _ _ _ _).
  assert (Z1 : zlen (zeros 4) = 4) by reflexivity.
  assert (M1 : in_memory b1).
  { split; [reflexivity|]. unfold b1; cbn [b_diffs]. apply Forall_app; split; [apply C1|].
    constructor; [cbn [d_off]; lia|constructor]. }
  assert (S1 : Forall (shp (n + 1) (4 * (n + 1))) (b_diffs b1)).
  { unfold b1; cbn [b_diffs]. apply Forall_app; split.
    - eapply Forall_impl; [|exact C6]. intros d [(j & j2 & H1 & H2 & H3 & H4)|H]; [|lia].
      left. exists j, j2. lia.
    - constructor; [|constructor]. left. exists (n + 1), (n + 2). split; [lia|]. split; [lia|].
      split; [cbn [d_off]; lia|]. unfold d_len, gs_len. cbn [d_sl gs_of sl_data]. rewrite Z1. lia. }
  assert (LOW1 : forall c p, 0 <= c -> 1 <= zlen p -> c + zlen p <= 4 + 4 * n -> delivers b0 c p -> delivers b1 c p).
  { intros c p Hc Hp HC HD. apply delivers_served in HD; auto. apply delivers_served; auto.
    unfold b1; cbn [b_diffs b_bytes]. apply served_app; auto. right. cbn [d_off]. lia. }
  assert (B1 : b_bytes b1 = b_bytes b0) by reflexivity.
  clearbody b1.
  (* the offsets *)
  unfold update_offsets. cbn [l_io l_pos].
  set (o := fun i => 4 * (n - i) + starts bl i + V).
  assert (OB : forall i, 0 <= i < n -> starts bl i + V + 4 <= D).
  { intros i Hi. destruct (zget_some bl i ltac:(lia)) as [qi Hq].
    assert (exists ei, good ks ei qi) as [ei G].
    { destruct (zget_some es i ltac:(lia)) as [x Hx]. destruct (Forall2_zget _ _ _ _ _ i x HG Hx) as (y & Hy & G).
      rewrite Hq in Hy. injection Hy as <-. eauto. }
    apply good_len in G as [G _]. pose proof (starts_next bl i qi Hq) as H. pose proof (starts_le bl (i + 1)). unfold D. lia. }
  destruct (bump_spec (n + 1) (4 * (n + 1)) 4 o (zseq n) b1 M1 S1 (zseq_nodup n))
    as (b2 & E2 & M2 & B2 & S2 & _ & R2 & _ & D2).
  { intros i Hi. apply zseq_in in Hi. split; [lia|]. pose proof (C7 i Hi) as HR. fold (o i) in HR.
    destruct (delivers_rd 4 b0 _ _ ltac:(lia) HR) as [HD HRg].
    pose proof (OB i Hi). pose proof (starts_nonneg bl i). split; [|unfold o; lia].
    rewrite (rd_delivers 4 b1 _ (o i) ltac:(lia)); [f_equal; apply Z.mod_small; exact HRg|].
    apply LOW1; try lia; [rewrite Zc; lia|rewrite Zc; lia|exact HD]. }
  rewrite E2. cbn [bind].
  set (toData := 4 + (4 * n + D) + 4).
  replace (4 + n * 4) with (4 + 4 * n) by lia.
  assert (UO : u32 (toData + V - (4 + 4 * n)) = toData + V - (4 + 4 * n)).
  { unfold u32. change (2 ^ 32) with 4294967296. apply Z.mod_small. unfold toData. lia. }
  rewrite UO.
  destruct (u_rd b2 (4 + 4 * n) 4 (toData + V - (4 + 4 * n)) M2 ltac:(lia) ltac:(lia))
    as (b3 & E3 & M3 & B3 & _ & R3 & F3 & D3).
  change (Z.of_nat 4) with 4 in *. rewrite E3. cbn [bind].
  destruct (u_word b2 (n + 1) (4 * (n + 1)) (n + 1) (toData + V - (4 + 4 * n)) b3 S2 ltac:(lia)
              ltac:(rewrite <- E3; f_equal; lia)) as [S3 _].
  replace (0 <? e + V) with true by lia. unfold set_io. cbn [l_io l_npos l_pos l_vlen l_size].
  (* space for the table: nothing moves *)
  assert (BS3 : Forall (beside toData) (b_diffs b3)).
  { eapply Forall_impl; [|exact S3]. intros d [(j & j2 & H1 & H2 & H3 & H4)|H]; left; unfold toData; lia. }
  assert (LB3 : gs_len (b_bytes b3) = 4 * m) by congruence.
  rewrite (insert_space_beside b3 toData (e + V) false ltac:(unfold toData; lia) ltac:(lia) BS3). cbn [bind].
  assert (EMAP : map (ins_shift toData (e + V)) (b_diffs b3) = b_diffs b3).
  { rewrite <- (map_id (b_diffs b3)) at 2. apply map_ext_in. intros d Hd. rewrite Forall_forall in S3.
    specialize (S3 d Hd). unfold ins_shift. replace (toData <=? d_off d) with false; [reflexivity|].
    symmetry. apply Z.leb_gt. unfold toData. destruct S3 as [(j & j2 & H1 & H2 & H3 & H4)|H]; lia. }
  rewrite EMAP, app_nil_r.
  set (b4 := mkBase (b_bytes b3) nil (b_diffs b3) (b_check b3) 0).
  assert (CNT3 : delivers b3 0 (le_encode 4 n)).
  { apply D3; rewrite ?Zc; try lia. apply D2; rewrite ?Zc; try lia. apply LOW1; rewrite ?Zc; try lia. exact CNT0. }
  rewrite (in_root_outside b3 _ np M3 ltac:(rewrite Zc; lia) CNT3 HNP). cbn [bind].
  replace (toData <? 4) with false by (unfold toData; lia). cbn [l_io l_npos l_pos l_vlen l_size].
  assert (M4 : in_memory b4) by (split; [reflexivity|apply M3]).
  assert (D4 : forall c p, 0 <= c -> 1 <= zlen p -> delivers b3 c p -> delivers b4 c p).
  { intros c p Hc Hp HD. apply delivers_served; auto. apply delivers_served in HD; auto. }
  (* the new count *)
  replace (4 - 4) with 0 by lia.
  assert (UN : u32 (n + 1) = n + 1).
  { unfold u32. change (2 ^ 32) with 4294967296. apply Z.mod_small. lia. }
  rewrite UN.
  destruct (u_delivers b4 0 (le_encode 4 (n + 1)) M4 ltac:(lia) ltac:(rewrite Zc; lia))
    as (b5 & E5 & M5 & B5 & _ & CNT5 & D5).
  rewrite Zc in E5, D5. rewrite E5. cbn [bind].
  destruct (u_word b4 (n + 1) (4 * (n + 1)) 0 (n + 1) b5 S3 ltac:(lia) ltac:(rewrite <- E5; reflexivity)) as [S5 _].
  destruct (u_shape b4 (n + 1) (4 * (n + 1)) 0 1 (le_encode 4 (n + 1)) b5 S3 ltac:(lia) ltac:(lia) ltac:(rewrite Zc; lia)
     ltac:(rewrite <- E5; reflexivity)) as (_ & _ & ds5 & L5).
  assert (LB5 : gs_len (b_bytes b5) = 4 * m) by (rewrite B5; exact LB3).
  (* the table itself *)
  destruct (copy_cells b5 src (sp - V) (e + V) toData (sc_mem _ _ _ _ SC) (sc_clean _ _ _ _ SC)
              ltac:(lia) ltac:(lia) ltac:(unfold toData; lia)) as (chunks & E6 & F6 & R6).
  rewrite E6. cbn [bind].
  set (b6 := set_diffs b5 (b_diffs b5 ++ chunks)) in *.
  assert (M6 : in_memory b6).
  { destruct M5 as [X Y]. split; [exact X|]. unfold b6; cbn [set_diffs b_diffs].
    apply Forall_app; split; [exact Y|]. eapply Forall_impl; [|exact F6]. cbv beta. intros d Hd. unfold toData in Hd. lia. }
  assert (D6 : forall c p, 0 <= c -> 1 <= zlen p -> c + zlen p <= toData -> delivers b5 c p -> delivers b6 c p).
  { intros c p Hc Hp HC HD. apply delivers_served; auto. apply delivers_served in HD; auto.
    unfold b6; cbn [set_diffs b_diffs b_bytes]. apply served_apps; auto.
    eapply Forall_impl; [|exact F6]. cbv beta. intros d Hd. right. lia. }
  assert (SLOT5 : forall i x, 0 <= i < n + 1 -> rd 4 b3 (4 + i * 4) = Ok x -> rd 4 b5 (4 + i * 4) = Ok x).
  { intros i x Hi HR. destruct (delivers_rd 4 b3 _ x ltac:(lia) HR) as [HD HRg].
    rewrite (rd_delivers 4 b5 _ x ltac:(lia)); [f_equal; apply Z.mod_small; exact HRg|].
    apply D5; rewrite ?Zc; try lia. apply D4; rewrite ?Zc; try lia. exact HD. }
  assert (SL3 : forall i, 0 <= i < n + 1 -> rd 4 b3 (4 + i * 4) = Ok (4 * (n + 1 - i) + starts bl i + V)).
  { intros i Hi. destruct (Z.eq_dec i n) as [->|NE].
    - replace (4 + n * 4) with (4 + 4 * n) by lia. rewrite R3. f_equal. change (256 ^ 4) with 4294967296.
      replace (starts bl n) with D by (unfold n, D; symmetry; apply starts_all).
      rewrite Z.mod_small by (unfold toData; lia). unfold toData. lia.
    - apply F3; [lia|lia|change (Z.of_nat 4) with 4; lia|]. rewrite R2 by (apply zseq_in; lia). unfold o. f_equal. lia. }
  assert (RD6 : forall c x, 0 <= c -> c + 4 <= toData -> rd 4 b5 c = Ok x -> rd 4 b6 c = Ok x).
  { intros c x Hc1 Hc2 HR. destruct (delivers_rd 4 b5 _ x ltac:(lia) HR) as [HD HRg].
    rewrite (rd_delivers 4 b6 _ x ltac:(lia)); [f_equal; apply Z.mod_small; exact HRg|].
    apply D6; rewrite ?Zc; try lia. exact HD. }
  assert (CN5 : rd 4 b5 0 = Ok (n + 1)).
  { rewrite (rd_delivers 4 b5 0 (n + 1) ltac:(lia) CNT5). f_equal. apply Z.mod_small. change (256 ^ Z.of_nat 4) with 4294967296. lia. }
  assert (HINV : hinv ks b5 (bl ++ [q])).
  { assert (LB : zlen (bl ++ [q]) = n + 1) by (rewrite zlen_app; reflexivity).
    assert (LC : zlen (concat (bl ++ [q])) = D + (V + e)).
    { rewrite concat_app, zlen_app. cbn [concat]. rewrite app_nil_r, LQ. reflexivity. }
    constructor; rewrite ?LB, ?LC; auto.
    - exists m. split; [exact LB5|lia].
    - lia.
    - intros i Hi. rewrite starts_app by (fold n; lia). apply SLOT5; [lia|]. apply SL3. lia. }
  assert (SR6 : same_reads src sp b6 (toData + V) (- V) e).
  { intros j p Hj Hj2 Hp HR HD. apply delivers_served; auto; [unfold toData; lia|]. unfold b6; cbn [set_diffs b_diffs b_bytes].
    replace (toData + V + j) with (toData + (sp + j - (sp - V))) by lia.
    apply R6; auto; try lia. intros i Hi. apply readable_content; [apply (sc_mem _ _ _ _ SC)|lia|].
    replace i with (sp + (i - sp)) by lia. apply HR. lia. }
  set (l6 := mkL b6 np 4 n (4 * n + D)).
  assert (V6 : list_vlen l6 = Ok (n + 1)).
  { unfold list_vlen, l6. cbn [l_io l_pos]. apply RD6; try (unfold toData; lia). exact CN5. }
  assert (LAST : list_at k l6 n = Ok (Some (toData + V))).
  { apply (cp_at ks src sp e b6 (toData + V) SC SR6 l6 n (n + 1)); auto; [lia|]. cbn [l6 l_pos].
    rewrite (RD6 (4 + n * 4) (4 * (n + 1 - n) + starts bl n + V)); try (unfold toData; lia).
    - f_equal. unfold toData. replace (starts bl n) with D by (unfold n, D; symmetry; apply starts_all). lia.
    - apply SLOT5; [lia|]. apply SL3. lia. }
  assert (OLD : forall i, 0 <= i < n -> list_at k l6 i = Ok None).
  { intros i Hi. unfold list_at. rewrite V6. cbn [bind]. replace ((n + 1 <=? i) || (i <? 0)) with false by lia.
    cbn [fixed_size l6 l_io l_pos]. pose proof (OB i Hi). pose proof (starts_nonneg bl i).
    rewrite (RD6 (4 + i * 4) (4 * (n + 1 - i) + starts bl i + V)); try (unfold toData; lia).
    2: { apply SLOT5; [lia|]. apply SL3. lia. }
    cbn [bind]. set (t := 4 + i * 4 + _).
    assert (Ht : 8 + 4 * n + V <= t < toData) by (unfold t, toData; lia).
    rewrite base_r_beyond by (change (gs_len (b_bytes b6)) with (gs_len (b_bytes b5)); lia).
    assert (FN : find_last (covers t) (b_diffs b6) = None).
    { apply find_last_none_iff. intros d Hd. unfold b6 in Hd; cbn [set_diffs b_diffs] in Hd. unfold covers.
      apply in_app_or in Hd as [Hd|Hd].
      - rewrite Forall_forall in S5. destruct (S5 d Hd) as [(j & j2 & Q1 & Q2 & Q3 & Q4)|Q]; lia.
      - rewrite Forall_forall in F6. specialize (F6 d Hd). cbv beta in F6. lia. }
    rewrite FN. unfold reader_r0. destruct M6 as [RN _]. rewrite RN. cbn [last_index last_index_from].
    change (gs_len (b_bytes b6)) with (gs_len (b_bytes b5)).
    replace (gs_len (b_bytes b5) <? t + 4) with true by lia.
    replace (t + Z.max 1 4 <=? gs_len (b_bytes b5)) with false by lia. reflexivity. }
  assert (INF : elem_info k (l_io l6) (toData + V) = Ok (Some e)).
  { apply (cp_info ks src sp e b6 (toData + V) SC M6); auto. unfold toData; lia. }
  rewrite (refresh_last l6 n (toData + V) e HN eq_refl eq_refl V6 OLD LAST INF ltac:(unfold toData; lia)).
  cbn [bind l6 l_io l_npos].
  (* the file *)
  unfold write_elm. cbn [s_list s_w s_len l_io].
  assert (NE6 : b_diffs b6 <> nil).
  { unfold b6; cbn [set_diffs b_diffs]. rewrite L5. destruct ds5; discriminate. }
  destruct (b_diffs b6) as [|x6 r6] eqn:EB6; [congruence|]. rewrite <- EB6 in *. clear NE6 EB6 x6 r6.
  assert (V7 : list_vlen (mkL b6 np 4 (n + 1) (toData + V + e - 4)) = Ok (n + 1)) by exact V6.
  rewrite V7. cbn [bind l_pos].
  assert (EQ : base_r src 0 0 = Ok (Some (mkSlice q (sl_spare (b_bytes src))))).
  { destruct FL as [FR FD]. unfold base_r, writer_r. rewrite FD. cbn [last_index last_index_from].
    unfold gs_len. pose proof (zlen_nonneg (sl_data (b_bytes src))).
    replace (zlen (sl_data (b_bytes src)) <? 0) with false by lia.
    unfold gs_from. unfold gs_len. replace ((0 <=? 0) && (0 <=? zlen (sl_data (b_bytes src)))) with true by lia. cbn [bind].
    rewrite zskip_0. cbn [opt_len]. unfold gs_len. cbn [sl_data]. fold q. replace (zlen q =? 0) with false by lia. reflexivity. }
  rewrite EQ. cbn [bind opt_data sl_data]. destruct FL as [FR FD]. rewrite FD. cbn [write_diffs].
  replace (4 + (n + 1) * 4 + D) with toData by (unfold toData; lia).
  assert (KEEP : filter (fun d => negb ((toData + (sp - V) + (e + V) <=? d_off d + d_len d) || (toData <=? d_off d))) (b_diffs b6)
                 = b_diffs b5).
  { unfold b6; cbn [set_diffs b_diffs]. rewrite filter_app.
    rewrite (filter_keep _ _ (b_diffs b5)).
    - rewrite (filter_drop _ _ chunks); [apply app_nil_r|]. intros d Hd. rewrite Forall_forall in F6. specialize (F6 d Hd). cbv beta in F6.
      replace (toData <=? d_off d) with true by lia. rewrite orb_true_r. reflexivity.
    - intros d Hd. rewrite Forall_forall in S5. destruct (S5 d Hd) as [(j & j2 & Q1 & Q2 & Q3 & Q4)|Q]; unfold toData; lia. }
  rewrite KEEP. unfold set_io. cbn [l_npos l_pos l_vlen l_size].
  assert (EB : set_diffs b6 (b_diffs b5) = b5) by (destruct b5; reflexivity).
  rewrite EB. exists b5. eexists. split; [|split; [exact HINV|split]].
  - replace (toData + V + e - 4) with (4 * n + D + 4 + V + e) by (unfold toData; lia). reflexivity.
  - unfold f_write_at. replace (D <? 0) with false by lia. cbn [f_data]. rewrite HF. apply stored_end.
  - split; [exact SC|]. split; [exact LQ|]. apply flat_same; auto. split; assumption.
Qed.
End SetAt.
