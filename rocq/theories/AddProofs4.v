(** Joining two vectors of tables. *)
From Coq Require Import ZArith List Bool Lia.
From Coq Require Import Strings.Byte.
From Verif Require Import GoLib BaseModel GoLemmas BaseSpec BaseProofs BaseProofs2 BaseProofs3.
From Verif Require Import TableModel TableSpec TableProofs TableProofs2 ListModel ListSpec.
From Verif Require Import ListProofs ListProofs2 ListProofs3 ListProofs4 ListProofs5 AddModel AddSpec AddProofs AddProofs2 AddProofs3.
Import ListNotations.
Open Scope Z_scope.

Lemma copy_whole : forall b src ds p off dst, b_diffs src = ds ++ [mkDiff off (gs_of p)] -> 1 <= zlen p ->
  gs_len (b_bytes b) <= dst ->
  exists s, sl_data s = p /\
    base_copy b src off (zlen p) dst 0 = Ok (set_diffs b (b_diffs b ++ [mkDiff dst s])).
Proof.
  intros b src ds p off dst ED Hp Hd.
  exists (mkSlice p nil). split; [reflexivity|].
  assert (R : base_r src off (zlen p) = Ok (Some (mkSlice p nil))).
  { assert (C : covers off (mkDiff off (gs_of p)) = true).
    { apply covers_iff. cbn [d_off]. assert (d_len (mkDiff off (gs_of p)) = zlen p) by reflexivity. lia. }
    assert (F : find_last (covers off) (b_diffs src) = Some (mkDiff off (gs_of p))).
    { rewrite ED, find_last_app. cbn [find_last]. rewrite C. reflexivity. }
    unfold base_r, writer_r. pose proof (last_index_find_last _ (covers off) (b_diffs src)) as L.
    destruct (last_index (covers off) (b_diffs src)) as [n|]; [|congruence]. destruct L as [L1 L2].
    rewrite F in L1. rewrite L1. cbn [d_sl d_off].
    rewrite Z.sub_diag. rewrite gs_from_ok by (unfold gs_len; cbn [gs_of sl_data]; lia).
    cbn [bind gs_of sl_data sl_spare]. rewrite zskip_0. unfold opt_len, gs_len; cbn [sl_data].
    replace (zlen p =? 0) with false by lia. reflexivity. }
  unfold base_copy. destruct (dst <? gs_len (b_bytes b)) eqn:X; [lia|]. cbn [bind]. rewrite map_extend_0.
  assert (HF : exists f, Z.to_nat (zlen p) = S f) by (exists (Z.to_nat (zlen p) - 1)%nat; lia).
  destruct HF as [f ->]. cbn [copy_loop]. replace (off + zlen p <=? off) with false by lia.
  replace (zlen p - (off - off)) with (zlen p) by lia. rewrite R. cbn [bind].
  assert (G : gs_len (mkSlice p nil) = zlen p) by reflexivity. rewrite G.
  replace (zlen p =? 0) with false by lia. replace (zlen p <? zlen p) with false by lia. cbn [bind]. rewrite G.
  replace (off - off + dst) with dst by lia.
  destruct f; cbn [copy_loop]; replace (off + zlen p <=? off + zlen p) with true by lia; reflexivity.
Qed.

Section Tables.
Variable ks : list fkind.
Let V := vtable_size ks.
Notation k := (ETable ks).
Notation tinv := (tinv ks).
Notation tcore := (tcore ks).
Notation size := (appended_size ks).

Lemma nonempty_len : forall (es : list (base * Z * Z)), es <> nil -> 1 <= zlen es.
Proof. intros [|e es] H; [congruence|]. rewrite zlen_cons. pose proof (zlen_nonneg es). lia. Qed.

Lemma core_node : forall b np es ts, tcore b es ts -> np < 8 -> tinv (mkL b np 4 (zlen es) (size es)) es.
Proof. intros b np es ts C H. constructor; auto. exists ts. exact C. Qed.

Lemma core_refresh : forall l es ts, tcore (l_io l) es ts -> l_pos l = 4 -> (zlen es = 0 -> l_vlen l = 0) ->
  refresh k l = Ok (LOk (mkL (l_io l) (l_npos l) 4 (zlen es) (size es))).
Proof.
  intros l es ts C HP HV. unfold refresh. rewrite (core_info ks (l_io l) es ts l C eq_refl HP HV). reflexivity.
Qed.

Lemma tinv_refresh : forall l es, tinv l es ->
  refresh k l = Ok (LOk (mkL (l_io l) (l_npos l) 4 (zlen es) (size es))).
Proof.
  intros l es I. destruct (ti_core _ _ _ I) as [ts C]. apply (core_refresh l es ts C (ti_pos _ _ _ I)).
  intros H. rewrite (ti_vlen _ _ _ I). exact H.
Qed.

Lemma tinv_dup : forall l es, tinv l es ->
  list_dup k l = Ok (LOk (mkL (base_dup (l_io l)) (l_npos l) 4 (zlen es) (size es))).
Proof.
  intros l es I. destruct (ti_core _ _ _ I) as [ts C]. unfold list_dup.
  rewrite (core_refresh (set_io l (base_dup (l_io l))) es ts); [reflexivity|apply core_dup; exact C|apply (ti_pos _ _ _ I)|].
  intros H. cbn [set_io l_vlen]. rewrite (ti_vlen _ _ _ I). exact H.
Qed.

Lemma Zc4 : forall v, zlen (le_encode 4 v) = 4.
Proof. intros. apply zlen_le_encode. Qed.

Lemma core_root : forall b es ts np, tcore b es ts -> np < 8 -> in_root b np = Ok false.
Proof.
  intros b es ts np C H. apply (in_root_outside b (le_encode 4 (zlen es))); auto.
  - apply (tc_mem _ _ _ _ C).
  - rewrite Zc4. lia.
  - apply (tc_count _ _ _ _ C).
Qed.

(** Room of [g] bytes behind the slots. *)
Lemma open_spec : forall l es ts g, tcore (l_io l) es ts -> l_npos l < 8 -> l_pos l = 4 -> es <> nil -> 0 <= g ->
  size es + g < 4294967296 - 4 ->
  exists b' ds p, open_space l (4 + 4 * zlen es) g = Ok (Some (set_io l b')) /\
    in_memory b' /\ gs_len (b_bytes b') = 4 /\
    Forall (shp (zlen es) (size es + g)) (b_diffs b') /\
    (Forall (fun d => 4 + 4 * zlen es + g <= d_off d) (tail (zlen es) (b_diffs b'))) /\
    no_inner_start (tail (zlen es) (b_diffs b')) /\
    b_diffs b' = ds ++ [mkDiff 4 (gs_of p)] /\ zlen p = 4 * zlen es /\
    (forall i t, zget ts i = Some t -> zfirst 4 (zskip (4 * i) p) = le_encode 4 (t + g - (4 + i * 4))) /\
    (forall i t, zget ts i = Some t -> rd 4 b' (4 + i * 4) = Ok (t + g - (4 + i * 4))) /\
    delivers b' 0 (le_encode 4 (zlen es)) /\
    (forall c q, 4 + 4 * zlen es <= c -> 1 <= zlen q -> delivers (l_io l) c q -> delivers b' (c + g) q).
Proof.
  intros l es ts g C HP HP4 HN Hg HM. pose proof C as [C1 C2 C3 C4 C5 C6 C7 C8 C9].
  pose proof (nonempty_len es HN) as HL. set (n := zlen es) in *. set (b0 := l_io l) in *.
  pose proof (size_ge ks es (core_all ks _ _ _ C)) as HSZ. fold n in HSZ. pose proof (V_ge ks) as HV.
  unfold open_space, list_insert_space. fold b0.
  assert (BS0 : Forall (beside (4 + 4 * n)) (b_diffs b0)).
  { eapply Forall_impl; [|exact C6]. intros d. apply shp_beside. }
  rewrite (insert_space_beside b0 (4 + 4 * n) g false ltac:(lia) ltac:(lia) BS0). cbn [bind].
  rewrite app_nil_r. rewrite (core_root b0 es ts (l_npos l) C HP). cbn [bind]. rewrite HP4.
  replace (4 + 4 * n <? 4) with false by lia. cbn [l_io l_npos].
  set (b1 := mkBase _ _ _ _ _).
  assert (M1 : in_memory b1).
  { split; [reflexivity|]. unfold b1; cbn [b_diffs]. apply Forall_forall. intros d Hd. apply in_map_iff in Hd as (e & <- & He).
    destruct C1 as [_ X]. rewrite Forall_forall in X. specialize (X e He). rewrite shift_off.
    destruct (4 + 4 * n <=? d_off e); lia. }
  assert (LOW1 : forall c q, 0 <= c -> 1 <= zlen q -> c + zlen q <= 4 + 4 * n -> delivers b0 c q -> delivers b1 c q).
  { intros c q Hc Hq HC HD. apply delivers_served in HD; auto. apply delivers_served; auto.
    unfold b1; cbn [b_diffs b_bytes]. apply served_shift_low; auto; lia. }
  assert (HIGH1 : forall c q, 1 <= zlen q -> 4 + 4 * n <= c -> delivers b0 c q -> delivers b1 (c + g) q).
  { intros c q Hq HC HD. apply delivers_served in HD; auto; [|lia]. apply delivers_served; auto; [lia|].
    unfold b1; cbn [b_diffs b_bytes]. apply served_shift_high; auto; try lia. unfold gs_len in C2. lia. }
  assert (S1 : Forall (shp n (size es + g)) (b_diffs b1)).
  { unfold b1; cbn [b_diffs]. apply Forall_forall. intros d Hd. apply in_map_iff in Hd as (e & <- & He).
    rewrite Forall_forall in C6. apply shp_gap; auto. }
  assert (T1 : tail n (b_diffs b1) = map (ins_shift (4 + 4 * n) g) (tail n (b_diffs b0))) by (apply tail_gap; exact Hg).
  assert (CNT1 : delivers b1 0 (le_encode 4 n)) by (apply LOW1; rewrite ?Zc4; try lia; exact C5).
  assert (B1 : gs_len (b_bytes b1) = 4) by exact C2.
  rewrite (in_root_outside b1 _ (l_npos l) M1 ltac:(rewrite Zc4; lia) CNT1 HP). cbn [bind].
  set (l1 := mkL b1 (l_npos l) 4 (l_vlen l) (l_size l)).
  set (o := fun i => match zget ts i with Some t => t - (4 + i * 4) | None => 0 end).
  assert (HV1 : list_vlen l1 = Ok n).
  { unfold list_vlen, l1. cbn [l_io l_pos]. change (4 - 4) with 0. rewrite (rd_delivers 4 b1 0 n ltac:(lia) CNT1).
    f_equal. apply Z.mod_small. change (256 ^ Z.of_nat 4) with 4294967296. lia. }
  destruct (move_spec l1 n (size es + g) g o M1 ltac:(cbn [l1 l_io]; lia) S1 eq_refl HV1 HL)
    as (b2 & ds & p & EM & M2 & B2 & S2 & T2 & ED & LP & SL & R2 & F2).
  { intros i Hi. destruct (zget_some ts i ltac:(lia)) as [t Ht]. unfold o. rewrite Ht.
    destruct (zget_some es i ltac:(fold n; lia)) as [[[s1 p1] e1] He].
    destruct (C8 i t s1 p1 e1 Ht He) as (SC1 & Q1 & Q2 & _). pose proof (sc_min _ _ _ _ SC1). split; [|lia].
    destruct (delivers_rd 4 b0 _ _ ltac:(lia) (C7 i t Ht)) as [HD HRg].
    cbn [l1 l_io]. rewrite (rd_delivers 4 b1 _ (t - (4 + i * 4)) ltac:(lia)); [f_equal; apply Z.mod_small; exact HRg|].
    apply LOW1; rewrite ?Zc4; try lia. exact HD. }
  rewrite EM. cbn [bind l1 l_io] in *. exists b2, ds, p. split.
  { do 2 f_equal. unfold set_io, l1. cbn [l_npos l_pos l_vlen l_size]. rewrite HP4. reflexivity. }
  split; [exact M2|]. split; [rewrite B2; exact B1|]. split; [exact S2|].
  split. { rewrite T2, T1. apply Forall_forall. intros d Hd. apply in_map_iff in Hd as (e & <- & He).
    apply filter_In in He as [_ He]. rewrite shift_off. rewrite He. lia. }
  split. { rewrite T2, T1. apply clean_map_shift; [exact C9|apply tail_behind]. }
  split; [exact ED|]. split; [exact LP|].
  assert (OI : forall i t, zget ts i = Some t -> 0 <= i < n /\ o i + g = t + g - (4 + i * 4)).
  { intros i t Ht. pose proof (zget_some_range _ _ _ Ht). unfold o. rewrite Ht. lia. }
  split. { intros i t Ht. destruct (OI i t Ht) as [Hi <-]. apply SL. exact Hi. }
  split. { intros i t Ht. destruct (OI i t Ht) as [Hi <-]. apply R2. exact Hi. }
  split. { apply F2; rewrite ?Zc4; try lia. exact CNT1. }
  intros c q Hc Hq HD. apply F2; try lia. apply HIGH1; auto.
Qed.

(** The table elements of a vector which was moved up. *)
Lemma opened_shows : forall l es ts g b', tcore (l_io l) es ts -> 0 <= g -> in_memory b' ->
  (forall i t, zget ts i = Some t -> rd 4 b' (4 + i * 4) = Ok (t + g - (4 + i * 4))) ->
  delivers b' 0 (le_encode 4 (zlen es)) ->
  (forall c q, 4 + 4 * zlen es <= c -> 1 <= zlen q -> delivers (l_io l) c q -> delivers b' (c + g) q) ->
  l_pos l = 4 -> shows_tables ks (set_io l b') es.
Proof.
  intros l es ts g b' C Hg M' HR HC HD HP. pose proof (zlen_nonneg es) as HN. pose proof (V_ge ks) as HV.
  pose proof (size_ge ks es (core_all ks _ _ _ C)) as HSZ. pose proof (tc_max _ _ _ _ C) as HM.
  assert (LV : list_vlen (set_io l b') = Ok (zlen es)).
  { unfold list_vlen, set_io. cbn [l_io l_pos]. rewrite HP. change (4 - 4) with 0.
    rewrite (rd_delivers 4 b' 0 (zlen es) ltac:(lia) HC). f_equal. apply Z.mod_small.
    change (256 ^ Z.of_nat 4) with 4294967296. lia. }
  split; [exact LV|]. intros i src sp s He. pose proof (zget_some_range _ _ _ He) as R.
  destruct (zget_some ts i ltac:(rewrite (tc_len _ _ _ _ C); lia)) as [t Ht].
  destruct (tc_elem _ _ _ _ C _ _ _ _ _ Ht He) as (SC & P1 & P2 & P3 & P0 & SR).
  assert (SR' : same_reads src sp b' (t + g) (- vtable_size ks) s).
  { intros c q Hc Hc2 Hq HRd HDl. replace (t + g + c) with (t + c + g) by lia. apply HD; auto; lia. }
  exists (t + g). cbn [set_io l_io]. split.
  - apply (cp_at ks src sp s b' (t + g) SC SR' (set_io l b') i (zlen es)); auto.
    cbn [set_io l_pos]. rewrite HP. exact (HR i t Ht).
  - split; [exact SR'|]. intros j Hj. apply (cp_entry ks src sp s b' (t + g) SC M'); auto. lia.
Qed.

Lemma tinv_shows : forall l es, tinv l es -> shows_tables ks l es.
Proof.
  intros l es I. destruct (ti_core _ _ _ I) as [ts C].
  replace l with (set_io l (l_io l)) by (destruct l; reflexivity).
  apply (opened_shows l es ts 0 (l_io l) C); try lia.
  - apply (tc_mem _ _ _ _ C).
  - intros i t Ht. rewrite (tc_slot _ _ _ _ C i t Ht). f_equal. lia.
  - apply (tc_count _ _ _ _ C).
  - intros c q _ _ H. rewrite Z.add_0_r. exact H.
  - apply (ti_pos _ _ _ I).
Qed.

Lemma join_step : forall l a A B, tinv l A -> tinv a B -> A <> nil -> B <> nil -> all_gapless ks B ->
  size (A ++ B) < 4294967296 - 4 ->
  exists l' a', add_table_list ks false l a = Ok (AOk l' a') /\ tinv l' (A ++ B) /\ shows_tables ks a' B.
Proof.
  intros l a A B IA IB NA NB GB HM. rewrite size_app in HM.
  destruct (ti_core _ _ _ IA) as [ta CA]. destruct (ti_core _ _ _ IB) as [tb CB].
  pose proof (nonempty_len A NA) as HLA. pose proof (nonempty_len B NB) as HLB. pose proof (V_ge ks) as HV4. fold V in HV4.
  pose proof (size_ge ks A (core_all ks _ _ _ CA)) as HSA. pose proof (size_ge ks B (core_all ks _ _ _ CB)) as HSB.
  set (n := zlen A) in *. set (m := zlen B) in *. set (SA := size A) in *. set (SB := size B) in *.
  unfold add_table_list.
  rewrite (core_count ks _ _ _ a CB eq_refl (ti_pos _ _ _ IB)). fold m. cbn [bind].
  replace (m =? 0) with false by lia.
  rewrite (core_count ks _ _ _ l CA eq_refl (ti_pos _ _ _ IA)). fold n. cbn [bind].
  replace (n =? 0) with false by lia.
  rewrite (vlen_total_tables ks l A IA). fold n SA. cbn [bind l_vlen].
  set (l1 := mkL (l_io l) (l_npos l) 4 n SA).
  assert (I1 : tinv l1 A) by (apply (core_node _ _ _ ta); [exact CA|apply (ti_npos _ _ _ IA)]).
  rewrite (tinv_refresh l1 A I1). cbn [bind l1 l_io l_npos]. fold n SA. fold l1.
  cbn [change_list fst snd].
  destruct (core_min ks (l_io l) A ta l1 CA eq_refl eq_refl eq_refl NA) as (i & -> & EA & EV). fold V n in EA, EV.
  cbn [bind]. rewrite EA. cbn [bind].
  destruct (core_max ks (l_io l) A ta l1 CA eq_refl eq_refl eq_refl NA) as (j & t & s & -> & EA2 & _).
  cbn [bind]. rewrite EA2. cbn [bind]. cbn [l1 l_io l_pos l_size]. fold l1. rewrite EV. cbn [bind].
  rewrite (core_count ks _ _ _ l1 CA eq_refl eq_refl). fold n. cbn [bind].
  rewrite (tinv_dup a B IB). cbn [bind]. fold m SB.
  set (a1 := mkL (base_dup (l_io a)) (l_npos a) 4 m SB).
  pose proof (core_dup ks _ _ _ CB) as CB1.
  assert (IB1 : tinv a1 B) by (apply (core_node _ _ _ tb); [exact CB1|apply (ti_npos _ _ _ IB)]).
  rewrite (tinv_refresh a1 B IB1). cbn [bind a1 l_io l_npos]. fold m SB. fold a1.
  cbn [change_arg fst snd].
  destruct (core_max ks _ B tb a1 CB1 eq_refl eq_refl eq_refl NB) as (j2 & t2 & s2 & -> & EB2 & EI2).
  cbn [bind]. rewrite EB2. cbn [bind].
  destruct (core_min ks _ B tb a1 CB1 eq_refl eq_refl eq_refl NB) as (i2 & -> & EB & EVB). fold V m in EB, EVB.
  cbn [bind]. rewrite EB. cbn [bind]. cbn [a1 l_io l_pos l_size l_vlen]. fold a1. rewrite EI2. cbn [bind].
  rewrite (core_count ks _ _ _ a1 CB1 eq_refl eq_refl). fold m. cbn [bind]. rewrite EVB. cbn [bind].
  replace (4 + 4 * m + V - V) with (4 + 4 * m) by lia.
  replace (4 + SA - (4 + 4 * n + V - V)) with (SA - 4 * n) by lia.
  (* the argument is moved up *)
  destruct (open_spec a1 B tb (SA - 4 * n) CB1 (ti_npos _ _ _ IB) eq_refl NB ltac:(lia) ltac:(fold SB; lia))
    as (ba & dsa & pa & EOA & MA & BA & ShA & TlA & ClA & EDA & LPA & SLA & RDA & CNA & MVA).
  fold m SB in EOA, ShA, TlA, ClA, LPA, CNA, MVA. rewrite EOA. cbn [bind].
  cbn [change_arg fst snd].
  (* the list gets room for the slots *)
  destruct (open_spec l1 A ta (4 * m) CA (ti_npos _ _ _ IA) eq_refl NA ltac:(lia) ltac:(fold SA; lia))
    as (bl & dsl & pl & EOL & ML & BL & ShL & TlL & ClL & EDL & LPL & SLL & RDL & CNL & MVL).
  fold n SA in EOL, ShL, TlL, ClL, LPL, CNL, MVL.
  replace (m * 4) with (4 * m) by lia. rewrite EOL. cbn [bind].
  cbn [change_list fst snd set_io l_io l_pos l_npos l_vlen l_size].
  (* the new count *)
  change (4 - 4) with 0.
  assert (UN : u32 (n + m) = n + m).
  { unfold u32. change (2 ^ 32) with 4294967296. apply Z.mod_small. lia. }
  cbn [l1 a1 l_pos l_vlen]. change (4 - 4) with 0. rewrite UN.
  destruct (u_delivers bl 0 (le_encode 4 (n + m)) ML ltac:(lia) ltac:(rewrite Zc4; lia))
    as (b2 & E2 & M2 & B2 & _ & CN2 & D2).
  rewrite Zc4 in E2, D2. rewrite E2. cbn [bind].
  destruct (u_word bl n (SA + 4 * m) 0 (n + m) b2 ShL ltac:(lia) ltac:(rewrite <- E2; reflexivity)) as [Sh2 Tl2].
  unfold copy_into. cbn [change_list fst snd set_io l_io l_pos].
  (* the slots *)
  destruct (copy_whole b2 ba dsa pa 4 (4 + 4 * n) EDA ltac:(lia) ltac:(rewrite B2; lia)) as (sh & ESh & EC).
  rewrite LPA in EC. rewrite EC. cbn [bind change_list fst snd set_io l_io l_pos].
  set (b3 := set_diffs b2 _) in *.
  assert (LSh : d_len (mkDiff (4 + 4 * n) sh) = 4 * m).
  { unfold d_len, gs_len. cbn [d_sl]. rewrite ESh. exact LPA. }
  assert (M3 : in_memory b3).
  { destruct M2 as [X Y]. split; [exact X|]. unfold b3; cbn [set_diffs b_diffs]. apply Forall_app; split; [exact Y|].
    constructor; [cbn [d_off]; lia|constructor]. }
  assert (D3 : forall c q, 0 <= c -> 1 <= zlen q -> c + zlen q <= 4 + 4 * n \/ 4 + 4 * n + 4 * m <= c ->
                 delivers b2 c q -> delivers b3 c q).
  { intros c q Hc Hq HC HD. apply delivers_served; auto. apply delivers_served in HD; auto.
    unfold b3; cbn [set_diffs b_diffs b_bytes]. apply served_app; auto. unfold misses. rewrite LSh. cbn [d_off]. lia. }
  (* the tables *)
  replace (4 + 4 * m + (4 + SA) - (4 + 4 * n + V - V)) with (4 + 4 * m + (SA - 4 * n)) by lia.
  replace (4 + SB - (4 + 4 * m)) with (SB - 4 * m) by lia.
  assert (BSA : Forall (beside (4 + 4 * m)) (b_diffs ba)).
  { eapply Forall_impl; [|exact ShA]. intros d. apply shp_beside. }
  destruct (copy_cells_behind b3 ba (4 + 4 * m) (4 + 4 * m + (SA - 4 * n)) (SB - 4 * m) (4 + SA + 4 * m)
              MA ltac:(lia) BSA ClA ltac:(lia) ltac:(lia)
              ltac:(cbn [b3 set_diffs b_bytes]; rewrite B2; lia)) as (chunks & E4 & F4 & CK & R4).
  rewrite E4. cbn [bind change_list fst snd set_io l_io l_pos].
  set (b4 := set_diffs b3 _) in *.
  assert (M4 : in_memory b4).
  { destruct M3 as [X Y]. split; [exact X|]. unfold b4; cbn [set_diffs b_diffs].
    apply Forall_app; split; [exact Y|]. eapply Forall_impl; [|exact F4]. cbv beta. intros d Hd. lia. }
  assert (D4 : forall c q, 0 <= c -> 1 <= zlen q -> c + zlen q <= 4 + SA + 4 * m -> delivers b3 c q -> delivers b4 c q).
  { intros c q Hc Hq HC HD. apply delivers_served; auto. apply delivers_served in HD; auto.
    unfold b4; cbn [set_diffs b_diffs b_bytes]. apply served_apps; auto.
    eapply Forall_impl; [|exact F4]. cbv beta. intros d Hd. right. lia. }
  assert (LE : zlen (A ++ B) = n + m) by (rewrite zlen_app; reflexivity).
  assert (LTA : zlen ta = n) by apply (tc_len _ _ _ _ CA). assert (LTB : zlen tb = m) by apply (tc_len _ _ _ _ CB).
  assert (CORE : tcore b4 (A ++ B) (map (fun t => t + 4 * m) ta ++ map (fun t => t + SA) tb)).
  { constructor.
    - exact M4.
    - cbn [b4 b3 set_diffs b_bytes]. rewrite B2. exact BL.
    - rewrite zlen_app, !zlen_map, LE. lia.
    - rewrite size_app. fold SA SB. lia.
    - rewrite LE. apply D4; rewrite ?Zc4; try lia. apply D3; rewrite ?Zc4; try lia. exact CN2.
    - rewrite LE, size_app. fold SA SB. unfold b4, b3; cbn [set_diffs b_diffs].
      apply Forall_app; split; [apply Forall_app; split|].
      + apply Forall_forall. intros d Hd. rewrite Forall_forall in Sh2. pose proof (Sh2 d Hd) as HS.
        destruct HS as [(x & y & H1 & H2 & H3 & H4)|HS]; [left; exists x, y; lia|].
        assert (HT : In d (tail n (b_diffs b2))) by (apply filter_In; split; [exact Hd|lia]).
        rewrite Tl2 in HT. rewrite Forall_forall in TlL. specialize (TlL d HT). right. lia.
      + constructor; [|constructor]. left. exists (n + 1), (n + m + 1). rewrite LSh. cbn [d_off]. lia.
      + eapply Forall_impl; [|exact F4]. cbv beta. intros d Hd. right. lia.
    - intros x t0 Ht. rewrite zget_app, zlen_map, LTA in Ht. destruct (x <? n) eqn:X.
      + rewrite zget_map in Ht. destruct (zget ta x) as [t1|] eqn:E; [|discriminate]. cbn [option_map] in Ht.
        assert (t0 = t1 + 4 * m) by congruence. subst t0. pose proof (zget_some_range _ _ _ E).
        destruct (delivers_rd 4 bl _ _ ltac:(lia) (RDL x t1 E)) as [HD HRg].
        rewrite (rd_delivers 4 b4 _ (t1 + 4 * m - (4 + x * 4)) ltac:(lia)); [f_equal; apply Z.mod_small; exact HRg|].
        apply D4; rewrite ?Zc4; try lia. apply D3; rewrite ?Zc4; try lia. apply D2; rewrite ?Zc4; try lia. exact HD.
      + rewrite zget_map in Ht. destruct (zget tb (x - n)) as [t1|] eqn:E; [|discriminate]. cbn [option_map] in Ht.
        assert (t0 = t1 + SA) by congruence. subst t0. pose proof (zget_some_range _ _ _ E).
        pose proof (SLA _ _ E) as HS. destruct (delivers_rd 4 ba _ _ ltac:(lia) (RDA _ t1 E)) as [_ HRg].
        replace (t1 + SA - (4 + x * 4)) with (t1 + (SA - 4 * n) - (4 + (x - n) * 4)) by lia.
        rewrite (rd_delivers 4 b4 _ (t1 + (SA - 4 * n) - (4 + (x - n) * 4)) ltac:(lia)); [f_equal; apply Z.mod_small; exact HRg|].
        apply D4; rewrite ?Zc4; try lia. apply delivers_served; rewrite ?Zc4; auto; try lia.
        unfold b3; cbn [set_diffs b_diffs b_bytes]. unfold served. rewrite find_last_app. cbn [find_last].
        replace (covers (4 + x * 4) (mkDiff (4 + 4 * n) sh)) with true.
        2: { symmetry. apply covers_iff. rewrite LSh. cbn [d_off]. lia. }
        cbv iota. rewrite LSh. cbn [d_off]. rewrite Zc4. split; [lia|]. unfold d_data. cbn [d_sl]. rewrite ESh.
        replace (4 + x * 4 - (4 + 4 * n)) with (4 * (x - n)) by lia. exact HS.
    - intros x t0 src sp s0 Ht He. rewrite LE, size_app. fold SA SB.
      rewrite zget_app, zlen_map, LTA in Ht. rewrite zget_app in He. fold n in He. destruct (x <? n) eqn:X.
      + rewrite zget_map in Ht. destruct (zget ta x) as [t1|] eqn:E; [|discriminate]. cbn [option_map] in Ht.
        assert (t0 = t1 + 4 * m) by congruence. subst t0. pose proof (zget_some_range _ _ _ E).
        destruct (tc_elem _ _ _ _ CA x t1 src sp s0 E He) as (SC1 & Q1 & Q2 & Q3 & Q0 & Q4). fold n SA V in Q1, Q2, Q3, Q0, Q4.
        pose proof (sc_min _ _ _ _ SC1).
        split; [exact SC1|]. fold V. split; [lia|]. split; [lia|]. split; [lia|].
        split; [rewrite zfirst_app_le by (fold n; lia); lia|].
        intros c q Hc Hc2 Hq HR HD. replace (t1 + 4 * m + c) with (t1 + c + 4 * m) by lia.
        apply D4; try lia. apply D3; try lia. apply D2; try lia. apply MVL; try lia. apply Q4; auto.
      + rewrite zget_map in Ht. destruct (zget tb (x - n)) as [t1|] eqn:E; [|discriminate]. cbn [option_map] in Ht.
        assert (t0 = t1 + SA) by congruence. subst t0. pose proof (zget_some_range _ _ _ E).
        destruct (tc_elem _ _ _ _ CB1 (x - n) t1 src sp s0 E He) as (SC1 & Q1 & Q2 & Q3 & Q0 & Q4).
        fold m SB V in Q1, Q2, Q3, Q0, Q4. pose proof (sc_min _ _ _ _ SC1).
        split; [exact SC1|]. fold V. split; [lia|]. split; [lia|]. split; [lia|].
        split. { assert (EZ : zfirst x (A ++ B) = A ++ zfirst (x - n) B).
          { apply zget_ext. intros y. rewrite zget_zfirst, !zget_app, zget_zfirst. fold n.
            destruct (y <? n) eqn:Y; destruct (y <? x) eqn:Y2; destruct (y - n <? x - n) eqn:Y3; try reflexivity; lia. }
          rewrite EZ, size_app. fold SA. lia. }
        intros c q Hc Hc2 Hq HR HD. apply delivers_served; auto; [lia|].
        unfold b4; cbn [set_diffs b_diffs b_bytes].
        replace (t1 + SA + c) with (4 + SA + 4 * m + (t1 + c + (SA - 4 * n) - (4 + 4 * m + (SA - 4 * n)))) by lia.
        apply R4; try lia.
        * apply MVA; try lia. apply Q4; auto.
        * intros y Hy. pose proof (core_solid ks _ _ _ (y - (SA - 4 * n)) CB1 GB ltac:(fold m SB; lia)) as HS.
          destruct (cell_delivers _ _ HS) as [z Hz]. apply (delivers_cell ba y z MA ltac:(lia)).
          replace y with (y - (SA - 4 * n) + (SA - 4 * n)) by lia. apply MVA; auto; [lia|]. change (zlen [z]) with 1. lia.
    - rewrite LE. unfold b4, b3; cbn [set_diffs b_diffs]. rewrite !tail_app.
      rewrite (tail_none (n + m) [_]) by (repeat constructor; cbn [d_off]; lia). rewrite app_nil_r.
      rewrite (tail_all (n + m) chunks).
      2: { eapply Forall_impl; [|exact F4]. cbv beta. intros d Hd. lia. }
      assert (ET : tail (n + m) (b_diffs b2) = tail n (b_diffs b2)).
      { apply filter_ext_in. intros d Hd. rewrite Forall_forall in Sh2. pose proof (Sh2 d Hd) as HS.
        destruct (4 + 4 * n <=? d_off d) eqn:Y; [|lia].
        assert (HT : In d (tail n (b_diffs b2))) by (apply filter_In; split; [exact Hd|exact Y]).
        rewrite Tl2 in HT. rewrite Forall_forall in TlL. specialize (TlL d HT). lia. }
      rewrite ET, Tl2. apply clean_app; [exact ClL|exact CK|]. intros d e Hd He. right.
      rewrite <- Tl2 in Hd. apply filter_In in Hd as [Hd _]. rewrite Forall_forall in Sh2, F4. specialize (Sh2 d Hd). specialize (F4 e He).
      destruct Sh2 as [(x & y & H1 & H2 & H3 & H4)|HS]; lia. }
  match goal with |- context [refresh k ?x] => rewrite (core_refresh x (A ++ B) _ CORE eq_refl) end.
  2: { rewrite LE. lia. }
  cbn [bind l_io l_npos]. do 2 eexists. split; [reflexivity|]. split.
  - apply (core_node _ _ _ _ CORE). apply (ti_npos _ _ _ IA).
  - exact (opened_shows a1 B tb (SA - 4 * n) ba CB1 ltac:(lia) MA RDA CNA MVA eq_refl).
Qed.

End Tables.
