(** The calls of the builder that store references. *)
From Coq Require Import ZArith List Bool Lia String.
From Coq Require Import Strings.Byte.
From Verif Require Import GoLib BaseModel GoLemmas BaseSpec BaseProofs BaseProofs2 BaseProofs3.
From Verif Require Import TableModel TableSpec TableProofs TableProofs2 NameModel NameSpec.
From Verif Require Import WalkModel WalkSpec WalkProofs WalkProofs2 WalkProofs3 WalkProofs4.
From Verif Require Import EqualSpec BuildModel BuildSpec BuildProofs BuildProofs2 BuildProofs3 BuildProofs4.
Import ListNotations.
Open Scope list_scope.
Open Scope Z_scope.

Lemma flat_source : forall fb, flat fb -> in_memory fb /\ reads_current fb /\
  forall q, content fb q = img_bytes (sl_data (b_bytes fb)) q.
Proof.
  intros fb HF. pose proof (TableProofs.flat_in_memory fb HF) as M. split; [exact M|].
  split; [|intros; apply flat_content; auto]. apply reads_current_ok; auto.
  destruct HF as [_ ->]. intros l1 d l2 e l3 E. destruct l1; discriminate.
Qed.

Lemma flat_defined : forall fb lo k, flat fb -> 0 <= lo -> lo + k <= zlen (sl_data (b_bytes fb)) ->
  forall j, 0 <= j < k -> content fb (lo + j) <> None.
Proof.
  intros fb lo k HF Hl Hk j Hj. rewrite flat_content by auto. unfold img_bytes.
  destruct (zget_some (sl_data (b_bytes fb)) (lo + j)) as [x ->]; [lia|discriminate].
Qed.

Lemma window_sub : forall fb lo hi q x, flat fb ->
  window (img_bytes (sl_data (b_bytes fb))) lo hi q = Some x -> 0 <= q /\ img_bytes (sl_data (b_bytes fb)) q = Some x.
Proof.
  intros fb lo hi q x HF H. apply window_some in H as [_ H]. split; [|exact H].
  unfold img_bytes in H. apply zget_some_range in H. lia.
Qed.

(** The sizes computed for a vector in a buffer of its own. *)
Section Info.
Variable n : names.
Variable s : schema.
Hypothesis HD : describes n s.

Lemma vector_reach : forall m t q v, stored_vector m s t q v -> q <= reach v.
Proof.
  intros m t q v H. destruct t; destruct v; cbn [stored_vector] in H; try contradiction; destruct H as (-> & -> & H1 & H2);
    cbn [reach]; pose proof (proj1 H1) as HK.
  - pose proof (zwidth_pos t). nia.
  - pose proof (struct_size_nonneg members). nia.
  - pose proof (proj1 (fold_max_le (map reach es) (q + 4 * zlen es) _) (Z.le_refl _)) as [X _]. lia.
Qed.

Lemma vector_info : forall fb t q v nd f typ name i g, flat fb -> 4 <= q ->
  stored_vector (img_bytes (sl_data (b_bytes fb))) s t q v -> measured v ->
  field_described n name i t typ g -> c_name f = typ ->
  f = new_node n (Some nd) (mkV q (reach v - q) (vector_len v)) (c_name f) ->
  exists k, forall fuel, (k <= fuel)%nat ->
    exists r, info_slice n fb (node_info n fb fuel) f = Ok r /\ v_size r = reach v - q.
Proof.
  intros fb t q v nd f typ name i g HF Hq H HM HG Hn Hf. rewrite Hn in Hf.
  destruct t; destruct v; cbn [stored_vector] in H; try contradiction; destruct H as (-> & -> & H1 & H2);
    cbn [reach vector_len] in Hf |- *; cbn [field_described] in HG.
  - destruct HG as (_ & e & -> & He & _). exists 0%nat. intros fuel _. eexists. split.
    + rewrite Hf. apply slice_scalars; eauto.
    + cbn [v_size]. lia.
  - destruct HG as (_ & -> & HG). exists 1%nat. intros fuel Hfu. destruct fuel as [|fuel]; [lia|]. eexists. split.
    + rewrite Hf. apply slice_structs; eauto. apply node_info_good.
    + cbn [v_size]. lia.
  - destruct HG as (_ & -> & HG). assert (M1 : forall e, In e es -> reach e <= reach (last es (Absent (TyTable name0)))) by (inversion HM; auto).
    assert (M2 : Forall measured es) by (inversion HM; auto).
    destruct (proj2 (proj2 (proj2 (info_stored n fb s HF HD))) q name0 es H2 M2) as [k Hk].
    exists (S k). intros fuel Hfu. eexists. split.
    + rewrite Hf. eapply slice_tables; eauto.
      * destruct fuel as [|fuel]; [lia|]. apply node_info_good.
      * cbn [WalkProofs3.sub_ok]. split; [|exact M1]. apply Hk. lia.
    + reflexivity.
Qed.

End Info.

Section Table.
Variable n : names.
Variable s : schema.
Variable name : string.
Variable tys : list ty.
Hypothesis HD : describes n s.
Hypothesis HS : s name = Some tys.
Hypothesis HB : buildable tys.

Notation ks := (kinds (new_node n None no_vinfo name)).
Notation sizes := (map field_size tys).
Notation tp := (TableProofs2.tpos ks).
Notation c := (new_node n (Some (tp, -1)) no_vinfo name).
Notation ginv := (ginv ks sizes).
Notation bst := (bst n s name tys).
Notation sizes_pos := (sizes_pos tys HB).
Notation ref_size := (ref_size n s name tys HD HS).
Notation g_zero := (grid_is_zero ks sizes sizes_pos ref_size).
Notation g_virtual := (grid_virtual_table ks sizes sizes_pos ref_size).
Notation g_preload := (grid_preload ks sizes sizes_pos ref_size).

(** Reading a field of [k] bytes. *)
Lemma grid_rd : forall b vt tl vals i e k o, ginv b vt tl vals -> zget vt i = Some e -> e <> 0 ->
  zget sizes i = Some (Z.of_nat k) -> (1 <= k)%nat -> vals i = Some (le_encode k o) -> 0 <= o < 256 ^ Z.of_nat k ->
  rd k b (tp + e) = Ok o.
Proof.
  intros b vt tl vals i e k o G Hi He Hz Hk Hv Ho.
  destruct (g_field _ _ _ _ _ _ G i e Hi He) as (z & p & A1 & A2 & A3 & A4 & A5 & A6).
  assert (z = Z.of_nat k) by congruence. assert (p = le_encode k o) by congruence. subst z p.
  assert (0 <= tp) by (rewrite (tp_eq n s name tys HD HS); pose proof (zlen_nonneg tys); lia).
  apply rd_whole; [apply G|lia|lia| |].
  - eapply (grid_whole ks sizes); eauto; try apply sizes_pos; try apply ref_size; [lia|].
    right. right. right. exists i, e. auto.
  - apply holds_uint_encode; auto. intros q Hq. apply A6. lia.
Qed.

Notation all_absent st := (forall j t', zget tys j = Some t' -> is_ref t' = true -> st j = Nothing).

Lemma vector_step : forall b vt tl vals st i t fb f m v q nd, bst b vt tl vals st ->
  zget tys i = Some t -> is_field_slice (group_at c i) = true -> is_ref t = true -> all_absent st ->
  field_type_name n c i = c_name f -> flat fb -> 4 <= q -> reach v <= zlen (sl_data (b_bytes fb)) ->
  m = img_bytes (sl_data (b_bytes fb)) ->
  f = new_node n (Some nd) (mkV q (reach v - q) (vector_len v)) (c_name f) ->
  stored_vector (window m (q - 4) (reach v)) s t q v -> measured v ->
  exists k b' vt' tl' vals',
    (forall fuel, (k <= fuel)%nat -> set_vector n fuel b c tp i fb f = Ok (Set_ok b')) /\
    bst b' vt' tl' vals' (put st i (Value m v)).
Proof.
  intros b vt tl vals st i t fb f m v q nd I Ht Hsl Hr HA HN HF Hq HL Em Hf HV HM.
  pose proof (bs_g _ _ _ _ _ _ _ _ _ I) as G.
  destruct (flat_source fb HF) as (F1 & F2 & F3).
  assert (TP : 0 <= tp) by (rewrite (tp_eq n s name tys HD HS); pose proof (zlen_nonneg tys); lia).
  assert (HV' : stored_vector m s t q v).
  { rewrite <- (shift_0 v). rewrite <- (Z.add_0_r q). eapply vector_shift with (m0 := m); [| | |exact HV].
    - intros q' x H. rewrite Z.add_0_r. subst m. eapply window_sub; eauto.
    - intros q' x H. subst m. eapply window_sub; eauto.
    - intros q' x H. subst m. eapply window_sub; eauto. }
  pose proof (vector_reach s _ _ _ _ HV) as RQ.
  destruct (entry_of _ _ _ _ HD HS _ _ _ _ _ i t I Ht) as (e & E1 & E2).
  assert (Hst : st i = Nothing) by (eapply HA; eauto).
  assert (e = 0) by (apply E2; exact Hst). subst e.
  destruct (table_node n s HD name tys (Some (tp, -1)) no_vinfo HS) as (_ & _ & _ & TN).
  destruct (TN i t Ht) as (typ & g & G1 & G2 & G3 & _).
  destruct (vector_info n s HD fb t q v nd f typ name i g) as [k Hk]; auto; try congruence.
  assert (FS : field_size t = 4) by (destruct t; try discriminate; reflexivity).
  destruct (bst_insert n s name tys HD HS HB b vt tl vals st i t 4 I Ht Hst FS) as (b1 & A1 & A2 & A3 & A4 & A5).
  assert (ZS : zget sizes i = Some 4) by (rewrite zget_map, Ht, <- FS; reflexivity).
  destruct (grid_u ks sizes sizes_pos ref_size b1 _ _ _ i tl (le_encode 4 4) A2 A3 A4) as (b2 & U1 & U2 & _).
  { rewrite zlen_le_encode. exact ZS. }
  set (vals2 := fmap_set (bump ks 4 i 0 (fmap_set vals i (zeros 4))) i (le_encode 4 4)) in *.
  assert (V2 : vals2 i = Some (le_encode 4 4)) by (unfold vals2, fmap_set; rewrite Z.eqb_refl; reflexivity).
  destruct nd as [np fsize].
  set (size := if fsize <=? 0 then reach v - q else fsize).
  assert (SZ : 0 <= size) by (unfold size; destruct (fsize <=? 0) eqn:X; lia).
  destruct (grid_blob ks sizes ref_size b2 _ _ _ fb (q - 4) (reach v - q + 4) size U2 F1 F2)
    as (b3 & B1 & B2 & B3); try lia.
  { apply flat_defined; auto; lia. }
  assert (CI : c_info f = mkV q (reach v - q) (vector_len v)) by (rewrite Hf, new_node_info; reflexivity).
  assert (CN : c_node f = Some (np, fsize)) by (rewrite Hf, new_node_node; reflexivity).
  exists k, b3, (upd vt i tl), (tl + 4), vals2. split.
  - intros fuel Hfu. destruct (Hk fuel Hfu) as (r & R1 & R2). unfold set_vector. rewrite CN.
    replace (if fsize <=? 0
      then do v0 <- info_slice n fb (node_info n fb fuel) f; (if v_size v0 <? 0 then Panic else Ok (v_size v0))
      else Ok fsize) with (@Ok Z size).
    2:{ unfold size. destruct (fsize <=? 0); [|reflexivity]. rewrite R1. cbn [bind]. rewrite R2.
        replace (reach v - q <? 0) with false by lia. reflexivity. }
    cbn [bind]. rewrite (g_zero _ _ _ _ i 0 G E1). cbn [bind Z.eqb]. rewrite A1. cbn [bind t_io].
    rewrite zlen_le_encode in U1. change (Z.of_nat 4) with 4 in U1. rewrite U1. cbn [bind].
    rewrite (g_preload _ _ _ _ U2). cbn [bind].
    assert (TR : table_ref b2 tp i = Ok (tp + (tl + 4))).
    { unfold table_ref. rewrite (g_virtual _ _ _ _ i tl U2 A3). cbn [bind].
      rewrite (g_zero _ _ _ _ i tl U2 A3). cbn [bind]. replace (tl =? 0) with false by lia.
      rewrite (grid_rd b2 _ _ _ i tl 4 4 U2 A3 A4 ZS ltac:(lia) V2 ltac:(cbn; lia)). cbn [bind]. f_equal. lia. }
    rewrite TR. cbn [bind]. rewrite CI. cbn [v_pos v_size]. rewrite Z.sub_0_r.
    rewrite B1. reflexivity.
  - apply A5; auto.
    + intros j Hj. unfold vals2, fmap_set. replace (j =? i) with false by lia. reflexivity.
    + rewrite Hr. exists (q - 4), 0. split; [exact V2|]. split.
      * split.
        { intros q' Hq'. subst m. replace q' with (q - 4 + (q' - (q - 4))) by lia. rewrite <- F3.
          apply (flat_defined fb (q - 4) (reach v - (q - 4))); auto; lia. }
        left. split; [reflexivity|]. replace (q - 4 + 4) with q by lia. exact HV.
      * split; [lia|]. intros j Hj. rewrite B3 by lia. rewrite F3, Em. reflexivity.
Qed.

(** ** Tables and unions *)

(** The value of an absent reference is asked for before a new one is stored. *)
Lemma value_absent : forall b vt tl vals st i t, bst b vt tl vals st -> zget tys i = Some t ->
  st i = Nothing ->
  match t with
  | TyTable _ => True
  | TyUnion us => forall x, st (i - 1) = Bytes [x] -> b2z x <= zlen us
  | _ => False
  end ->
  forall fuel, (1 <= fuel)%nat -> exists r, value_info n b (node_info n b fuel) c i = Ok r.
Proof.
  intros b vt tl vals st i t I Ht Hst HU fuel Hfu.
  pose proof (bs_g _ _ _ _ _ _ _ _ _ I) as G.
  destruct (entry_of _ _ _ _ HD HS _ _ _ _ _ i t I Ht) as (e & E1 & E2).
  assert (e = 0) by (apply E2; exact Hst). subst e.
  destruct (table_node n s HD name tys (Some (tp, -1)) no_vinfo HS) as (SN & _ & _ & TN).
  destruct (TN i t Ht) as (typ & g & G1 & G2 & G3 & _).
  unfold value_info. rewrite new_node_node, new_node_name, SN, G1.
  assert (TR : table_ref b tp i = Ok (-1)).
  { unfold table_ref. rewrite (g_virtual _ _ _ _ i 0 G E1). cbn [bind].
    rewrite (g_zero _ _ _ _ i 0 G E1). reflexivity. }
  assert (FA : forall j tj, zget tys j = Some tj -> zget vt j = Some 0 -> field_at n b c j =
      Ok (new_node n None no_vinfo (field_type_name n c j))).
  { intros j tj Hj Hv. unfold field_at. rewrite new_node_node, new_node_name, SN.
    rewrite (g_zero _ _ _ _ j 0 G Hv). reflexivity. }
  assert (NI : forall x y, node_info n b fuel (new_node n None x y) = Ok no_vinfo).
  { intros x y. destruct fuel as [|fu]; [lia|]. apply node_info_good. apply new_node_node. }
  destruct t as [| |tn|us| | |]; try contradiction; cbn [field_described] in G3.
  - destruct G3 as [G3 _]. destruct (says_tests _ _ G3) as (-> & -> & -> & -> & -> & ->). cbn [has bits map class_bit existsb Z.eqb Pos.eqb orb andb].
    rewrite TR. cbn [bind]. rewrite (FA i _ Ht E1). cbn [bind]. rewrite NI. cbn [bind]. eauto.
  - destruct G3 as (G3 & GU & _). destruct (says_tests _ _ G3) as (-> & -> & -> & -> & -> & ->).
    cbn [has bits map class_bit existsb Z.eqb Pos.eqb orb andb].
    rewrite TR. cbn [bind]. destruct HB as (_ & _ & _ & HP). destruct (HP i us Ht) as (tt & P1 & P2).
    destruct (TN (i - 1) _ P1) as (typ1 & g1 & J1 & J2 & J3 & J4). specialize (J4 tt eq_refl).
    cbn [field_described] in J3. destruct J3 as [J3 _].
    destruct (entry_of _ _ _ _ HD HS _ _ _ _ _ (i - 1) _ I P1) as (e1 & E3 & E4).
    destruct (Z.eq_dec e1 0) as [->|NE].
    + unfold can_follow. rewrite (FA (i - 1) _ P1 E3). cbn [bind]. unfold node_byte. rewrite new_node_node. cbn [bind Z.ltb Z.compare]. eauto.
    + assert (FB : field_at n b c (i - 1) = Ok (new_node n (Some (tp + e1, 1)) no_vinfo typ1)).
      { unfold field_at. rewrite new_node_node, new_node_name, SN, J1, J2.
        rewrite (g_zero _ _ _ _ (i - 1) e1 G E3). cbn [bind]. replace (e1 =? 0) with false by lia.
        unfold zwidth in P2. assert (W : width tt = 1%nat) by lia. rewrite W in J3.
        destruct (says_tests _ _ J3) as (-> & -> & -> & -> & -> & ->).
        cbn [has bits map class_bit existsb Z.eqb Pos.eqb orb andb].
        rewrite (g_virtual _ _ _ _ (i - 1) e1 G E3). cbn [bind]. rewrite J4. unfold zwidth. rewrite W. reflexivity. }
      pose proof (bs_in _ _ _ _ _ _ _ _ _ I (i - 1) _ P1 eq_refl) as B.
      destruct (st (i - 1)) as [|p|] eqn:ES; try contradiction.
      { assert (e1 = 0) by (apply E4; reflexivity). lia. }
      destruct (g_field _ _ _ _ _ _ G (i - 1) e1 E3 NE) as (z & p' & K1 & K2 & K3 & _).
      assert (p' = p) by congruence. subst p'. rewrite zget_map, P1 in K1. cbn [option_map field_size] in K1.
      assert (K4 : zlen p = 1) by (rewrite K3; congruence).
      destruct p as [|x [|y p]]; [cbn in K4; lia| |unfold zlen in K4; cbn [List.length] in K4; lia].
      pose proof (b2z_range x) as XR.
      assert (RB : rd 1 b (tp + e1) = Ok (b2z x)).
      { eapply grid_rd; eauto.
        - rewrite zget_map, P1. cbn [option_map field_size]. rewrite P2. reflexivity.
        - rewrite B. cbn [le_encode]. rewrite z2b_b2z. reflexivity. }
      assert (NB : node_byte b (new_node n (Some (tp + e1, 1)) no_vinfo typ1) = Ok (b2z x)).
      { unfold node_byte. rewrite new_node_node. exact RB. }
      unfold can_follow. rewrite FB. cbn [bind]. rewrite NB. cbn [bind].
      destruct (0 <? b2z x) eqn:X0; [|eauto].
      unfold follow_union. rewrite FB. cbn [bind]. rewrite NB. cbn [bind].
      rewrite Z.mod_small by lia. rewrite G2, (sub_lookup _ _ _ _ GU).
      destruct (zget_some us (b2z x - 1)) as [tn Htn]; [specialize (HU x eq_refl); lia|]. rewrite Htn.
      rewrite (FA i _ Ht E1). cbn [bind].
      assert (IX : forall u, c_node u = None -> node_info n b fuel u = Ok no_vinfo).
      { intros u Hu. destruct fuel as [|fu]; [lia|]. apply node_info_good. exact Hu. }
      rewrite IX by (rewrite fetch_node; cbn [c_node]; apply new_node_node). cbn [bind]. eauto.
Qed.

End Table.
