(** Exchanging and sorting elements of a vector of tables in a root buffer. *)
From Coq Require Import ZArith List Bool Lia String Permutation.
From Coq Require Import Strings.Byte.
From Verif Require Import GoLib BaseModel GoLemmas BaseSpec BaseProofs BaseProofs2 BaseProofs3 TableModel TableSpec TableProofs.
From Verif Require Import TableProofs2 NameModel NameSpec NameProofs NameProofs2 StreamModel WalkModel WalkSpec WalkProofs WalkProofs2 WalkProofs3 WalkProofs4 WalkProofs5.
From Verif Require Import EqualSpec BuildModel InsModel InsSpec InsProofs InsProofs7 PutModel PutSpec PutProofs PutProofs2 PutProofs7.
From Verif Require Import JourModel JourSpec JourProofs JourProofs2 JourProofs3 JourProofs4 JourProofs5 JourProofs8 JourProofs9.
From Verif Require Import ElemModel ElemSpec ElemProofs ElemProofs2 ElemProofs3 ElemProofs4 SortModel SortSpec.
From Verif Require ListModel ListSpec ListProofs2.
Import ListNotations.
Open Scope list_scope.
Open Scope Z_scope.

(** Writing a number of four bytes *)
Lemma number_put : forall b m off w, in_memory b -> shows b m -> 0 <= off -> 0 <= w < 4294967296 ->
  let m' := img_write m off (le_encode 4 w) in
  exists b', base_u b off 4 (le_encode 4 (u32 w)) = Ok b' /\ in_memory b' /\ shows b' m' /\ holds_uint m' off 4 w /\
    (forall i, i < off \/ off + 4 <= i -> m' i = m i) /\ held b' off 4 /\
    forall a k, 1 <= k -> held b a k -> disjoint a k off 4 -> held b' a k.
Proof.
  intros b m off w HB HM H0 HW m'. replace (u32 w) with w by (unfold u32; rewrite Z.mod_small; auto). set (p := le_encode 4 w) in *.
  assert (ZP : zlen p = 4) by (unfold p; rewrite zlen_le_encode; reflexivity).
  destruct (base_u_spec b off 4 p HB H0 ZP) as (b' & U1 & U2 & U3 & U4 & U5 & U6).
  assert (U1' : base_u b off (zlen p) p = Ok b') by (rewrite ZP; exact U1).
  destruct (u_held b off p b' U1' H0 ltac:(lia)) as [K1 K2]. rewrite ZP in K1, K2.
  exists b'. unfold m'. split; [exact U1|]. split; [exact U2|]. split; [|split; [|split; [|split; [exact K1|exact K2]]]].
  - intros i Hi. rewrite (peek_content b' i U2 Hi), U6. f_equal. unfold img_write.
    destruct ((off <=? i) && (i <? off + zlen p)); [reflexivity|apply shown; auto].
  - apply holds_uint_encode; [|exact HW]. intros k Hk. change (Z.of_nat 4) with 4 in Hk. unfold img_write. rewrite ZP.
    replace ((off <=? off + k) && (off + k <? off + 4)) with true by lia. replace (off + k - off) with k by lia. reflexivity.
  - intros i Hi. unfold img_write. rewrite ZP. replace ((off <=? i) && (i <? off + 4)) with false by lia. reflexivity.
Qed.

Lemma map_swapped : forall (vs : list val) i j, map val_pos (ListSpec.swapped vs i j) = ListSpec.swapped (map val_pos vs) i j.
Proof.
  assert (ZM : forall (vs : list val) i, zget (map val_pos vs) i = match zget vs i with Some u => Some (val_pos u) | None => None end).
  { intros vs i. unfold zget. destruct (i <? 0); [reflexivity|]. rewrite nth_error_map. destruct (nth_error vs (Z.to_nat i)); reflexivity. }
  assert (LM : forall vs : list val, zlen (map val_pos vs) = zlen vs) by (intros; unfold zlen; rewrite map_length; reflexivity).
  intros vs i j. destruct (zget vs i) as [u|] eqn:Hi.
  2: { unfold ListSpec.swapped. rewrite ZM, Hi. reflexivity. }
  destruct (zget vs j) as [w|] eqn:Hj.
  2: { unfold ListSpec.swapped. rewrite !ZM, Hi, Hj. reflexivity. }
  pose proof (zget_some_range _ _ _ Hi). pose proof (zget_some_range _ _ _ Hj).
  apply zget_ext. intros q. rewrite ZM, !ListProofs2.zget_swapped, !ZM by (rewrite ?LM; auto).
  destruct (q =? j); [reflexivity|]. destruct (q =? i); reflexivity.
Qed.

Lemma present_holds : forall m k p, occupied m p (Z.of_nat k) -> holds_uint m p k (num m p k).
Proof.
  intros m k. induction k as [|k IH]; intros p H.
  - split; [cbn; lia|]. intros i Hi. lia.
  - cbn [num]. destruct (H 0 ltac:(lia)) as (x & X). replace (p + 0) with p in X by lia. rewrite X.
    assert (G : occupied m (p + 1) (Z.of_nat k)).
    { intros i Hi. destruct (H (i + 1) ltac:(lia)) as (y & Y). exists y. replace (p + 1 + i) with (p + (i + 1)) by lia. exact Y. }
    destruct (IH (p + 1) G) as [G1 G2]. pose proof (b2z_range x) as RX. split.
    + replace (Z.of_nat (S k)) with (Z.of_nat k + 1) by lia. rewrite Z.pow_add_r by lia. change (256 ^ 1) with 256. nia.
    + intros i Hi. destruct (Z.eq_dec i 0) as [->|NE].
      * exists x. replace (p + 0) with p by lia. split; [exact X|]. change (256 ^ 0) with 1. rewrite Z.div_1_r, Z.mul_comm, Z_mod_plus_full, Z.mod_small; lia.
      * destruct (G2 (i - 1) ltac:(lia)) as (y & Y1 & Y2). exists y. replace (p + i) with (p + 1 + (i - 1)) by lia. split; [exact Y1|]. rewrite Y2.
        replace i with (1 + (i - 1)) at 2 by lia. rewrite Z.pow_add_r, <- Zdiv.Zdiv_Zdiv by lia. change (256 ^ 1) with 256.
        f_equal. f_equal. rewrite Z.mul_comm, Z.div_add by lia. rewrite (Z.div_small (b2z x)) by lia. lia.
Qed.

Section Sort.
Variable n : names.
Variable s : schema.
Hypothesis HD : describes n s.
Variables (b : base) (m : image) (name : string) (p : Z) (v : val) (tn : string) (tp : Z) (fs : list val) (tys : list ty) (idx : Z) (en : string) (q : Z) (vs : list val).
Hypothesis HB : in_memory b.
Hypothesis HM : shows b m.
Hypothesis H : stored_table m s name p v.
Hypothesis HI : intact b m v.
Hypothesis OT : only_table v (Tab tn tp fs).
Hypothesis HS : s tn = Some tys.
Hypothesis Ht : zget tys idx = Some (TyTables en).
Hypothesis HNU : types_no_union tys idx.
Hypothesis Hw : zget fs idx = Some (Tabs en q vs).
Hypothesis AP : slots_apart m v tp idx en q vs.
Hypothesis FO : elems_follow q vs.

Let span := 4 * zlen vs.

(** The states that swaps lead to *)
Definition turned (b1 : base) (m1 : image) (ws : list val) : Prop :=
  in_memory b1 /\ shows b1 m1 /\ (forall a, a < q \/ q + span <= a -> m1 a = m a) /\ Permutation vs ws /\
  (forall i u, zget ws i = Some u -> points_to m1 (q + 4 * i) (val_pos u) /\ held b1 (q + 4 * i) 4) /\
  (forall a k, 1 <= k -> held b a k -> disjoint a k q span -> held b1 a k).

Lemma perm_zlen : forall (l l' : list val), Permutation l l' -> zlen l' = zlen l.
Proof. intros l l' P. unfold zlen. rewrite (Permutation_length P). reflexivity. Qed.

Lemma stored_vector : exists so es l e0, table_at m tp so es l /\ 0 <= so /\ zget es idx = Some e0 /\ zlen es = zlen fs /\
  stored_table m s tn tp (Tab tn tp fs) /\ 4 <= e0 /\ vector_from m (tp + e0) q (zlen vs) /\ stored_elems m s q en vs /\ 4 <= q /\ slot_of m tp idx = tp + e0.
Proof.
  pose proof OT as [OT1 OT2].
  destruct (proj1 (tables_stored m s v) name p H _ OT1) as (nm & q0 & gs & E & HT). injection E as <- <- <-.
  assert (INV : exists so es l, table_at m tp so es l /\ 0 <= so /\ stored_fields m s tp None tys es fs).
  { clear - HT HS. inversion HT as [? ? so es l tys' ? Hs' T Hso SF]; subst. rewrite HS in Hs'. injection Hs' as <-. exists so, es, l. auto. }
  destruct INV as (so & es & l & T & Hso & SF).
  destruct (fields_of m s tp None tys es fs SF) as (L1 & L2 & N). destruct (N idx _ Hw) as (t' & e0 & pv & N1 & N2 & N3 & _).
  assert (t' = TyTables en) by congruence. subst t'.
  assert (INV : 4 <= e0 /\ vector_from m (tp + e0) q (zlen vs) /\ stored_elems m s q en vs) by (clear - N3; inversion N3; subst; auto).
  destruct INV as (W2 & W3 & SE). pose proof (ta_vpos _ _ _ _ _ T) as TV.
  assert (Q4 : 4 <= q) by (destruct W3 as [[? _] _]; lia).
  assert (ES' : slot_of m tp idx = tp + e0).
  { unfold slot_of. rewrite (table_vtable m tp so es l T Hso). rewrite (num_holds m 2 _ e0 (ta_entry _ _ _ _ _ T idx e0 N2)). reflexivity. }
  exists so, es, l, e0. split; [exact T|]. split; [exact Hso|]. split; [exact N2|]. split; [clear - L1 L2; congruence|]. split; [exact HT|]. auto.
Qed.

Lemma vector_intact : intact b m (Tabs en q vs).
Proof. exact (fine_field b m _ _ _ _ _ (intact_inside b m v _ HI (proj1 OT)) Hw). Qed.

Lemma turned_start : turned b m vs.
Proof.
  destruct stored_vector as (so & es & l & e0 & T & Hso & N2 & LL & HT & W2 & W3 & SE & Q4 & ES).
  split; [exact HB|]. split; [exact HM|]. split; [auto|]. split; [apply Permutation_refl|]. split; [|auto].
  intros i u Hi. split; [apply (elems_at m s q en vs SE i u Hi)|]. apply (fine_elem b m _ _ _ _ _ vector_intact Hi).
Qed.

Lemma turned_len : forall b1 m1 ws, turned b1 m1 ws -> reads b1 (q - 4) 4 (zlen vs).
Proof.
  intros b1 m1 ws (S1 & S2 & S3 & S4 & S5 & S6). destruct stored_vector as (so & es & l & e0 & T & Hso & N2 & LL & HT & W2 & W3 & SE & Q4 & ES).
  pose proof (zlen_nonneg vs). apply (holds_reads b1 m1 S1 S2); [lia|lia| |].
  - eapply holds_uint_ext; [|apply W3]. intros i Hi. apply S3. lia.
  - apply S6; [lia| |unfold disjoint, span; lia]. apply (proj1 vector_intact). left. reflexivity.
Qed.

(** One swap *)
Lemma turned_swap : forall f b1 m1 ws i j, f = new_node n (Some (tp, -1)) (mkV q 0 (zlen vs)) ("[]" ++ en)%string ->
  turned b1 m1 ws -> 0 <= i < zlen vs -> 0 <= j < zlen vs ->
  exists b2, swap_elem n b1 f i j = Ok (b2, true) /\ turned b2 (swap_slots m1 q ws i j) (ListSpec.swapped ws i j).
Proof.
  intros f b1 m1 ws i j Ef ST Ri Rj. pose proof ST as (S1 & S2 & S3 & S4 & S5 & S6).
  destruct stored_vector as (so & es & l & e0 & T & Hso & N2 & LL & HT & W2 & W3 & SE & Q4 & ES).
  pose proof (perm_zlen _ _ S4) as ZW.
  destruct (table_node n s HD tn tys (Some (tp, -1)) no_vinfo HS) as (SN & _ & ML & TN).
  destruct (TN idx _ Ht) as (typ & g & G1 & G2 & G3 & G4). cbn [field_described] in G3. destruct G3 as (_ & TY & TD1 & g' & GG & GS).
  pose proof (says_tests _ _ GS) as (T1 & T3 & T4 & T5 & T6 & T7). cbn in T1, T3, T4, T5, T6, T7.
  subst f. unfold swap_elem. rewrite new_node_name, is_list_spec. cbn [bind negb].
  rewrite (vec_len_at_j n b1 (tp, -1) q 0 (zlen vs)) by (auto; eapply turned_len; eauto). cbn [bind].
  replace ((zlen vs <=? i) || (zlen vs <=? j)) with false by lia.
  destruct (zget_some ws i ltac:(lia)) as (x & Hx). destruct (zget_some ws j ltac:(lia)) as (y & Hy). unfold swap_slots. rewrite Hx, Hy.
  destruct (i =? j) eqn:Eij.
  { assert (j = i) by lia. subst j. exists b1. split; [reflexivity|]. rewrite ListProofs2.swapped_same by lia. exact ST. }
  rewrite new_node_info. cbn [v_pos]. change (str_from2 ("[]" ++ en)%string) with (Ok en). cbn [bind]. rewrite GG. cbn [bind]. rewrite ?T1, ?T3, ?T4, ?T5, ?T6, ?T7. cbn [orb].
  destruct (S5 i x Hx) as [[Px1 Px2] Hhx]. destruct (S5 j y Hy) as [[Py1 Py2] Hhy].
  assert (RX : reads b1 (q + 4 * i) 4 (val_pos x - (q + 4 * i))) by (apply (holds_reads b1 m1 S1 S2); auto; lia).
  assert (RY : reads b1 (q + 4 * j) 4 (val_pos y - (q + 4 * j))) by (apply (holds_reads b1 m1 S1 S2); auto; lia).
  replace (q + i * 4) with (q + 4 * i) by lia. replace (q + j * 4) with (q + 4 * j) by lia.
  rewrite (proj1 (proj2 RX)). cbn [bind]. rewrite (proj1 (proj2 RY)). cbn [bind].
  assert (FX : q + span <= val_pos x < q + 4294967296) by (apply FO; eapply Permutation_in; [apply Permutation_sym; exact S4|eapply zget_in; exact Hx]).
  assert (FY : q + span <= val_pos y < q + 4294967296) by (apply FO; eapply Permutation_in; [apply Permutation_sym; exact S4|eapply zget_in; exact Hy]).
  unfold span in *.
  replace (val_pos y - (q + 4 * j) - (q + 4 * i - (q + 4 * j))) with (val_pos y - (q + 4 * i)) by lia.
  replace (val_pos x - (q + 4 * i) - (q + 4 * j - (q + 4 * i))) with (val_pos x - (q + 4 * j)) by lia.
  destruct (number_put b1 m1 (q + 4 * i) (val_pos y - (q + 4 * i)) S1 S2 ltac:(lia) ltac:(lia)) as (b2 & A1 & A2 & A3 & A4 & A5 & A6 & A7).
  set (m2 := img_write m1 (q + 4 * i) _) in *.
  destruct (number_put b2 m2 (q + 4 * j) (val_pos x - (q + 4 * j)) A2 A3 ltac:(lia) ltac:(lia)) as (b3 & B1 & B2 & B3 & B4 & B5 & B6 & B7).
  set (m3 := img_write m2 (q + 4 * j) _) in *.
  exists b3. rewrite A1. cbn [bind]. rewrite B1. cbn [bind]. split; [reflexivity|].
  split; [exact B2|]. split; [exact B3|]. split; [intros a Ha; unfold span in Ha; rewrite B5, A5, S3 by (unfold span; lia); reflexivity|].
  split; [eapply Permutation_trans; [exact S4|apply ListProofs2.swapped_perm]|]. split.
  - intros k u Hk. rewrite ListProofs2.zget_swapped in Hk by lia. destruct (Z.eqb_spec k j) as [->|NJ].
    + assert (u = x) by congruence. subst u. split; [|exact B6]. split; [lia|exact B4].
    + destruct (Z.eqb_spec k i) as [->|NI].
      * assert (u = y) by congruence. subst u. split.
        -- split; [lia|]. eapply holds_uint_ext; [|exact A4]. intros c Hc. apply B5. lia.
        -- apply B7; [lia|exact A6|unfold disjoint; lia].
      * pose proof (zget_some_range _ _ _ Hk). destruct (S5 k u Hk) as [[P1 P2] P3]. split.
        -- split; [exact P1|]. eapply holds_uint_ext; [|exact P2]. intros c Hc. rewrite B5, A5 by lia. reflexivity.
        -- apply B7; [lia| |unfold disjoint; lia]. apply A7; [lia|exact P3|unfold disjoint; lia].
  - intros a k Hk Hh D. unfold disjoint, span in D. apply B7; [lia| |unfold disjoint; lia]. apply A7; [lia| |unfold disjoint; lia]. apply S6; auto.
Qed.

(** What such a state stores *)
Lemma turned_stored : forall b1 m1 ws, turned b1 m1 ws ->
  let new := Tabs en q ws in
  stored_elems m1 s q en ws /\ intact b1 m1 new /\
  stored_table m1 s name p (fill tp idx new v) /\ intact b1 m1 (fill tp idx new v) /\
  same_value m m1 (fill tp idx (Absent (TyTables en)) v) (fill tp idx (Absent (TyTables en)) v) /\
  forall u, In u vs -> same_value m m1 u u.
Proof.
  intros b1 m1 ws (S1 & S2 & S3 & S4 & S5 & S6) new.
  destruct stored_vector as (so & es & l & e0 & T & Hso & N2 & LL & HT & W2 & W3 & SE & Q4 & ES').
  pose proof (perm_zlen _ _ S4) as ZW. pose proof AP as [AP1 AP2]. pose proof OT as [OT1 OT2]. fold span in AP1, AP2.
  pose proof (zget_some_range _ _ _ Ht) as RI. pose proof (zlen_nonneg vs) as ZV.
  assert (UN : forall nm gs, In (Tab nm tp gs) (tables v) -> nm = tn /\ gs = fs).
  { intros nm gs HG. specialize (OT2 _ HG eq_refl). split; congruence. }
  set (cl := fill tp idx (Absent (TyTables en)) v) in *.
  assert (CP1 : forall a k, In (a, k) (parts m cl) -> disjoint a k q span) by (intros a k Hak; apply AP1, in_or_app; left; exact Hak).
  assert (CL1 : forall a u, In (a, u) (links m cl) -> disjoint a 4 q span) by (intros a u Hau; apply (AP2 a u); right; apply in_or_app; left; exact Hau).
  assert (EP1 : forall u, In u vs -> forall a k, In (a, k) (parts m u) -> disjoint a k q span).
  { intros u Hu a k Hak. apply AP1, in_or_app. right. apply in_flat_map. exists u. auto. }
  assert (EL1 : forall u, In u vs -> forall a k, In (a, k) (links m u) -> disjoint a 4 q span).
  { intros u Hu a k Hak. apply (AP2 a k). right. apply in_or_app. right. apply in_flat_map. exists u. auto. }
  assert (SLT : disjoint (tp + e0) 4 q span) by (apply (AP2 _ (q - 4)); left; rewrite ES'; reflexivity).
  assert (SAMEP : forall u, (forall a k, In (a, k) (parts m u) -> disjoint a k q span) -> forall a k, In (a, k) (parts m u) -> forall i, 0 <= i < k -> m1 (a + i) = m (a + i)).
  { intros u HU a k Hak i Hi. apply S3. specialize (HU a k Hak). unfold disjoint in HU. lia. }
  assert (STC : same_tables m m1 cl) by (apply parts_same_tables, SAMEP; exact CP1).
  assert (SEU : forall u, In u vs -> stored_table m s en (val_pos u) u).
  { intros u Hu. apply zget_of_in in Hu. destruct Hu as (i & Hi). apply (elems_at m s q en vs SE i u Hi). }
  assert (OTHER : forall u, In u vs -> stored_table m1 s en (val_pos u) u /\ same_value m m1 u u /\ same_tables m m1 u).
  { intros u Hu. destruct (stored_same m m1 s en (val_pos u) u) as [X1 X2]; [| |apply SEU; exact Hu|].
    - apply SAMEP. apply EP1, Hu.
    - intros a t Hat i0 Hi0. apply S3. pose proof (EL1 u Hu a t Hat) as DS. unfold disjoint in DS. lia.
    - split; [exact X1|]. split; [exact X2|]. apply parts_same_tables, SAMEP. apply EP1, Hu. }
  assert (INW : forall i u, zget ws i = Some u -> In u vs) by (intros i u Hi; eapply Permutation_in; [apply Permutation_sym; exact S4|eapply zget_in; exact Hi]).
  assert (SE' : stored_elems m1 s q en ws).
  { apply elems_from. intros i u Hi. split; [apply (S5 i u Hi)|]. apply OTHER. eapply INW; eauto. }
  assert (SI : intact b m (Tab tn tp fs)) by exact (intact_inside b m v _ HI OT1).
  pose proof vector_intact as IW.
  assert (FINE : forall i u, zget ws i = Some u -> intact b1 m1 u /\ held b1 (q + 4 * i) 4).
  { intros i u Hi. split; [|apply (S5 i u Hi)]. pose proof (INW i u Hi) as Hu. destruct (OTHER u Hu) as (_ & _ & ST).
    pose proof Hu as HU'. apply zget_of_in in HU'. destruct HU' as (i' & Hi'). destruct (fine_elem b m _ _ _ _ _ IW Hi') as [[F1 F2] _].
    split; [rewrite (same_frame m m1 u ST)|rewrite (same_links m m1 u ST)]; intros a k Hak.
    - destruct (frame_in_parts m s u (or_introl (ex_intro _ _ (ex_intro _ _ (SEU u Hu)))) a k Hak) as (c0 & k0 & C1 & C2 & C3 & C4).
      pose proof (EP1 u Hu c0 k0 C1) as D. unfold disjoint in D. apply S6; auto. unfold disjoint. lia.
    - pose proof (EL1 u Hu a k Hak). apply S6; auto; [lia|]. apply (F2 a k Hak). }
  assert (ST' : slot_of m1 tp idx = tp + e0).
  { destruct (own_parts m tp idx (TyTables en) ltac:(lia) v tn fs UN OT1) as (P1 & P2). fold cl in P1, P2. pose proof (CP1 _ _ P1) as D1. pose proof (CP1 _ _ P2) as D2.
    pose proof (zget_some_range _ _ _ Hw) as RW. unfold disjoint in D1, D2. rewrite <- ES'.
    assert (EV : vtable_of m1 tp = vtable_of m tp) by (unfold vtable_of; f_equal; apply num_ext; intros i Hi; apply S3; lia).
    unfold slot_of. rewrite EV. f_equal. apply num_ext. intros i Hi. apply S3. lia. }
  assert (HSL : held b1 (tp + e0) 4).
  { apply S6; auto; [lia|]. apply (proj2 SI _ (q - 4)). rewrite links_tab. eapply in_concat_numbered; [exact Hw|]. rewrite ES'. left. reflexivity. }
  assert (HQ : held b1 (q - 4) 4).
  { apply S6; [lia| |unfold disjoint; lia]. apply (proj1 IW). left. reflexivity. }
  assert (INEW : intact b1 m1 new).
  { split.
    - intros a k F. unfold new in F. cbn [frame] in F. destruct F as [F|F]; [injection F as <- <-; exact HQ|]. apply in_flat_map in F. destruct F as (u & F1 & F2).
      apply zget_of_in in F1. destruct F1 as (i & F1). destruct (FINE i u F1) as [[F3 _] _]. apply F3, F2.
    - intros a u F. unfold new in F. rewrite links_tabs in F. apply concat_numbered_in in F. destruct F as (i & g' & F1 & F2). destruct (FINE i g' F1) as [[_ F4] F5].
      destruct F2 as [F2|F2]; [|apply (F4 a u F2)]. pose proof (f_equal fst F2) as Ea. cbn [fst] in Ea. subst a. exact F5. }
  split; [exact SE'|]. split; [exact INEW|].
  assert (W3' : vector_from m1 (tp + e0) q (zlen ws)).
  { rewrite ZW. destruct W3 as [W3a W3b]. unfold disjoint in SLT. split; [split; [apply W3a|]|].
    - eapply holds_uint_ext; [|apply W3a]. intros i Hi. apply S3. lia.
    - eapply holds_uint_ext; [|exact W3b]. intros i Hi. apply S3. lia. }
  destruct (in_place m s name p v tn tp fs tys idx (TyTables en) so es l e0 new m1 q span H OT HS Ht HNU T Hso N2) as [ST1 SC]; auto.
  { intros pv'. constructor; auto. }
  split; [exact ST1|]. split; [|split; [exact SC|intros u Hu; apply OTHER; exact Hu]].
  split.
  - intros a k Hak. destruct (frame_fill m1 tp idx (TyTables en) new ltac:(lia) v a k Hak) as [F|F]; [apply (proj1 INEW), F|].
    fold cl in F. rewrite (same_frame m m1 cl STC) in F.
    destruct (frame_clear_parts m s tp idx (TyTables en) ltac:(lia) v (or_introl (ex_intro _ _ (ex_intro _ _ H))) a k F) as (c0 & k0 & C1 & C2 & C3 & C4).
    pose proof (CP1 c0 k0 C1) as D1. unfold disjoint in D1. apply S6; try (unfold disjoint; lia). apply (proj1 HI). eapply frame_clear; [|exact F]. lia.
  - intros a u Hau. destruct (links_fill m1 tp idx (TyTables en) new ltac:(lia) v a u Hau) as [F|[F| ->]].
    + apply (proj2 INEW a u F).
    + fold cl in F. rewrite (same_links m m1 cl STC) in F. pose proof (CL1 a u F). apply S6; auto; [lia|]. apply (proj2 HI a u). eapply clear_links; [|exact F]. lia.
    + rewrite ST'. exact HSL.
Qed.

Lemma field_found : forall z, field_at n b (new_node n (Some (tp, z)) no_vinfo tn) idx = Ok (new_node n (Some (tp, -1)) (mkV q 0 (zlen vs)) ("[]" ++ en)%string).
Proof.
  intros z. destruct stored_vector as (so & es & l & e0 & T & Hso & N2 & LL & HT & W2 & W3 & SE & Q4 & ES').
  destruct (table_node n s HD tn tys (Some (tp, z)) no_vinfo HS) as (SN & _ & ML & TN).
  destruct (TN idx _ Ht) as (typ & g & G1 & G2 & G3 & G4). cbn [field_described] in G3. destruct G3 as (_ & TY & TD).
  pose proof (proj1 (stored_seen b m s HB HM) tn tp _ HT (intact_inside b m v _ HI (proj1 OT))) as SEE.
  assert (INV : exists so2 es2 l2, seen_at b tp so2 es2 l2 /\ 0 <= so2 /\ seen_fields b s tp None tys es2 fs).
  { clear - SEE HS. inversion SEE as [? ? so2 es2 l2 tys2 ? Hs2 T2 Hso2 SF2]; subst. rewrite HS in Hs2. injection Hs2 as <-. exists so2, es2, l2. auto. }
  destruct INV as (so2 & es2 & l2 & T2 & Hso2 & SF2).
  destruct (fields_nth_j b s tp None tys es2 fs SF2) as (_ & _ & N'). destruct (N' idx _ Hw) as (t2 & e2 & pv2 & M1 & M2 & M3 & _).
  pose proof (field_at_stored_j n b s HD tn tp z so2 es2 l2 tys idx t2 e2 pv2 _ HS T2 Hso2 M1 M2 M3) as FA.
  unfold WalkProofs.tnode_at in FA. rewrite G2, TY in FA. cbn [field_node] in FA. exact FA.
Qed.

(** [SwapAt] *)
Lemma elems_swapped : forall z i j, 0 <= i < zlen vs -> 0 <= j < zlen vs ->
  let new := Tabs en q (ListSpec.swapped vs i j) in let m' := swap_slots m q vs i j in
  exists f b', field_at n b (new_node n (Some (tp, z)) no_vinfo tn) idx = Ok f /\
    swap_elem n b f i j = Ok (b', true) /\ in_memory b' /\ shows b' m' /\
    (forall a, a < q \/ q + 4 * zlen vs <= a -> m' a = m a) /\
    stored_table m' s name p (fill tp idx new v) /\ intact b' m' (fill tp idx new v) /\
    same_value m m' (fill tp idx (Absent (TyTables en)) v) (fill tp idx (Absent (TyTables en)) v) /\
    (forall u, In u vs -> same_value m m' u u) /\
    (forall a k, 1 <= k -> held b a k -> disjoint a k q (4 * zlen vs) -> held b' a k).
Proof.
  intros z i j Ri Rj new m'. destruct (turned_swap _ b m vs i j eq_refl turned_start Ri Rj) as (b' & E & ST). fold m' in ST.
  eexists. exists b'. split; [apply field_found|]. split; [exact E|].
  destruct (turned_stored b' m' _ ST) as (_ & _ & R1 & R2 & R3 & R4). pose proof ST as (S1 & S2 & S3 & _ & _ & S6). auto 12.
Qed.

(** [SortBy] *)
Section With.
Variables (less : base -> Z -> Z -> res bool) (lt : Z -> Z -> bool).
Hypothesis CMP : compares_elems less lt s b m en q vs.

Lemma turned_less : forall b1 m1 ws i j x y, turned b1 m1 ws -> zget ws i = Some x -> zget ws j = Some y ->
  less b1 i j = Ok (lt (val_pos x) (val_pos y)).
Proof.
  intros b1 m1 ws i j x y ST Hx Hy. pose proof ST as (S1 & S2 & S3 & S4 & S5 & S6). destruct (turned_stored b1 m1 ws ST) as (R1 & R2 & _).
  eapply (CMP b1 m1 ws); eauto. rewrite (perm_zlen _ _ S4).
  destruct stored_vector as (so & es & l & e0 & T & Hso & N2 & LL & HT & W2 & W3 & SE & Q4 & ES).
  eapply holds_uint_ext; [|apply W3]. intros k Hk. apply S3. lia.
Qed.

Lemma sort_turned : forall f st b1 m1 ws, f = new_node n (Some (tp, -1)) (mkV q 0 (zlen vs)) ("[]" ++ en)%string ->
  turned b1 m1 ws -> ListSpec.in_bounds (zlen vs) st ->
  exists b2 m2 us, sort_with n less b1 f st = Ok b2 /\ turned b2 m2 us /\ map val_pos us = ListSpec.run_plain lt (map val_pos ws) st.
Proof.
  intros f st. induction st as [|i j k IH|i j k IH]; intros b1 m1 ws Ef ST IB; cbn [sort_with ListSpec.run_plain].
  - exists b1, m1, ws. auto.
  - cbn [ListSpec.in_bounds] in IB. destruct IB as (Ri & Rj & IB). assert (ZW : zlen ws = zlen vs) by (apply perm_zlen, ST).
    destruct (zget_some ws i ltac:(lia)) as (x & Hx). destruct (zget_some ws j ltac:(lia)) as (y & Hy).
    rewrite (turned_less b1 m1 ws i j x y ST Hx Hy). cbn [bind].
    assert (ZM : forall i u, zget ws i = Some u -> zget (map val_pos ws) i = Some (val_pos u)).
    { clear. intros i u Hi. unfold zget in *. destruct (i <? 0); [discriminate|]. rewrite nth_error_map, Hi. reflexivity. }
    rewrite (ZM i x Hx), (ZM j y Hy). apply (IH _ b1 m1 ws Ef ST). apply IB.
  - cbn [ListSpec.in_bounds] in IB. destruct IB as (Ri & Rj & IB).
    destruct (turned_swap f b1 m1 ws i j Ef ST Ri Rj) as (b2 & E & ST2). rewrite E. cbn [bind].
    rewrite <- map_swapped. apply (IH b2 _ _ Ef ST2 IB).
Qed.

(** [IsSorted] *)
Lemma pairs_right : forall b1 m1 ws, turned b1 m1 ws -> forall k, (Z.of_nat k < zlen vs \/ k = O) ->
  exists r, pairs_sorted less b1 k = Ok r /\
    (r = true <-> forall i x y, i < Z.of_nat k -> zget ws i = Some x -> zget ws (i + 1) = Some y -> lt (val_pos y) (val_pos x) = false).
Proof.
  intros b1 m1 ws ST k. assert (ZW : zlen ws = zlen vs) by (apply perm_zlen, ST). induction k as [|k IH]; intros Hk.
  - exists true. split; [reflexivity|]. split; [|auto]. intros _ i x y Hi Hx. apply zget_some_range in Hx. lia.
  - cbn [pairs_sorted]. destruct (zget_some ws (Z.of_nat k) ltac:(lia)) as (x & Hx). destruct (zget_some ws (Z.of_nat (S k)) ltac:(lia)) as (y & Hy).
    rewrite (turned_less b1 m1 ws (Z.of_nat (S k)) (Z.of_nat k) y x ST Hy Hx). cbn [bind]. replace (Z.of_nat (S k)) with (Z.of_nat k + 1) in * by lia.
    destruct (lt (val_pos y) (val_pos x)) eqn:L.
    + exists false. split; [reflexivity|]. split; [discriminate|]. intros G. rewrite (G (Z.of_nat k) x y ltac:(lia) Hx Hy) in L. discriminate.
    + destruct (IH ltac:(lia)) as (r & R1 & R2). exists r. split; [exact R1|]. rewrite R2. split; intros G i u w Hi Hu Hv.
      * destruct (Z.eq_dec i (Z.of_nat k)) as [->|NE]; [|apply (G i u w); auto; lia]. congruence.
      * apply (G i u w); auto. lia.
Qed.

Lemma is_sorted_right : forall f b1 m1 ws, f = new_node n (Some (tp, -1)) (mkV q 0 (zlen vs)) ("[]" ++ en)%string ->
  turned b1 m1 ws -> exists r, is_sorted less b1 f = Ok r /\ (r = true <-> in_order lt ws).
Proof.
  intros f b1 m1 ws Ef ST. assert (ZW : zlen ws = zlen vs) by (apply perm_zlen, ST). pose proof (zlen_nonneg vs) as ZV.
  destruct stored_vector as (so & es & l & e0 & T & Hso & N2 & LL & HT & W2 & W3 & SE & Q4 & ES).
  unfold is_sorted. rewrite Ef. rewrite new_node_name. rewrite is_list_spec. cbn [bind negb].
  rewrite (vec_len_at_j n b1 (tp, -1) q 0 (zlen vs)) by (auto; eapply turned_len; eauto). cbn [bind].
  destruct (pairs_right b1 m1 ws ST (Z.to_nat (zlen vs - 1)) ltac:(lia)) as (r & R1 & R2). exists r. split; [exact R1|]. rewrite R2.
  split; intros G i x y; [|intros Hi; apply G]. intros Hx Hy. apply (G i x y); auto. apply zget_some_range in Hy. lia.
Qed.

Lemma elems_sorted : forall z st, ListSpec.in_bounds (zlen vs) st ->
  exists f b' m' ws r, field_at n b (new_node n (Some (tp, z)) no_vinfo tn) idx = Ok f /\
    sort_elems n less b f st = Ok (b', true) /\ Permutation vs ws /\
    (ListSpec.strict_weak lt -> ListSpec.sorting (zlen vs) st -> ListSpec.sorted lt (map val_pos ws) /\ r = true) /\
    is_sorted less b' f = Ok r /\ (r = true <-> in_order lt ws) /\
    in_memory b' /\ shows b' m' /\ (forall a, a < q \/ q + 4 * zlen vs <= a -> m' a = m a) /\
    stored_table m' s name p (fill tp idx (Tabs en q ws) v) /\ intact b' m' (fill tp idx (Tabs en q ws) v) /\
    same_value m m' (fill tp idx (Absent (TyTables en)) v) (fill tp idx (Absent (TyTables en)) v) /\
    forall u, In u vs -> same_value m m' u u.
Proof.
  intros z st IB. destruct (sort_turned _ st b m vs eq_refl turned_start IB) as (b' & m' & ws & E & ST & EP).
  destruct (is_sorted_right _ b' m' ws eq_refl ST) as (r & R1 & R2).
  destruct (turned_stored b' m' ws ST) as (_ & _ & Q1 & Q2 & Q3 & Q4). pose proof ST as (S1 & S2 & S3 & S4 & _).
  eexists. exists b', m', ws, r. split; [apply field_found|]. split.
  { unfold sort_elems. rewrite new_node_name, is_list_spec. cbn [bind negb]. rewrite E. reflexivity. }
  split; [exact S4|]. split.
  { intros SW SO. assert (OK : ListSpec.sorted lt (map val_pos ws)).
    { rewrite EP. apply (proj2 SO); auto. unfold zlen. rewrite map_length. reflexivity. }
    split; [exact OK|]. apply R2. intros i x y Hx Hy.
    assert (ZM : forall i u, zget ws i = Some u -> zget (map val_pos ws) i = Some (val_pos u)).
    { clear. intros i u Hi. unfold zget in *. destruct (i <? 0); [discriminate|]. rewrite nth_error_map, Hi. reflexivity. }
    apply (OK i (i + 1)); auto. lia. }
  auto 12.
Qed.
End With.

(** A comparison that satisfies the hypothesis *)
Lemma number_compares : forall k t etys, s en = Some etys -> zget etys k = Some (TyScalar t) ->
  (forall u, In u vs -> exists nm gs a, u = Tab nm (val_pos u) gs /\ zget gs k = Some (Scalar a (zwidth t)) /\ held b a (zwidth t)) ->
  compares_elems (by_number n (new_node n (Some (tp, -1)) (mkV q 0 (zlen vs)) ("[]" ++ en)%string) k (Z.to_nat (zwidth t)))
    (smaller_number m k (Z.to_nat (zwidth t))) s b m en q vs.
Proof.
  intros k t etys HE Hk HV b' m' ws i j x y MB SH OUT KEEP PM HL SE' IT Hx Hy.
  pose proof (perm_zlen _ _ PM) as ZW.
  destruct stored_vector as (so & es & l & e0 & T & Hso & N2 & LL & HT & W2 & W3 & SE & Q4 & ES').
  destruct (table_node n s HD tn tys (Some (tp, -1)) no_vinfo HS) as (SN & _ & ML & TN).
  destruct (TN idx _ Ht) as (typ & g & G1 & G2 & G3 & G4). cbn [field_described] in G3. destruct G3 as (_ & TY & TD).
  assert (RL : reads b' (q - 4) 4 (zlen ws)).
  { apply (holds_reads b' m' MB SH); [lia|lia|exact HL|]. apply (proj1 IT). left. reflexivity. }
  assert (SEN : seen_elems b' s q en ws).
  { apply (stored_seen b' m' s MB SH); [exact SE'|lia|]. intros i0 u Hu. exact (fine_elem b' m' _ _ _ _ _ IT Hu). }
  assert (WT : 1 <= zwidth t) by (destruct t; cbn; lia).
  assert (ONE : forall i0 u, zget ws i0 = Some u ->
    vec_at n b' (new_node n (Some (tp, -1)) (mkV q 0 (zlen vs)) ("[]" ++ en)%string) i0 = Ok (Some (WalkProofs.tnode_at n en (val_pos u) (-1))) /\
    exists fu, field_at n b' (WalkProofs.tnode_at n en (val_pos u) (-1)) k = Ok fu /\ node_pos fu = Ok (slot_of m (val_pos u) k) /\
      rd (Z.to_nat (zwidth t)) b' (slot_of m (val_pos u) k) = Ok (num m (slot_of m (val_pos u) k) (Z.to_nat (zwidth t)))).
  { intros i0 u Hu. split.
    - rewrite <- ZW. apply (vec_at_table_j n b' s (tp, -1) q 0 en ws i0 u); auto.
    - assert (IN : In u vs) by (eapply Permutation_in; [apply Permutation_sym; exact PM|eapply zget_in; exact Hu]).
      destruct (HV u IN) as (nm & gs & a & Eu & Ha & Hh).
      pose proof IN as IN'. apply zget_of_in in IN'. destruct IN' as (i1 & Hi1). destruct (elems_at m s q en vs SE i1 u Hi1) as [_ SU].
      destruct (elems_at m' s q en ws SE' i0 u Hu) as [_ SU'].
      assert (INV : exists so1 es1 l1, table_at m (val_pos u) so1 es1 l1 /\ 0 <= so1 /\ stored_fields m s (val_pos u) None etys es1 gs).
      { clear - SU Eu HE. rewrite Eu in SU at 2. inversion SU as [? ? so1 es1 l1 tys1 ? Hs1 T1 Hso1 SF1]; subst. rewrite HE in Hs1. injection Hs1 as <-. exists so1, es1, l1. auto. }
      destruct INV as (so1 & es1 & l1 & T1 & Hso1 & SF1).
      destruct (fields_of m s (val_pos u) None etys es1 gs SF1) as (L1 & L2 & N). destruct (N k _ Ha) as (t' & e1 & pv & N1 & N3 & N4 & _).
      assert (t' = TyScalar t) by congruence. subst t'.
      assert (INV : a = val_pos u + e1 /\ occupied m a (zwidth t) /\ 4 <= e1) by (clear - N4; inversion N4; subst; auto).
      destruct INV as (Ea & OC & E1). pose proof (table_slot m (val_pos u) so1 es1 l1 k e1 T1 Hso1 N3) as SLO. rewrite <- Ea in SLO. rewrite SLO.
      pose proof (proj1 (stored_seen b' m' s MB SH) en (val_pos u) u SU' (proj1 (fine_elem b' m' _ _ _ _ _ IT Hu))) as SEE.
      assert (INV : exists so2 es2 l2, seen_at b' (val_pos u) so2 es2 l2 /\ 0 <= so2 /\ seen_fields b' s (val_pos u) None etys es2 gs).
      { clear - SEE HE Eu. rewrite Eu in SEE at 2. inversion SEE as [? ? so2 es2 l2 tys2 ? Hs2 T2 Hso2 SF2]; subst. rewrite HE in Hs2. injection Hs2 as <-. exists so2, es2, l2. auto. }
      destruct INV as (so2 & es2 & l2 & T2 & Hso2 & SF2).
      destruct (fields_nth_j b' s (val_pos u) None etys es2 gs SF2) as (_ & _ & N'). destruct (N' k _ Ha) as (t2 & e2 & pv2 & M1 & M2 & M3 & _).
      pose proof (field_at_stored_j n b' s HD en (val_pos u) (-1) so2 es2 l2 etys k t2 e2 pv2 _ HE T2 Hso2 M1 M2 M3) as FA. cbn [field_node] in FA.
      eexists. split; [exact FA|]. split; [unfold node_pos; rewrite new_node_node; reflexivity|].
      assert (DJ : disjoint a (zwidth t) q (4 * zlen vs)).
      { apply (proj1 AP). apply in_or_app. right. apply in_flat_map. exists u. split; [exact IN|]. rewrite Eu. cbn [parts]. right. right. apply in_flat_map. eexists. split; [eapply zget_in; exact Ha|left; reflexivity]. }
      assert (A0 : 0 <= a) by (pose proof (ta_vpos _ _ _ _ _ T1); lia).
      assert (RR : reads b' a (Z.to_nat (zwidth t)) (num m a (Z.to_nat (zwidth t)))).
      { apply (holds_reads b' m' MB SH); [exact A0|lia| |rewrite Z2Nat.id by lia; apply KEEP; auto].
        eapply holds_uint_ext; [|apply present_holds; rewrite Z2Nat.id by lia; exact OC]. rewrite Z2Nat.id by lia. intros c Hc. apply OUT. unfold disjoint in DJ. lia. }
      exact (proj1 (proj2 RR)). }
  destruct (ONE i x Hx) as (V1 & fx & F1 & P1 & D1). destruct (ONE j y Hy) as (V2 & fy & F2 & P2 & D2).
  unfold by_number. rewrite V1. cbn [bind]. rewrite V2. cbn [bind]. rewrite F1. cbn [bind]. rewrite F2. cbn [bind]. rewrite P1. cbn [bind]. rewrite P2. cbn [bind].
  rewrite D1. cbn [bind]. rewrite D2. cbn [bind]. reflexivity.
Qed.
End Sort.
