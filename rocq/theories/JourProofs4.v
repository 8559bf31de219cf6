(** Sizes in buffers with journal entries. *)
From Coq Require Import ZArith List Bool Lia String.
From Coq Require Import Strings.Byte.
From Verif Require Import GoLib BaseModel GoLemmas BaseSpec BaseProofs TableModel TableSpec TableProofs.
From Verif Require Import TableProofs2 NameModel NameSpec NameProofs NameProofs2.
From Verif Require Import WalkModel WalkSpec WalkProofs WalkProofs2 WalkProofs3 WalkProofs4 WalkProofs5 WalkProofs7 JourProofs JourProofs2 JourProofs3.
Import ListNotations.
Open Scope list_scope.
Open Scope Z_scope.

Section Schema.
Variable n : names.
Variable b : base.
Variable s : schema.
Hypothesis HD : describes n s.

Local Notation m := b.
Local Notation tnode_at := (tnode_at n).
Local Notation field_node := (field_node n).
Local Notation node_ok := (node_ok n).
Local Notation sub_ok := (sub_ok n).

Lemma reach_pos_j : forall name p v, seen_table m s name p v -> p + 4 <= reach v.
Proof.
  intros name p v H. destruct (stored_pos_j b s _ _ _ H) as (_ & _ & tys & fs & -> & _). cbn [reach].
  pose proof (proj1 (fold_max_le (map reach fs) (p + 4) _) (Z.le_refl _)) as [X _]. exact X.
Qed.

Lemma elems_reach_j : forall q tn vs, seen_elems m s q tn vs ->
  (forall e, In e vs -> reach e <= reach (last vs (Absent (TyTable tn)))) -> vs <> [] ->
  reach (Tabs tn q vs) = reach (last vs (Absent (TyTable tn))).
Proof.
  intros q tn vs H HL HN. set (d := Absent (TyTable tn)) in *.
  assert (L : In (last vs d) vs /\ q + 4 * zlen vs <= reach (last vs d)).
  { clear HL. clearbody d. induction H as [|slot tn t v vs H1 H2 H3 IH]; [congruence|].
    destruct vs as [|w vs].
    - cbn [last In]. split; [auto|]. destruct H1 as [H1 _]. pose proof (reach_pos_j _ _ _ H2). unfold zlen. cbn. lia.
    - change (last (v :: w :: vs) d) with (last (w :: vs) d). destruct IH as [I1 I2]; [discriminate|].
      split; [right; exact I1|]. rewrite (zlen_cons v). lia. }
  destruct L as [L1 L2]. cbn [reach]. apply Z.le_antisymm.
  - apply fold_max_le. split; [exact L2|]. intros x Hx. apply in_map_iff in Hx. destruct Hx as (e & <- & He). auto.
  - destruct (proj1 (fold_max_le (map reach vs) (q + 4 * zlen vs) (fold_right Z.max (q + 4 * zlen vs) (map reach vs)))) as [_ G];
      [lia|]. apply G. apply in_map. exact L1.
Qed.

Lemma slice_scalars_j : forall info nd q z k e t, 4 <= q -> reads m (q - 4) 4 k ->
  lookup name_to_type e = Some t ->
  info_slice n b info (new_node n (Some nd) (mkV q z k) ("[]" ++ e)%string) = Ok (mkV q (k * zwidth t) k).
Proof.
  intros info nd q z k e t Hq H He. unfold info_slice. rewrite new_node_info, new_node_name. cbn [v_pos v_len].
  change (str_from2 ("[]" ++ e)%string) with (Ok e). cbn [bind].
  destruct (scalar_name_group n e t He) as (G1 & G2 & _). rewrite G1. cbn [bind]. rewrite G2. cbn [bind].
  rewrite (vec_len_at_j n b _ _ _ _ _ Hq H). cbn [bind]. unfold name_size. rewrite He. fold (zwidth t).
  pose proof (zwidth_pos t). pose proof (proj1 H). f_equal. f_equal.
  pose proof (grow_end q (if k =? 0 then 0 else -1) (mkV q (k * zwidth t) 0)) as G. unfold v_end in G. cbn [v_pos v_size] in G.
  destruct (k =? 0) eqn:E; nia.
Qed.

Lemma slice_structs_j : forall info nd q z k sn ms, good_info n info -> 4 <= q -> reads m (q - 4) 4 k ->
  struct_described n sn ms ->
  info_slice n b info (new_node n (Some nd) (mkV q z k) ("[]" ++ sn)%string) = Ok (mkV q (k * struct_size ms) k).
Proof.
  intros info nd q z k sn ms (_ & GI) Hq H HS. pose proof (proj1 H) as Hk. pose proof (struct_size_nonneg ms) as HP.
  set (el := fun i => new_node n (Some (q + i * struct_size ms, -1)) no_vinfo sn).
  pose proof (info_slice_elems_j n b info nd q z sn (map el (indexes k))
    (map (fun i => mkV (q + i * struct_size ms) (struct_size ms) 0) (indexes k))) as L. cbv zeta in L.
  rewrite zlen_map, zlen_indexes in L by lia. rewrite L; clear L; auto.
  - f_equal. f_equal. destruct (k =? 0) eqn:E.
    + replace k with 0 by lia. cbn [indexes Z.to_nat seq map last]. unfold grow, no_vinfo. cbn [v_pos v_size].
      replace (q + 0 <? 0 + 0) with false by lia. lia.
    + rewrite (last_map _ _ _ _ 0).
      2:{ intros C. pose proof (zlen_indexes k ltac:(lia)) as Z. rewrite C in Z. unfold zlen in Z. cbn in Z. lia. }
      rewrite last_indexes by lia. pose proof (grow_end q (-1) (mkV (q + (k - 1) * struct_size ms) (struct_size ms) 0)) as G.
      unfold v_end in G. cbn [v_pos v_size] in G. nia.
  - destruct HS as (_ & (g & G1 & G2) & _). exists g. split; auto.
    destruct (says_tests _ _ G2) as (_ & _ & _ & _ & _ & T6). rewrite T6. reflexivity.
  - intros i x Hx. rewrite zget_map in Hx. destruct (zget (indexes k) i) as [j|] eqn:E; [|discriminate].
    pose proof (zget_some_range _ _ _ E) as R. rewrite zlen_indexes in R by lia.
    rewrite zget_indexes in E by lia. injection E as <-. injection Hx as <-. apply vec_at_struct_j; auto.
  - clear -GI HS. induction (indexes k) as [|i l IH]; cbn [map]; constructor; auto.
    split; [apply GI; auto|]. unfold el. rewrite new_node_node. eauto.
Qed.

Lemma slice_tables_j : forall info nd q z tn vs, good_info n info -> 4 <= q -> reads m (q - 4) 4 (zlen vs) ->
  table_described n tn -> seen_elems m s q tn vs -> sub_ok info (Tabs tn q vs) ->
  info_slice n b info (new_node n (Some nd) (mkV q z (zlen vs)) ("[]" ++ tn)%string) =
  Ok (mkV q (reach (Tabs tn q vs) - q) (zlen vs)).
Proof.
  intros info nd q z tn vs (_ & GI) Hq H HS HE (O1 & O2).
  set (el := fun v => tnode_at tn (val_pos v) (-1)).
  set (iv := fun v => mkV (val_pos v) (reach v - val_pos v) 0).
  pose proof (info_slice_elems_j n b info nd q z tn (map el vs) (map iv vs)) as L. cbv zeta in L.
  rewrite zlen_map in L. rewrite L; clear L; auto.
  - f_equal. f_equal. destruct vs as [|v vs].
    + cbn. unfold grow, no_vinfo, zlen. cbn. destruct (q + 0 <? 0) eqn:E; lia.
    + rewrite (elems_reach_j q tn (v :: vs) HE O2) by discriminate.
      rewrite (last_map _ _ iv (v :: vs) (Absent (TyTable tn))) by discriminate.
      pose proof (zlen_nonneg vs). rewrite zlen_cons. replace (1 + zlen vs =? 0) with false by lia.
      set (r := last (v :: vs) (Absent (TyTable tn))).
      pose proof (grow_end q (-1) (iv r)) as G. 
      assert (E : v_end (iv r) = reach r) by (unfold v_end, iv; cbn [v_pos v_size]; lia). rewrite E in G.
      assert (R : q <= reach r).
      { unfold r. rewrite <- (elems_reach_j q tn (v :: vs) HE O2) by discriminate. cbn [reach].
        pose proof (proj1 (fold_max_le (map reach (v :: vs)) (q + 4 * zlen (v :: vs)) _) (Z.le_refl _)) as [X _].
        rewrite zlen_cons in *. lia. }
      lia.
  - destruct HS as (_ & g & G1 & G2). exists g. split; auto.
    destruct (says_tests _ _ G2) as (_ & _ & _ & _ & _ & T6). rewrite T6. reflexivity.
  - intros i x Hx. rewrite zget_map in Hx. destruct (zget vs i) as [v|] eqn:E; [|discriminate].
    injection Hx as <-. eapply vec_at_table_j; eauto.
  - clear -O1. induction vs as [|v l IH]; cbn [map]; constructor.
    + split; [apply O1; left; reflexivity|]. unfold el, WalkProofs.tnode_at. rewrite new_node_node. eauto.
    + apply IH. intros e He. apply O1. right. exact He.
Qed.

Lemma value_info_stored_j : forall info name p sz soff es tl tys fs i v,
  good_info n info ->
  s name = Some tys -> seen_at m p soff es tl -> 0 <= soff -> seen_fields m s p None tys es fs ->
  zget fs i = Some v ->
  (forall t, v = Absent (TyScalars t) -> zwidth t <> 1) -> sub_ok info v ->
  value_info n b info (tnode_at name p sz) i = Ok (field_vinfo p v).
Proof.
  intros info name p sz soff es tl tys fs i v GI Hs T Hso HSF Hv HB HO.
  destruct (fields_nth_j b s p None tys es fs HSF) as (_ & _ & N).
  destruct (N i v Hv) as (t & e & pv & Ht & He & Hf & _).
  pose proof (field_at_stored_j n b s HD name p sz soff es tl tys i t e pv v Hs T Hso Ht He Hf) as FA.
  destruct (table_node n s HD name tys (Some (p, sz)) no_vinfo Hs) as (S1 & S2 & S3 & S4).
  destruct (S4 i _ Ht) as (typ & g & G1 & G2 & G3 & G4).
  destruct (seen_access b p soff es tl T Hso) as (_ & _ & A).
  destruct (A i e He) as (A1 & A2 & A3 & A4).
  pose proof (pos_entry_j b p soff es tl T) as HP.
  fold (tnode_at name p sz) in *.
  assert (CN : c_name (tnode_at name p sz) = name) by apply new_node_name.
  unfold value_info. rewrite G1. unfold WalkProofs.tnode_at at 1. rewrite new_node_node. rewrite CN, S1.
  rewrite G2 in FA. destruct GI as [GI1 GI2].
  destruct t as [t|sn ms|tn|us|t|sn ms|tn]; cbn [field_described] in G3.
  - destruct G3 as (G3 & _). destruct (says_tests _ _ G3) as (-> & -> & -> & -> & -> & ->).
    rewrite A1, (G4 t eq_refl).
    assert (E : field_vinfo p v = mkV (p + e) (zwidth t) 0).
    { inversion Hf; subst; cbn [field_vinfo]; f_equal; lia. }
    rewrite E. destruct (width_cases t) as [W|[W|[W|W]]]; rewrite W; reflexivity.
  - destruct G3 as (G3 & -> & SD). destruct (says_tests _ _ G3) as (-> & _). cbn.
    rewrite A1, FA. cbn [bind]. inversion Hf; subst; cbn [WalkProofs.field_node field_vinfo].
    + rewrite GI1 by apply new_node_node. cbn. do 2 f_equal. lia.
    + rewrite (GI2 _ _ _ _ SD). reflexivity.
  - destruct G3 as (G3 & ->). destruct (says_tests _ _ G3) as (-> & -> & -> & -> & -> & ->). cbn.
    inversion Hf; subst.
    + rewrite (A3 eq_refl), FA. cbn [bind WalkProofs.field_node]. rewrite GI1 by apply new_node_node. reflexivity.
    + rewrite (table_ref_at_j b p soff es tl i e q T Hso He) by auto. rewrite FA. cbn [bind].
      match goal with H : seen_table _ _ _ _ _ |- _ => destruct (stored_pos_j b s _ _ _ H) as (_ & _ & tys' & fs' & -> & _) end.
      cbn [WalkProofs.field_node field_vinfo]. cbn [WalkProofs3.sub_ok] in HO. unfold WalkProofs3.node_ok in HO. cbn [val_pos] in HO.
      unfold WalkProofs.tnode_at in HO. rewrite HO. reflexivity.
  - destruct G3 as (G3 & _). destruct (says_tests _ _ G3) as (-> & -> & -> & -> & -> & ->). cbn.
    destruct (follow_stored_j n b s HD name p sz soff es tl tys fs i us Hs T Hso HSF Ht v Hv)
      as [(tn & q & fs' & -> & HST & _ & F1 & F2 & F3)|(-> & F1 & F2 & F3)].
    + rewrite F2, F1. cbn [bind]. rewrite F3. cbn [bind]. cbn [WalkProofs3.sub_ok] in HO. unfold WalkProofs3.node_ok in HO. cbn [val_pos] in HO.
      rewrite HO. reflexivity.
    + rewrite F2, F1. reflexivity.
  - destruct G3 as (G3 & en & -> & EN & _). destruct (says_tests _ _ G3) as (-> & -> & -> & -> & -> & ->).
    inversion Hf; subst; cbn [WalkProofs.field_node] in FA.
    + assert (LI : list_info b p i = Ok no_vinfo).
      { unfold list_info. rewrite (absent_list b p i A2 A1). reflexivity. }
      rewrite LI, FA. pose proof (HB t eq_refl) as NW. unfold zwidth in NW.
      cbn [field_vinfo]. destruct (width_cases t) as [W|[W|[W|W]]]; rewrite W in *; cbn; try (exfalso; apply NW; reflexivity);
        rewrite new_node_node; reflexivity.
    + rewrite (list_info_at_j b p soff es tl i e q k T Hso He) by auto.
      match goal with H : sees_vector _ _ _ _ |- _ => destruct (vector_from_pos_j b p e q k HP ltac:(auto) H) as [Q1 Q2] end.
      rewrite FA. cbn [field_vinfo]. unfold zwidth in *.
      destruct (width_cases t) as [W|[W|[W|W]]]; rewrite W in *; cbn; rewrite ?new_node_node;
        rewrite (slice_scalars_j info _ _ _ _ _ _ Q1 Q2 EN); unfold zwidth; rewrite W; reflexivity.
  - destruct G3 as (G3 & -> & SD). destruct (says_tests _ _ G3) as (-> & -> & -> & -> & -> & ->). cbn.
    inversion Hf; subst; cbn [WalkProofs.field_node] in FA.
    + assert (LI : list_info b p i = Ok no_vinfo).
      { unfold list_info. rewrite (absent_list b p i A2 A1). reflexivity. }
      rewrite LI, FA. cbn [bind]. rewrite new_node_node. reflexivity.
    + rewrite (list_info_at_j b p soff es tl i e q k T Hso He) by auto. rewrite FA. cbn [bind].
      match goal with H : sees_vector _ _ _ _ |- _ => destruct (vector_from_pos_j b p e q k HP ltac:(auto) H) as [Q1 Q2] end.
      rewrite new_node_node. rewrite (slice_structs_j info _ _ _ _ _ _ (conj GI1 GI2) Q1 Q2 SD). reflexivity.
  - destruct G3 as (G3 & -> & TD). destruct (says_tests _ _ G3) as (-> & -> & -> & -> & -> & ->). cbn.
    inversion Hf; subst; cbn [WalkProofs.field_node] in FA.
    + assert (LI : list_info b p i = Ok no_vinfo).
      { unfold list_info. rewrite (absent_list b p i A2 A1). reflexivity. }
      rewrite LI, FA. cbn [bind]. rewrite new_node_node. reflexivity.
    + rewrite (list_info_at_j b p soff es tl i e q (zlen vs) T Hso He) by auto. rewrite FA. cbn [bind].
      match goal with H : sees_vector _ _ _ _ |- _ => destruct (vector_from_pos_j b p e q _ HP ltac:(auto) H) as [Q1 Q2] end.
      rewrite new_node_node. rewrite (slice_tables_j info _ _ _ _ _ (conj GI1 GI2) Q1 Q2 TD) by auto. reflexivity.
Qed.

End Schema.
