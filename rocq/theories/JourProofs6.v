(** Traversal of buffers with journal entries. *)
From Coq Require Import ZArith List Bool Lia String.
From Coq Require Import Strings.Byte.
From Verif Require Import GoLib BaseModel GoLemmas BaseSpec BaseProofs TableModel TableSpec TableProofs.
From Verif Require Import TableProofs2 NameModel NameSpec NameProofs NameProofs2.
From Verif Require Import WalkModel WalkSpec WalkProofs WalkProofs2 WalkProofs3 WalkProofs4 WalkProofs5 WalkProofs7 JourProofs JourProofs2 JourProofs3 JourProofs4 JourProofs5.
Import ListNotations.
Open Scope list_scope.
Open Scope Z_scope.

Section Schema.
Variable n : names.
Variable b : base.
Variable s : schema.
Hypothesis HD : describes n s.

Local Notation m := b.
Local Notation tnode_at := (tnode_at n).
Local Notation field_node := (field_node n).
Local Notation visit_ok := (visit_ok n b).
Local Notation trav_ok := (trav_ok n b).
Local Notation sub_trav := (sub_trav n b).

Lemma vec_all_elems_j : forall nd q z e es,
  4 <= q -> reads m (q - 4) 4 (zlen es) ->
  let c := new_node n (Some nd) (mkV q z (zlen es)) ("[]" ++ e)%string in
  (forall i x, zget es i = Some x -> vec_at n b c i = Ok (Some x)) -> vec_all n b c = Ok es.
Proof.
  intros nd q z e es Hq H c HA. unfold vec_all. unfold c at 1. rewrite (vec_len_at_j n b _ _ _ _ _ Hq H). cbn [bind].
  replace (c_info c) with (mkV q z (zlen es)) by (symmetry; apply new_node_info). cbn [v_len].
  rewrite <- (zlen_map _ (@Some cnode) es). rewrite (collect_indexes _ _ (map Some es)).
  - cbn [bind]. f_equal. clear. induction es as [|x es IH]; cbn; [reflexivity|]. f_equal. exact IH.
  - intros i y Hy. rewrite zget_map in Hy. destruct (zget es i) eqn:E; [|discriminate]. injection Hy as <-. auto.
Qed.

Lemma slice_trav_scalars_j : forall f nd q z k e t, 4 <= q -> reads m (q - 4) 4 k ->
  lookup name_to_type e = Some t -> lookup (n_idxname n) e = None ->
  exists xs, traverse_slice n b (traverse n b (S f)) (new_node n (Some nd) (mkV q z k) ("[]" ++ e)%string) = Ok xs /\
    map sight xs = map (fun iq => (q, fst iq, snd iq, -1)) (number 0 (positions q (zwidth t) (Z.to_nat k))) /\
    Forall visit_ok xs.
Proof.
  intros f nd q z k e t Hq H He HN. pose proof (proj1 H) as Hk.
  set (el := fun i => new_node n (Some (q + i * zwidth t, -1)) no_vinfo e).
  assert (ZL : zlen (map el (indexes k)) = k) by (rewrite zlen_map; apply zlen_indexes; lia).
  assert (EG : forall i, traverse n b (S f) (el i) = Ok []).
  { intros i. cbn [traverse]. replace (c_groups (el i)) with (@nil (Z * Z)); [reflexivity|].
    unfold el, new_node, fetch_index. cbn [c_name]. rewrite HN. reflexivity. }
  unfold traverse_slice. rewrite new_node_info. cbn [v_pos].
  pose proof (vec_all_elems_j nd q z e (map el (indexes k))) as AL. cbv zeta in AL. rewrite ZL in AL. rewrite AL; auto.
  2:{ intros i x Hx. rewrite zget_map in Hx. destruct (zget (indexes k) i) as [j|] eqn:E; [|discriminate].
      pose proof (zget_some_range _ _ _ E) as R. rewrite zlen_indexes in R by lia.
      rewrite zget_indexes in E by lia. injection E as <-. injection Hx as <-. apply vec_at_scalar_j; auto. }
  cbn [bind]. change (Z.of_nat (List.length (map el (indexes k)))) with (zlen (map el (indexes k))).
  destruct (collect_combine cnode visit sighting Z
    (fun ie => let '(i, e0) := ie in
       do p <- node_pos e0; do sub <- traverse n b (S f) e0;
       Ok (mkVisit (new_node n (Some nd) (mkV q z k) ("[]" ++ e)%string) i q p (-1) :: sub))
    sight visit_ok (fun i x => [(q, i, x, -1)]) (map el (indexes k)) (positions q (zwidth t) (Z.to_nat k))) as (yss & Y1 & Y2 & Y3).
  - rewrite ZL, zlen_positions. lia.
  - intros i v x Hv Hx. rewrite zget_map in Hx. destruct (zget (indexes k) i) as [j|] eqn:E; [|discriminate].
    pose proof (zget_some_range _ _ _ E) as R. rewrite zlen_indexes in R by lia.
    rewrite zget_indexes in E by lia. injection E as <-. injection Hx as <-.
    rewrite zget_positions in Hv by lia. injection Hv as <-. rewrite EG.
    unfold node_pos. unfold el at 1. rewrite new_node_node. cbn [bind]. eexists. split; [reflexivity|]. split; [reflexivity|].
    constructor; [|constructor]. exists (el i). unfold tree_node, tree_pos. cbn [x_node x_idx x_child].
    rewrite new_node_info. cbn [v_pos]. replace (0 <? q) with true by lia. split.
    + apply vec_at_scalar_j; auto.
    + unfold el. rewrite new_node_info, new_node_node. reflexivity.
  - rewrite Y1. cbn [bind]. eexists. split; [reflexivity|]. split; [|exact Y3]. rewrite Y2. unfold numbered.
    generalize (number 0 (positions q (zwidth t) (Z.to_nat k))) as l. induction l as [|x l IH]; cbn; [reflexivity|]. f_equal. exact IH.
Qed.

Lemma slice_trav_tables_j : forall go nd q z tn vs, 4 <= q -> reads m (q - 4) 4 (zlen vs) ->
  table_described n tn -> seen_elems m s q tn vs -> (forall e, In e vs -> trav_ok go tn e) ->
  exists xs, traverse_slice n b go (new_node n (Some nd) (mkV q z (zlen vs)) ("[]" ++ tn)%string) = Ok xs /\
    map sight xs = sightings (Tabs tn q vs) /\ Forall visit_ok xs.
Proof.
  intros go nd q z tn vs Hq H HT HE HO.
  set (el := fun v => tnode_at tn (val_pos v) (-1)).
  unfold traverse_slice. rewrite new_node_info. cbn [v_pos].
  pose proof (vec_all_elems_j nd q z tn (map el vs)) as AL. cbv zeta in AL. rewrite zlen_map in AL. rewrite AL; auto.
  2:{ intros i x Hx. rewrite zget_map in Hx. destruct (zget vs i) as [v|] eqn:E; [|discriminate].
      injection Hx as <-. eapply vec_at_table_j; eauto. }
  cbn [bind]. change (Z.of_nat (List.length (map el vs))) with (zlen (map el vs)). rewrite sightings_tabs.
  destruct (collect_combine cnode visit sighting val
    (fun ie => let '(i, e0) := ie in
       do p <- node_pos e0; do sub <- go e0;
       Ok (mkVisit (new_node n (Some nd) (mkV q z (zlen vs)) ("[]" ++ tn)%string) i q p (-1) :: sub))
    sight visit_ok (fun i e => (q, i, val_pos e, -1) :: sightings e) (map el vs) vs) as (yss & Y1 & Y2 & Y3).
  - apply zlen_map.
  - intros i v x Hv Hx. rewrite zget_map, Hv in Hx. injection Hx as <-.
    destruct (HO v (zget_in _ _ _ _ Hv) (-1)) as (xs & X1 & X2 & X3).
    unfold node_pos. unfold el at 1. unfold WalkProofs.tnode_at at 1. rewrite new_node_node. cbn [bind].
    unfold el. rewrite X1. cbn [bind]. eexists. split; [reflexivity|]. cbn [map]. rewrite X2. split; [reflexivity|].
    constructor; [|exact X3]. exists (tnode_at tn (val_pos v) (-1)). unfold tree_node, tree_pos. cbn [x_node x_idx x_child].
    rewrite new_node_info. cbn [v_pos]. replace (0 <? q) with true by lia. split.
    + eapply vec_at_table_j; eauto.
    + unfold WalkProofs.tnode_at. rewrite new_node_info, new_node_node. reflexivity.
  - rewrite Y1. cbn [bind]. eexists. split; [reflexivity|]. split; [exact Y2|exact Y3].
Qed.

Lemma traverse_field_stored_j : forall f name p sz soff es tl tys fs i v,
  s name = Some tys -> seen_at m p soff es tl -> 0 <= soff -> seen_fields m s p None tys es fs ->
  zget fs i = Some v -> traversable v -> sub_trav (traverse n b (S f)) v ->
  exists xs, traverse_field n b (node_info n b (S f)) (traverse n b (S f)) (tnode_at name p sz) i = Ok xs /\
    map sight xs = field_sights p i v /\ Forall visit_ok xs.
Proof.
  intros f name p sz soff es tl tys fs i v Hs T Hso HSF Hv HT HO.
  destruct (fields_nth_j b s p None tys es fs HSF) as (_ & _ & N).
  destruct (N i v Hv) as (t & e & pv & Ht & He & Hf & _).
  pose proof (field_at_stored_j n b s HD name p sz soff es tl tys i t e pv v Hs T Hso Ht He Hf) as FA.
  pose proof (value_info_stored_j n b s HD (node_info n b (S f)) name p sz soff es tl tys fs i v
    (node_info_good n b f) Hs T Hso HSF Hv) as VI.
  destruct (table_node n s HD name tys (Some (p, sz)) no_vinfo Hs) as (S1 & S2 & S3 & S4).
  destruct (S4 i _ Ht) as (typ & g & G1 & G2 & G3 & G4).
  destruct (seen_access b p soff es tl T Hso) as (_ & _ & A).
  destruct (A i e He) as (A1 & A2 & A3 & A4).
  pose proof (pos_entry_j b p soff es tl T) as HP.
  fold (tnode_at name p sz) in *. rewrite G2 in FA.
  assert (NP : node_pos (tnode_at name p sz) = Ok p) by (unfold node_pos, WalkProofs.tnode_at; rewrite new_node_node; reflexivity).
  assert (VO : forall q z, tree_pos (field_node typ p v) = Some q ->
    visit_ok (mkVisit (tnode_at name p sz) i p q z)).
  { intros q z HQ. exists (field_node typ p v). split; [|exact HQ].
    unfold tree_node. cbn [x_node x_idx]. unfold WalkProofs.tnode_at at 1. rewrite new_node_info.
    cbn [no_vinfo v_pos Z.ltb Z.compare]. rewrite FA. reflexivity. }
  pose proof (slice_trav_scalars_j f) as STS. set (go := traverse n b (S f)) in *. clearbody go.
  set (info := node_info n b (S f)) in *. clearbody info.
  unfold traverse_field, is_leaf_at. rewrite G1.
  destruct t as [t|sn ms|tn|us|t|sn ms|tn]; cbn [field_described] in G3.
  - destruct G3 as (G3 & _). destruct (says_tests _ _ G3) as (-> & -> & -> & -> & -> & ->).
    assert (L : (has [CBasic (width t)] 5 || (has [CBasic (width t)] 6 || (has [CBasic (width t)] 7 || (has [CBasic (width t)] 8 || false)))) = true /\
      has [CBasic (width t)] 1 = false /\ has [CBasic (width t)] 2 = false /\ has [CBasic (width t)] 3 = false /\ has [CBasic (width t)] 4 = false).
    { destruct (width_cases t) as [W|[W|[W|W]]]; rewrite W; repeat split; reflexivity. }
    destruct L as (L1 & L2 & L3 & L4 & L5). rewrite L1, L2, L3, L4, L5. cbn [andb].
    inversion Hf; subst; [inversion HT|]. rewrite VI by (try discriminate; exact I). cbn [bind]. rewrite NP. cbn [bind field_vinfo v_pos v_size].
    eexists. split; [reflexivity|]. split; [reflexivity|]. constructor; [|constructor]. apply VO.
    unfold tree_pos. cbn [WalkProofs.field_node]. rewrite new_node_info, new_node_node. reflexivity.
  - destruct G3 as (G3 & -> & SD). destruct (says_tests _ _ G3) as (-> & -> & -> & -> & -> & ->). cbn.
    rewrite FA. cbn [bind]. inversion Hf; subst; [|inversion HT]. cbn [WalkProofs.field_node]. rewrite new_node_node. eexists. split; [reflexivity|]. split; [reflexivity|constructor].
  - destruct G3 as (G3 & ->). destruct (says_tests _ _ G3) as (-> & -> & -> & -> & -> & ->). cbn.
    rewrite FA. cbn [bind]. inversion Hf; subst.
    + cbn [WalkProofs.field_node]. rewrite new_node_node. eexists. split; [reflexivity|]. split; [reflexivity|constructor].
    + match goal with H : sees_at _ _ _ |- _ => pose proof (proj1 H) end.
      match goal with H : seen_table _ _ _ _ _ |- _ => destruct (stored_pos_j b s _ _ _ H) as (_ & _ & tys' & fs' & -> & _) end.
      cbn [WalkProofs.field_node]. rewrite new_node_node, NP. cbn [bind]. rewrite A1. cbn [bind].
      rewrite (table_ref_at_j b p soff es tl i e q T Hso He) by auto. cbn [bind].
      replace (p + e =? q) with false by lia. destruct (HO (-1)) as (xs & X1 & X2 & X3). cbn [val_pos] in X1.
      match type of X1 with go (WalkProofs.tnode_at n ?N ?Q ?Z) = ?R => change (go (new_node n (Some (Q, Z)) no_vinfo N) = R) in X1 end. rewrite X1. cbn [bind]. eexists. split; [reflexivity|].
      cbn [map field_sights val_pos]. rewrite X2. split; [reflexivity|]. constructor; [|exact X3]. apply VO.
      unfold tree_pos. cbn [WalkProofs.field_node]. rewrite new_node_info, new_node_node. reflexivity.
  - destruct G3 as (G3 & _). destruct (says_tests _ _ G3) as (-> & -> & -> & -> & -> & ->). cbn.
    destruct (follow_stored_j n b s HD name p sz soff es tl tys fs i us Hs T Hso HSF Ht v Hv)
      as [(tn & q & fs' & -> & HST & _ & F1 & F2 & F3)|(-> & F1 & F2 & F3)]; rewrite F3; cbn [bind].
    + replace (c_node (tnode_at tn q (-1))) with (Some (q, -1)) by (symmetry; apply new_node_node). rewrite NP. cbn [bind]. rewrite A1, F2. cbn [bind].
      assert (Q : p + e < q).
      { inversion Hf; subst; match goal with H : sees_at _ _ _ |- _ => pose proof (proj1 H) end.
        match goal with H : seen_table _ _ _ _ (Tab _ _ _) |- _ => inversion H; subst end. lia. }
      replace (p + e =? q) with false by lia. destruct (HO (-1)) as (xs & X1 & X2 & X3). cbn [val_pos] in X1.
      rewrite X1. cbn [bind]. eexists. split; [reflexivity|].
      cbn [map field_sights val_pos]. rewrite X2. split; [reflexivity|]. constructor; [|exact X3]. apply VO.
      unfold tree_pos. cbn [WalkProofs.field_node]. rewrite new_node_info, new_node_node. reflexivity.
    + eexists. split; [reflexivity|]. split; [reflexivity|constructor].
  - destruct G3 as (G3 & en & -> & EN & NN). destruct (says_tests _ _ G3) as (-> & -> & -> & -> & -> & ->).
    inversion Hf; subst; [inversion HT|]. cbn [WalkProofs.field_node] in FA.
    match goal with H : sees_vector _ _ _ _ |- _ => destruct (vector_from_pos_j b p e q k HP ltac:(auto) H) as [Q1 Q2] end.
    specialize (VI ltac:(discriminate) I). rewrite VI, FA. cbn [bind]. rewrite NP. cbn [bind field_vinfo v_pos v_size field_sights sightings].
    assert (W1 : zwidth t = 1 \/ zwidth t <> 1) by lia. destruct W1 as [W1|W1].
    + pose proof W1 as W0. rewrite W1. unfold zwidth in W1. replace (width t) with 1%nat by lia. cbn.
      eexists. split; [reflexivity|]. cbn. replace (k * 1) with k by lia. split; [reflexivity|].
      constructor; [|constructor]. apply VO. unfold tree_pos. cbn [WalkProofs.field_node]. rewrite W0. cbn [Z.eqb Pos.eqb].
      rewrite new_node_info. cbn [v_pos]. replace (0 <? q) with true by lia. reflexivity.
    + replace (zwidth t =? 1) with false by lia. replace (zwidth t =? 1) with false in FA by lia.
      destruct (STS (p, -1) q 0 k en t Q1 Q2 EN NN) as (xs & X1 & X2 & X3). pose proof W1 as W0.
      unfold zwidth in W1.
      assert (W2 : has [CSlice; CBasic (width t)] 5 = false /\ has [CSlice; CBasic (width t)] 3 = false /\
        has [CSlice; CBasic (width t)] 1 = false /\ has [CSlice; CBasic (width t)] 4 = true).
      { destruct (width_cases t) as [W|[W|[W|W]]]; rewrite W in *; [exfalso; apply W1; reflexivity| | |]; repeat split; reflexivity. }
      destruct W2 as (W2 & W3 & W4 & W5). rewrite W2, W3, W4, W5. cbn [andb negb].
      cbn [bind]. rewrite new_node_info. cbn [v_pos].
      rewrite X1. cbn [bind]. eexists. split; [reflexivity|]. cbn [map]. rewrite X2. split; [reflexivity|].
      constructor; [|exact X3]. apply VO. unfold tree_pos. cbn [WalkProofs.field_node]. replace (zwidth t =? 1) with false by lia.
      rewrite new_node_info. cbn [v_pos]. replace (0 <? q) with true by lia. reflexivity.
  - destruct G3 as (G3 & -> & SD). inversion Hf; subst; inversion HT.
  - destruct G3 as (G3 & -> & TD). destruct (says_tests _ _ G3) as (-> & -> & -> & -> & -> & ->). cbn.
    inversion Hf; subst; [inversion HT|]. cbn [WalkProofs.field_node] in FA. rewrite FA. cbn [bind]. rewrite NP. cbn [bind].
    match goal with H : sees_vector _ _ _ _ |- _ => destruct (vector_from_pos_j b p e q _ HP ltac:(auto) H) as [Q1 Q2] end.
    destruct (slice_trav_tables_j go (p, -1) q 0 tn vs Q1 Q2 TD) as (xs & X1 & X2 & X3); auto.
    rewrite X1. cbn [bind]. rewrite new_node_info. eexists. split; [reflexivity|]. cbn [map field_sights val_pos v_pos]. rewrite X2. split; [reflexivity|].
    constructor; [|exact X3]. apply VO. unfold tree_pos. cbn [WalkProofs.field_node].
    rewrite new_node_info. cbn [v_pos]. replace (0 <? q) with true by lia. reflexivity.
Qed.

Lemma traverse_stored_j :
  (forall name p v, seen_table m s name p v -> traversable v ->
     exists k, forall f, (k <= f)%nat -> trav_ok (traverse n b f) name v) /\
  (forall p prev tys es fs, seen_fields m s p prev tys es fs -> Forall traversable fs ->
     exists k, forall f, (k <= f)%nat -> forall v, In v fs -> sub_trav (traverse n b f) v) /\
  (forall p prev t e v, seen_field m s p prev t e v -> traversable v ->
     exists k, forall f, (k <= f)%nat -> sub_trav (traverse n b f) v) /\
  (forall slot tn vs, seen_elems m s slot tn vs -> Forall traversable vs ->
     exists k, forall f, (k <= f)%nat -> forall v, In v vs -> trav_ok (traverse n b f) tn v).
Proof.
  assert (TAB : forall tn q v, seen_table m s tn q v ->
    (traversable v -> exists k, forall f, (k <= f)%nat -> trav_ok (traverse n b f) tn v) ->
    traversable v -> exists k, forall f, (k <= f)%nat -> sub_trav (traverse n b f) v).
  { intros tn q v HS IH HM. destruct (IH HM) as [k Hk]. exists k. intros f Hf.
    destruct (stored_pos_j b s _ _ _ HS) as (_ & _ & tys & fs & -> & _). cbn [WalkProofs5.sub_trav]. apply Hk. exact Hf. }
  apply seen_mind; try (intros; exists 0%nat; intros; exact I).
  - intros name p soff es tl tys fs Hs T Hso HSF IH HM.
    inversion HM as [| | | | |? ? ? M|]; subst. destruct (IH M) as [k Hk].
    exists (S (S k)). intros f Hf sz. destruct f as [|[|f]]; [lia|lia|]. cbn [val_pos].
    change (traverse n b (S (S f)) (tnode_at name p sz)) with
      (do vs <- collect (traverse_field n b (node_info n b (S f)) (traverse n b (S f)) (tnode_at name p sz))
                  (indexes (map_len (c_groups (tnode_at name p sz)))); Ok (List.concat vs)).
    destruct (table_node n s HD name tys (Some (p, sz)) no_vinfo Hs) as (_ & _ & S3 & _).
    fold (tnode_at name p sz) in S3. rewrite S3.
    destruct (fields_nth_j b s p None tys es fs HSF) as (L1 & _ & _). rewrite L1.
    destruct (collect_numbered val visit sighting
      (traverse_field n b (node_info n b (S f)) (traverse n b (S f)) (tnode_at name p sz)) sight visit_ok (field_sights p) fs) as (yss & Y1 & Y2 & Y3).
    + intros i v Hv. pose proof (zget_in _ _ _ _ Hv) as HI. rewrite Forall_forall in M.
      eapply traverse_field_stored_j; eauto. apply Hk; [lia|auto].
    + rewrite Y1. cbn [bind]. eexists. split; [reflexivity|]. rewrite Y2, sightings_tab. split; [reflexivity|exact Y3].
  - intros p prev _. exists 0%nat. intros f _ v [].
  - intros p prev t tys e es v vs _ IH1 _ IH2 HM. inversion HM; subst.
    destruct IH1 as [k1 K1]; auto. destruct IH2 as [k2 K2]; auto.
    exists (Nat.max k1 k2). intros f Hf w [<-|Hw]; [apply K1; lia|apply K2; [lia|auto]].
  - intros p prev tn e q v _ _ HS IH HM. eapply TAB; eauto.
  - intros p prev tn e q vs _ _ _ IH HM. inversion HM as [| | | | | |? ? ? M2]; subst. destruct (IH M2) as [k Hk].
    exists k. intros f Hf. cbn [WalkProofs5.sub_trav]. apply Hk; auto.
  - intros p us e x k tn q v _ _ _ _ HS IH HM. eapply TAB; eauto.
  - intros slot tn _. exists 0%nat. intros f _ v [].
  - intros slot tn q v vs _ _ IH1 _ IH2 HM. inversion HM; subst.
    destruct IH1 as [k1 K1]; auto. destruct IH2 as [k2 K2]; auto.
    exists (Nat.max k1 k2). intros f Hf w [<-|Hw]; [apply K1; lia|apply K2; [lia|auto]].
Qed.

Lemma traversal_j : forall name p v sz, seen_table m s name p v -> traversable v ->
  exists k, forall f, (k <= f)%nat -> exists xs,
    traverse n b f (new_node n (Some (p, sz)) no_vinfo name) = Ok xs /\
    map (fun x => (x_parent x, x_idx x, x_child x, x_size x)) xs = sightings v.
Proof.
  intros name p v sz H HM. destruct (proj1 traverse_stored_j name p v H HM) as [k Hk]. exists k. intros f Hf.
  specialize (Hk f Hf sz). destruct (stored_pos_j b s _ _ _ H) as (_ & E & _). rewrite E in Hk.
  destruct Hk as (xs & X1 & X2 & _). exists xs. split; [exact X1|exact X2].
Qed.

End Schema.
