(** Searching through a journal. *)
From Coq Require Import ZArith List Bool Lia String.
From Coq Require Import Strings.Byte.
From Verif Require Import GoLib BaseModel GoLemmas BaseSpec BaseProofs TableModel TableSpec TableProofs.
From Verif Require Import TableProofs2 NameModel NameSpec NameProofs NameProofs2.
From Verif Require Import WalkModel WalkSpec WalkProofs WalkProofs2 WalkProofs3 WalkProofs4 WalkProofs5 WalkProofs8 SearchModel SearchSpec SearchProofs.
From Verif Require Import JourProofs JourProofs2 JourProofs3 JourProofs4 JourProofs5 InsSpec PutSpec JourSpec JourProofs8 JourProofs9 JourProofs10.
From Verif Require Import DocModel DocSpec.
From Verif Require PutProofs2 DocProofs.
Import ListNotations.
Open Scope list_scope.
Open Scope Z_scope.

Section Schema.
Variable n : names.
Variable b : base.
Variable s : schema.
Variable cond : vinfo -> bool.
Hypothesis HD : describes n s.
Hypothesis HC : sized cond.
Hypothesis HN : plain_names n.

Local Notation m := b.
Local Notation tnode_at := (tnode_at n).
Local Notation field_node := (field_node n).
Local Notation found_ok := (found_ok n cond).
Local Notation sub_found := (sub_found n cond).

Lemma search_field_stored_j : forall f name p sz soff es tl tys fs i v,
  s name = Some tys -> seen_at m p soff es tl -> 0 <= soff -> seen_fields m s p None tys es fs ->
  zget fs i = Some v -> searchable v -> sub_found (search n b cond (S (S f))) v ->
  search_field n b cond (node_info n b (S (S f))) (search n b cond (S (S f))) (tnode_at name p sz) i = Ok (field_finds false cond name i v).
Proof.
  intros f name p sz soff es tl tys fs i v Hs T Hso HSF Hv HT HO.
  destruct (fields_nth_j b s p None tys es fs HSF) as (_ & _ & N).
  destruct (N i v Hv) as (t & e & pv & Ht & He & Hf & _).
  pose proof (field_at_stored_j n b s HD name p sz soff es tl tys i t e pv v Hs T Hso Ht He Hf) as FA.
  pose proof (value_info_stored_j n b s HD (node_info n b (S (S f))) name p sz soff es tl tys fs i v
    (node_info_good n b (S f)) Hs T Hso HSF Hv) as VI.
  destruct (table_node n s HD name tys (Some (p, sz)) no_vinfo Hs) as (S1 & S2 & S3 & S4).
  destruct (S4 i _ Ht) as (typ & g & G1 & G2 & G3 & G4).
  pose proof (pos_entry_j b p soff es tl T) as HP.
  fold (tnode_at name p sz) in *. rewrite G2 in FA.
  assert (CN : c_name (tnode_at name p sz) = name) by apply new_node_name.
  assert (NIL : forall typ, search n b cond (S (S f)) (new_node n None no_vinfo typ) = Ok []).
  { intros ty. apply (search_nil n b cond HC). apply new_node_node. }
  assert (SL : forall go c, c_node c = None -> search_slice n b cond (node_info n b (S (S f))) go c = Ok []).
  { intros go c H. apply (slice_found n b cond HC). exists no_vinfo. split; [apply node_info_good; exact H|cbn; lia]. }
  assert (SV : forall go nd i e, search_slice n b cond (node_info n b (S (S f))) go (new_node n (Some nd) i ("[]" ++ e)%string) = Ok []).
  { intros. apply (slice_found n b cond HC). apply (vector_no_size n b HN). }
  set (go := search n b cond (S (S f))) in *. clearbody go.
  set (info := node_info n b (S (S f))) in *. clearbody info.
  unfold search_field, is_leaf_at. rewrite G1, CN. fold (is_field_struct g) (is_field_union g) (is_field_slice g) (is_field_table g).
  destruct t as [t|sn ms|tn|us|t|sn ms|tn]; cbn [field_described] in G3.
  - destruct G3 as (G3 & _). destruct (says_tests _ _ G3) as (-> & -> & -> & -> & -> & ->).
    assert (L : (has [CBasic (width t)] 5 || (has [CBasic (width t)] 6 || (has [CBasic (width t)] 7 || (has [CBasic (width t)] 8 || false)))) = true /\
      has [CBasic (width t)] 1 = false /\ has [CBasic (width t)] 2 = false /\ has [CBasic (width t)] 3 = false /\ has [CBasic (width t)] 4 = false).
    { destruct (width_cases t) as [W|[W|[W|W]]]; rewrite W; repeat split; reflexivity. }
    destruct L as (L1 & L2 & L3 & L4 & L5). rewrite L1, L2, L3, L4, L5. cbn [andb].
    inversion Hf; subst; [inversion HT|]. rewrite VI by (try discriminate; exact I). reflexivity.
  - destruct G3 as (G3 & -> & SD). destruct (says_tests _ _ G3) as (-> & -> & -> & -> & -> & ->). cbn.
    rewrite FA. cbn [bind]. inversion Hf; subst; [|inversion HT]. cbn [WalkProofs.field_node]. rewrite NIL. reflexivity.
  - destruct G3 as (G3 & ->). destruct (says_tests _ _ G3) as (-> & -> & -> & -> & -> & ->). cbn.
    rewrite FA. cbn [bind]. inversion Hf; subst.
    + cbn [WalkProofs.field_node]. rewrite NIL. reflexivity.
    + match goal with H : seen_table _ _ _ _ _ |- _ => destruct (stored_pos_j b s _ _ _ H) as (_ & _ & tys' & fs' & -> & _) end.
      cbn [WalkProofs.field_node field_finds]. apply (HO (-1)).
  - destruct G3 as (G3 & _). destruct (says_tests _ _ G3) as (-> & -> & -> & -> & -> & ->). cbn.
    destruct (follow_stored_j n b s HD name p sz soff es tl tys fs i us Hs T Hso HSF Ht v Hv)
      as [(tn & q & fs' & -> & HST & _ & F1 & F2 & F3)|(-> & F1 & F2 & F3)]; rewrite F1; cbn [bind].
    + rewrite F3. cbn [bind field_finds]. apply (HO (-1)).
    + reflexivity.
  - destruct G3 as (G3 & en & -> & EN & NN). destruct (says_tests _ _ G3) as (-> & -> & -> & -> & -> & ->).
    assert (W1 : zwidth t = 1 \/ zwidth t <> 1) by lia.
    assert (W2 : zwidth t <> 1 -> has [CSlice; CBasic (width t)] 5 = false /\ has [CSlice; CBasic (width t)] 3 = false /\
        has [CSlice; CBasic (width t)] 1 = false /\ has [CSlice; CBasic (width t)] 4 = true).
    { unfold zwidth. intros X. destruct (width_cases t) as [W|[W|[W|W]]]; rewrite W in *; [exfalso; apply X; reflexivity| | |]; repeat split; reflexivity. }
    inversion Hf; subst.
    + inversion HT; subst. destruct (W2 ltac:(assumption)) as (X2 & X3 & X4 & X5). rewrite X2, X3, X4, X5. cbn [andb bind].
      rewrite FA. cbn [bind WalkProofs.field_node]. rewrite SL by apply new_node_node. reflexivity.
    + cbn [field_finds]. destruct W1 as [W1|W1].
      * specialize (VI ltac:(discriminate) I). rewrite VI. pose proof W1 as W0. unfold zwidth in W1. replace (width t) with 1%nat by lia.
        rewrite W0. cbn. replace (k * 1) with k by lia. reflexivity.
      * destruct (W2 W1) as (X2 & X3 & X4 & X5). rewrite X2, X3, X4, X5. cbn [andb bind].
        rewrite FA. cbn [bind WalkProofs.field_node]. replace (zwidth t =? 1) with false by lia. rewrite SV. reflexivity.
  - destruct G3 as (G3 & -> & SD). destruct (says_tests _ _ G3) as (-> & -> & -> & -> & -> & ->). cbn.
    rewrite FA. cbn [bind]. inversion Hf; subst; cbn [WalkProofs.field_node].
    + rewrite SL by apply new_node_node. reflexivity.
    + rewrite SV. reflexivity.
  - destruct G3 as (G3 & -> & TD). destruct (says_tests _ _ G3) as (-> & -> & -> & -> & -> & ->). cbn.
    rewrite FA. cbn [bind]. inversion Hf; subst; cbn [WalkProofs.field_node].
    + rewrite SL by apply new_node_node. reflexivity.
    + rewrite SV. reflexivity.
Qed.

Lemma search_stored_j :
  (forall name p v, seen_table m s name p v -> measured v -> searchable v ->
     exists k, forall f, (k <= f)%nat -> found_ok (search n b cond f) name v) /\
  (forall p prev tys es fs, seen_fields m s p prev tys es fs -> Forall measured fs -> Forall searchable fs ->
     exists k, forall f, (k <= f)%nat -> forall v, In v fs -> sub_found (search n b cond f) v) /\
  (forall p prev t e v, seen_field m s p prev t e v -> measured v -> searchable v ->
     exists k, forall f, (k <= f)%nat -> sub_found (search n b cond f) v) /\
  (forall slot tn vs, seen_elems m s slot tn vs -> True).
Proof.
  assert (TAB : forall tn q v, seen_table m s tn q v ->
    (measured v -> searchable v -> exists k, forall f, (k <= f)%nat -> found_ok (search n b cond f) tn v) ->
    measured v -> searchable v -> exists k, forall f, (k <= f)%nat -> sub_found (search n b cond f) v).
  { intros tn q v HS IH HM HT. destruct (IH HM HT) as [k Hk]. exists k. intros f Hf.
    destruct (stored_pos_j b s _ _ _ HS) as (_ & _ & tys & fs & -> & _). cbn [sub_found]. apply Hk. exact Hf. }
  apply seen_mind; try (intros; exists 0%nat; intros; exact I).
  - intros name p soff es tl tys fs Hs T Hso HSF IH HM HT.
    assert (HS : seen_table m s name p (Tab name p fs)) by (econstructor; eauto).
    destruct (proj1 (info_stored_j n b s HD) name p _ HS HM) as [k1 K1].
    inversion HM as [| | | | |? ? ? M1 M2 M3 M4|]; subst. inversion HT as [| | | | | | | | |? ? ? T1|]; subst.
    destruct (IH M4 T1) as [k Hk].
    exists (S (S (S (Nat.max k k1)))). intros f Hf sz. destruct f as [|[|[|f]]]; [lia|lia|lia|]. cbn [val_pos].
    rewrite (search_unfold n b cond). pose proof (K1 (S (S f)) ltac:(lia) sz) as K2. cbn [val_pos] in K2. rewrite K2. cbn [bind]. rewrite finds_tab.
    destruct (cond _) eqn:EC; [|reflexivity].
    destruct (table_node n s HD name tys (Some (p, sz)) no_vinfo Hs) as (_ & _ & S3 & _).
    fold (tnode_at name p sz) in S3. rewrite S3.
    destruct (fields_nth_j b s p None tys es fs HSF) as (L1 & _ & _). rewrite L1.
    destruct (collect_numbered val SearchModel.call find
      (search_field n b cond (node_info n b (S (S f))) (search n b cond (S (S f))) (tnode_at name p sz))
      (fun x => x) (fun _ => True) (field_finds false cond name) fs) as (yss & Y1 & Y2 & _).
    + intros i v Hv. exists (field_finds false cond name i v). split.
      * pose proof (zget_in _ _ _ _ Hv) as HI. rewrite Forall_forall in T1.
        eapply search_field_stored_j; eauto. apply Hk; [lia|exact HI].
      * split; [apply map_id|]. apply Forall_forall. intros. exact I.
    + rewrite Y1. cbn [bind]. rewrite map_id in Y2. rewrite Y2. unfold tnode_at. rewrite new_node_name. reflexivity.
  - intros p prev _ _. exists 0%nat. intros f _ v [].
  - intros p prev t tys e es v vs _ IH1 _ IH2 HM HT. inversion HM; subst. inversion HT; subst.
    destruct IH1 as [k1 X1]; auto. destruct IH2 as [k2 X2]; auto.
    exists (Nat.max k1 k2). intros f Hf w [<-|Hw]; [apply X1; lia|apply X2; [lia|auto]].
  - intros p prev tn e q v _ _ HS IH HM HT. eapply TAB; eauto.
  - intros p us e x k tn q v _ _ _ _ HS IH HM HT. eapply TAB; eauto.
  - exact (fun _ _ => I).
  - intros. exact I.
Qed.

Lemma search_finds_j : forall name p v sz, seen_table m s name p v -> measured v -> searchable v ->
  exists k, forall f, (k <= f)%nat -> search n b cond f (new_node n (Some (p, sz)) no_vinfo name) = Ok (finds false cond v).
Proof.
  intros name p v sz H HM HT. destruct (proj1 search_stored_j name p v H HM HT) as [k Hk]. exists k. intros f Hf.
  specialize (Hk f Hf sz). destruct (stored_pos_j b s _ _ _ H) as (_ & E & _). rewrite E in Hk. exact Hk.
Qed.

End Schema.

Section Nested.
Variable s : schema.
Variable m : image.

Section Inside.
Variable inside : bool.
Variable pos : Z.

Local Notation nested := (nested inside pos).
Local Notation field_nested := (field_nested inside pos).

Lemma nested_any :
  (forall name p v, stored_table m s name p v -> nested p v) /\
  (forall p prev tys es fs, stored_fields m s p prev tys es fs -> forall v, In v fs -> field_nested p v) /\
  (forall p prev t e v, stored_field m s p prev t e v -> field_nested p v) /\
  (forall slot tn vs, stored_elems m s slot tn vs -> forall v, In v vs -> nested slot v).
Proof.
  assert (IS : forall x, filter (at_find pos) [x] = if_so (at_position pos) x) by reflexivity.
  apply stored_mind.
  - intros name p soff es tl tys fs Hs T Hso HSF IH. unfold SearchProofs.nested. rewrite !finds_tab. cbn [all]. set (e := reach (Tab name p fs)).
    assert (R : p + 4 <= e /\ forall v, In v fs -> reach v <= e).
    { unfold e. cbn [reach]. destruct (proj1 (fold_max_le (map reach fs) (p + 4) _) (Z.le_refl _)) as [R1 R2].
      split; [exact R1|]. intros v HI. apply R2. apply in_map. exact HI. }
    assert (W : forall x, In x (List.concat (numbered (field_finds inside all name) fs)) -> within p e x).
    { intros x HI. apply in_numbered2 in HI. destruct HI as (i & v & V1 & V2).
      destruct (proj1 (IH v V1 name i) x V2) as [X1 X2]. pose proof (proj2 R v V1). split; lia. }
    split.
    + intros x [<-|HI]; [split; cbn [snd v_pos v_size]; lia|apply W; exact HI].
    + cbn [filter]. unfold at_find at 1. cbn [snd]. destruct (at_position pos (mkV p (e - p) 0)) eqn:E.
      * f_equal. rewrite filter_concat, numbered_map. f_equal. apply numbered_ext. intros i v HI. apply IH. exact HI.
      * symmetry. apply filter_none. intros x HI. destruct (W x HI) as [W1 W2]. unfold at_find, at_position in *.
        cbn [v_pos v_size] in E. lia.
  - intros p prev v [].
  - intros p prev t tys e es v vs _ IH1 _ IH2 w [<-|HI]; [exact IH1|apply IH2; exact HI].
  - intros. apply nested_field; [exact I|]. apply nested_none. reflexivity.
  - intros p prev t e He Ho name i. cbn [field_finds]. unfold if_so. cbn [all]. split; [|reflexivity].
    intros x [<-|[]]. split; cbn [snd v_pos v_size reach]; lia.
  - intros. apply nested_field; [exact I|]. apply nested_none. reflexivity.
  - intros p prev t e q k He [[V1 _] _] _ name i. cbn [field_finds]. unfold if_so. destruct (zwidth t =? 1) eqn:E; cbn [all].
    + split; [|reflexivity]. intros x [<-|[]]. split; cbn [snd v_pos v_size reach]; lia.
    + split; [intros x []|reflexivity].
  - intros. apply nested_field; [exact I|]. apply nested_none. reflexivity.
  - intros p prev tn e q v He [V1 _] HS IH. apply nested_field; [|apply (nested_weaken inside pos p q); [exact IH|lia]].
    inversion HS; exact I.
  - intros p prev tn e q vs He [[V1 _] _] _ IH. apply nested_field; [exact I|]. unfold SearchProofs.nested in *. cbn [finds].
    destruct inside; [|split; [intros x []|reflexivity]]. split.
    + intros x HI. apply in_concat in HI. destruct HI as (ys & Y1 & Y2). apply in_map_iff in Y1. destruct Y1 as (v & <- & Y3).
      destruct (proj1 (IH v Y3) x Y2) as [X1 X2]. cbn [reach].
      destruct (proj1 (fold_max_le (map reach vs) (q + 4 * zlen vs) _) (Z.le_refl _)) as [_ R2].
      pose proof (R2 _ (in_map reach _ _ Y3)). split; lia.
    + rewrite filter_concat, map_map. f_equal. apply map_ext_in. intros v HI. apply IH. exact HI.
  - intros p us e x k tn q v He _ _ [V1 _] HS IH. apply nested_field; [|apply (nested_weaken inside pos p q); [exact IH|lia]].
    inversion HS; exact I.
  - intros. apply nested_field; [exact I|]. apply nested_none. reflexivity.
  - intros. apply nested_field; [exact I|]. apply nested_none. reflexivity.
  - intros slot tn v [].
  - intros slot tn q v vs [V1 _] _ IH1 _ IH2 w [<-|HI].
    + apply (nested_weaken inside pos slot q); [exact IH1|lia].
    + apply (nested_weaken inside pos slot (slot + 4)); [apply IH2; exact HI|lia].
Qed.
End Inside.

Lemma finds_filter_any : forall inside pos name p v, stored_table m s name p v ->
  finds inside (at_position pos) v = filter (fun x => at_position pos (snd x)) (finds inside all v).
Proof. intros inside pos name p v H. exact (proj2 (proj1 (nested_any inside pos) name p v H)). Qed.

End Nested.

Lemma jour_search : forall n b s m cond name p v sz, in_memory b -> shows b m -> describes n s -> plain_names n -> sized cond ->
  stored_table m s name p v -> intact b m v -> measured v -> searchable v ->
  exists k, forall f, (k <= f)%nat ->
    search n b cond f (new_node n (Some (p, sz)) no_vinfo name) = Ok (finds false cond v).
Proof.
  intros n b s m cond name p v sz HB HM HD HN HC H HI. apply (search_finds_j n b s cond HD HC HN).
  exact (proj1 (stored_seen b m s HB HM) name p v H HI).
Qed.

Lemma jour_position : forall n b s m pos name p v sz, in_memory b -> shows b m -> describes n s -> plain_names n ->
  stored_table m s name p v -> intact b m v -> measured v -> searchable v ->
  exists k, forall f, (k <= f)%nat ->
    search n b (at_position pos) f (new_node n (Some (p, sz)) no_vinfo name) =
    Ok (filter (fun x => at_position pos (snd x)) (finds false all v)).
Proof.
  intros n b s m pos name p v sz HB HM HD HN HS HI HE HT.
  destruct (jour_search n b s m (at_position pos) name p v sz HB HM HD HN (at_position_sized pos) HS HI HE HT) as [k K].
  exists k. intros f Hf. rewrite (K f Hf). f_equal. eapply finds_filter_any. exact HS.
Qed.

Lemma search_after : forall n s, describes n s -> plain_names n ->
  forall m v cs ts m' v', changes n s m v cs ts m' v' -> forall b name p, in_memory b -> shows b m ->
  stored_table m s name p v -> intact b m v ->
  exists b' k, (forall fuel, (k <= fuel)%nat -> run_calls n fuel b cs = Ok b') /\
    forall cond tn tp fs sz, sized cond -> In (Tab tn tp fs) (tables v') -> measured (Tab tn tp fs) -> searchable (Tab tn tp fs) ->
    exists k', forall f, (k' <= f)%nat ->
      search n b' cond f (new_node n (Some (tp, sz)) no_vinfo tn) = Ok (finds false cond (Tab tn tp fs)).
Proof.
  intros n s HD HN m v cs ts m' v' HC b name p HB HM H HI.
  destruct (DocProofs.calls_done n s HD m v cs ts m' v' HC b name p HB HM H HI) as (b' & k & R & HB' & HM' & S' & I' & _).
  exists b', k. split; [exact R|]. intros cond tn tp fs sz HZ HT HE HS.
  destruct (proj1 (PutProofs2.tables_stored m' s v') name p S' _ HT) as (nm & q & gs & E & ST). injection E as <- <- <-.
  apply (jour_search n b' s m' cond tn tp _ sz HB' HM' HD HN HZ ST); auto. exact (intact_inside b' m' v' _ I' HT).
Qed.
