(** Searching stored tables. *)
From Coq Require Import ZArith List Bool Lia String.
From Coq Require Import Strings.Byte.
From Verif Require Import GoLib BaseModel GoLemmas BaseSpec BaseProofs TableModel TableSpec TableProofs.
From Verif Require Import TableProofs2 NameModel NameSpec NameProofs NameProofs2.
From Verif Require Import WalkModel WalkSpec WalkProofs WalkProofs2 WalkProofs3 WalkProofs4 WalkProofs5 WalkProofs8.
From Verif Require Import SearchModel SearchSpec.
Import ListNotations.
Open Scope list_scope.
Open Scope Z_scope.

Definition field_finds (inside : bool) (cond : vinfo -> bool) (name : string) (i : Z) (f : val) : list find :=
  match f with
  | Scalar q w => if_so cond (name, i, mkV q w 0)
  | Scalars q k w => if w =? 1 then if_so cond (name, i, mkV q k k) else []
  | _ => finds inside cond f
  end.

Lemma finds_tab : forall inside cond name p fs, finds inside cond (Tab name p fs) =
  if cond (mkV p (reach (Tab name p fs) - p) 0)
  then (name, -1, mkV p (reach (Tab name p fs) - p) 0) :: List.concat (numbered (field_finds inside cond name) fs) else [].
Proof.
  intros inside cond name p fs. cbn [finds]. destruct (cond _); [|reflexivity]. f_equal. f_equal. unfold numbered.
  match goal with |- ?F 0 fs = _ => enough (G : forall l i, F i l = map (fun iv => field_finds inside cond name (fst iv) (snd iv)) (number i l)) by apply G end.
  induction l as [|f l IH]; intros i; cbn [number map fst snd]; [reflexivity|]. f_equal. apply IH.
Qed.

Lemma numbered_ext : forall A B (g h : Z -> A -> B) l, (forall i v, In v l -> g i v = h i v) -> numbered g l = numbered h l.
Proof.
  intros A B g h l. unfold numbered. generalize 0 as i. induction l as [|v l IH]; intros i H; cbn [number map fst snd]; [reflexivity|].
  f_equal; [apply H; left; reflexivity|]. apply IH. intros j w HI. apply H. right. exact HI.
Qed.

Lemma numbered_map : forall A B C (g : Z -> A -> B) (h : B -> C) l, map h (numbered g l) = numbered (fun i v => h (g i v)) l.
Proof. intros. unfold numbered. apply map_map. Qed.

Lemma no_vectors_finds : forall inside cond v, no_vectors v -> finds inside cond v = finds false cond v.
Proof.
  intros inside cond. fix go 2. intros v H. destruct H as [t|p w|p k w|p k ms|p ms|name p fs H]; try reflexivity.
  rewrite !finds_tab. destruct (cond _); [|reflexivity]. f_equal. f_equal.
  unfold numbered. generalize 0 as i.
  induction H as [|f fs H1 H2 IH]; intros i; cbn [number map fst snd]; [reflexivity|].
  f_equal; [|apply IH]. pose proof (go f H1) as G. destruct f; try reflexivity; exact G.
Qed.

Section Schema.
Variable n : names.
Variable b : base.
Variable s : schema.
Variable cond : vinfo -> bool.
Hypothesis HF : flat b.
Hypothesis HD : describes n s.
Hypothesis HC : sized cond.
Hypothesis HN : plain_names n.

Local Notation m := (img_bytes (sl_data (b_bytes b))).
Local Notation tnode_at := (tnode_at n).
Local Notation field_node := (field_node n).

Lemma not_sized : forall i, v_size i <= 0 -> cond i = false.
Proof. intros i H. destruct (cond i) eqn:E; [|reflexivity]. pose proof (HC i E). lia. Qed.

(** A vector node has no size. *)
Lemma vector_no_size : forall f nd i e, exists r, node_info n b (S f) (new_node n (Some nd) i ("[]" ++ e)%string) = Ok r /\ v_size r <= 0.
Proof.
  intros f [p z] i e. cbn [node_info]. unfold info_step. rewrite new_node_node, new_node_name.
  destruct (group_panic n ("[]" ++ e)%string) as [T1 T2].
  destruct (get_type_group n ("[]" ++ e)%string) as [g| |]; [|exfalso; destruct T1 as [T1 _]; destruct (T1 eq_refl) as [X _]; cbn in X; lia|exfalso; apply T2; reflexivity].
  cbn [bind]. assert (EG : c_groups (new_node n (Some (p, z)) i ("[]" ++ e)%string) = []).
  { unfold new_node, fetch_index. cbn [c_name]. rewrite HN. reflexivity. }
  rewrite EG. destruct (is_field_basic g).
  - eexists. split; [reflexivity|]. cbn [v_size]. change (name_size ("[]" ++ e)%string) with 0. lia.
  - destruct (is_struct_name n _); eexists; (split; [reflexivity|]); cbn; lia.
Qed.

Definition found_ok (go : cnode -> res (list call)) (name : string) (v : val) : Prop :=
  forall sz, go (tnode_at name (val_pos v) sz) = Ok (finds false cond v).

Definition sub_found (go : cnode -> res (list call)) (v : val) : Prop :=
  match v with Tab name _ _ => found_ok go name v | _ => True end.

Lemma search_nil : forall f c, c_node c = None -> search n b cond (S (S f)) c = Ok [].
Proof.
  intros f c H. cbn [search]. rewrite (proj1 (node_info_good n b f) c H). cbn [bind].
  rewrite not_sized by (cbn; lia). reflexivity.
Qed.

Lemma slice_found : forall f go c, (exists r, node_info n b (S f) c = Ok r /\ v_size r <= 0) ->
  search_slice n b cond (node_info n b (S f)) go c = Ok [].
Proof. intros f go c (r & R1 & R2). unfold search_slice. rewrite R1. cbn [bind]. rewrite not_sized by exact R2. reflexivity. Qed.

Lemma search_field_stored : forall f name p sz soff es tl tys fs i v,
  s name = Some tys -> table_at m p soff es tl -> 0 <= soff -> stored_fields m s p None tys es fs ->
  zget fs i = Some v -> searchable v -> sub_found (search n b cond (S (S f))) v ->
  search_field n b cond (node_info n b (S (S f))) (search n b cond (S (S f))) (tnode_at name p sz) i = Ok (field_finds false cond name i v).
Proof.
  intros f name p sz soff es tl tys fs i v Hs T Hso HSF Hv HT HO.
  destruct (fields_nth b s p None tys es fs HSF) as (_ & _ & N).
  destruct (N i v Hv) as (t & e & pv & Ht & He & Hf & _).
  pose proof (field_at_stored n b s HF HD name p sz soff es tl tys i t e pv v Hs T Hso Ht He Hf) as FA.
  pose proof (value_info_stored n b s HF HD (node_info n b (S (S f))) name p sz soff es tl tys fs i v
    (node_info_good n b (S f)) Hs T Hso HSF Hv) as VI.
  destruct (table_node n s HD name tys (Some (p, sz)) no_vinfo Hs) as (S1 & S2 & S3 & S4).
  destruct (S4 i _ Ht) as (typ & g & G1 & G2 & G3 & G4).
  pose proof (pos_entry b p soff es tl T) as HP.
  fold (tnode_at name p sz) in *. rewrite G2 in FA.
  assert (CN : c_name (tnode_at name p sz) = name) by apply new_node_name.
  assert (NIL : forall typ, search n b cond (S (S f)) (new_node n None no_vinfo typ) = Ok []).
  { intros ty. apply search_nil. apply new_node_node. }
  assert (SL : forall go c, c_node c = None -> search_slice n b cond (node_info n b (S (S f))) go c = Ok []).
  { intros go c H. apply slice_found. exists no_vinfo. split; [apply node_info_good; exact H|cbn; lia]. }
  assert (SV : forall go nd i e, search_slice n b cond (node_info n b (S (S f))) go (new_node n (Some nd) i ("[]" ++ e)%string) = Ok []).
  { intros. apply slice_found. apply vector_no_size. }
  set (go := search n b cond (S (S f))) in *. clearbody go.
  set (info := node_info n b (S (S f))) in *. clearbody info.
  unfold search_field, is_leaf_at. rewrite G1, CN. fold (is_field_struct g) (is_field_union g) (is_field_slice g) (is_field_table g).
  destruct t as [t|sn ms|tn|us|t|sn ms|tn]; cbn [field_described] in G3.
  - destruct G3 as (G3 & _). destruct (says_tests _ _ G3) as (-> & -> & -> & -> & -> & ->).
    assert (L : (has [CBasic (width t)] 5 || (has [CBasic (width t)] 6 || (has [CBasic (width t)] 7 || (has [CBasic (width t)] 8 || false)))) = true /\
      has [CBasic (width t)] 1 = false /\ has [CBasic (width t)] 2 = false /\ has [CBasic (width t)] 3 = false /\ has [CBasic (width t)] 4 = false).
    { destruct (width_cases t) as [W|[W|[W|W]]]; rewrite W; repeat split; reflexivity. }
    destruct L as (L1 & L2 & L3 & L4 & L5). rewrite L1, L2, L3, L4, L5. cbn [andb].
    inversion Hf; subst; [inversion HT|]. rewrite VI by (try discriminate; exact I). reflexivity.
  - destruct G3 as (G3 & -> & SD). destruct (says_tests _ _ G3) as (-> & -> & -> & -> & -> & ->). cbn.
    rewrite FA. cbn [bind]. inversion Hf; subst; [|inversion HT]. cbn [WalkProofs.field_node]. rewrite NIL. reflexivity.
  - destruct G3 as (G3 & ->). destruct (says_tests _ _ G3) as (-> & -> & -> & -> & -> & ->). cbn.
    rewrite FA. cbn [bind]. inversion Hf; subst.
    + cbn [WalkProofs.field_node]. rewrite NIL. reflexivity.
    + match goal with H : stored_table _ _ _ _ _ |- _ => destruct (stored_pos b s _ _ _ H) as (_ & _ & tys' & fs' & -> & _) end.
      cbn [WalkProofs.field_node field_finds]. apply (HO (-1)).
  - destruct G3 as (G3 & _). destruct (says_tests _ _ G3) as (-> & -> & -> & -> & -> & ->). cbn.
    destruct (follow_stored n b s HF HD name p sz soff es tl tys fs i us Hs T Hso HSF Ht v Hv)
      as [(tn & q & fs' & -> & HST & _ & F1 & F2 & F3)|(-> & F1 & F2 & F3)]; rewrite F1; cbn [bind].
    + rewrite F3. cbn [bind field_finds]. apply (HO (-1)).
    + reflexivity.
  - destruct G3 as (G3 & en & -> & EN & NN). destruct (says_tests _ _ G3) as (-> & -> & -> & -> & -> & ->).
    assert (W1 : zwidth t = 1 \/ zwidth t <> 1) by lia.
    assert (W2 : zwidth t <> 1 -> has [CSlice; CBasic (width t)] 5 = false /\ has [CSlice; CBasic (width t)] 3 = false /\
        has [CSlice; CBasic (width t)] 1 = false /\ has [CSlice; CBasic (width t)] 4 = true).
    { unfold zwidth. intros X. destruct (width_cases t) as [W|[W|[W|W]]]; rewrite W in *; [exfalso; apply X; reflexivity| | |]; repeat split; reflexivity. }
    inversion Hf; subst.
    + inversion HT; subst. destruct (W2 ltac:(assumption)) as (X2 & X3 & X4 & X5). rewrite X2, X3, X4, X5. cbn [andb bind].
      rewrite FA. cbn [bind WalkProofs.field_node]. rewrite SL by apply new_node_node. reflexivity.
    + cbn [field_finds]. destruct W1 as [W1|W1].
      * specialize (VI ltac:(discriminate) I). rewrite VI. pose proof W1 as W0. unfold zwidth in W1. replace (width t) with 1%nat by lia.
        rewrite W0. cbn. replace (k * 1) with k by lia. reflexivity.
      * destruct (W2 W1) as (X2 & X3 & X4 & X5). rewrite X2, X3, X4, X5. cbn [andb bind].
        rewrite FA. cbn [bind WalkProofs.field_node]. replace (zwidth t =? 1) with false by lia. rewrite SV. reflexivity.
  - destruct G3 as (G3 & -> & SD). destruct (says_tests _ _ G3) as (-> & -> & -> & -> & -> & ->). cbn.
    rewrite FA. cbn [bind]. inversion Hf; subst; cbn [WalkProofs.field_node].
    + rewrite SL by apply new_node_node. reflexivity.
    + rewrite SV. reflexivity.
  - destruct G3 as (G3 & -> & TD). destruct (says_tests _ _ G3) as (-> & -> & -> & -> & -> & ->). cbn.
    rewrite FA. cbn [bind]. inversion Hf; subst; cbn [WalkProofs.field_node].
    + rewrite SL by apply new_node_node. reflexivity.
    + rewrite SV. reflexivity.
Qed.

Lemma search_unfold : forall f c, search n b cond (S f) c =
  (do i <- node_info n b f c;
   if cond i then
     do rs <- collect (search_field n b cond (node_info n b f) (search n b cond f) c) (indexes (map_len (c_groups c)));
     Ok ((c_name c, -1, i) :: List.concat rs)
   else Ok []).
Proof. reflexivity. Qed.


Lemma search_stored :
  (forall name p v, stored_table m s name p v -> measured v -> searchable v ->
     exists k, forall f, (k <= f)%nat -> found_ok (search n b cond f) name v) /\
  (forall p prev tys es fs, stored_fields m s p prev tys es fs -> Forall measured fs -> Forall searchable fs ->
     exists k, forall f, (k <= f)%nat -> forall v, In v fs -> sub_found (search n b cond f) v) /\
  (forall p prev t e v, stored_field m s p prev t e v -> measured v -> searchable v ->
     exists k, forall f, (k <= f)%nat -> sub_found (search n b cond f) v) /\
  (forall slot tn vs, stored_elems m s slot tn vs -> True).
Proof.
  assert (TAB : forall tn q v, stored_table m s tn q v ->
    (measured v -> searchable v -> exists k, forall f, (k <= f)%nat -> found_ok (search n b cond f) tn v) ->
    measured v -> searchable v -> exists k, forall f, (k <= f)%nat -> sub_found (search n b cond f) v).
  { intros tn q v HS IH HM HT. destruct (IH HM HT) as [k Hk]. exists k. intros f Hf.
    destruct (stored_pos b s _ _ _ HS) as (_ & _ & tys & fs & -> & _). cbn [sub_found]. apply Hk. exact Hf. }
  apply stored_mind; try (intros; exists 0%nat; intros; exact I).
  - intros name p soff es tl tys fs Hs T Hso HSF IH HM HT.
    assert (HS : stored_table m s name p (Tab name p fs)) by (econstructor; eauto).
    destruct (proj1 (info_stored n b s HF HD) name p _ HS HM) as [k1 K1].
    inversion HM as [| | | | |? ? ? M1 M2 M3 M4|]; subst. inversion HT as [| | | | | | | | |? ? ? T1|]; subst.
    destruct (IH M4 T1) as [k Hk].
    exists (S (S (S (Nat.max k k1)))). intros f Hf sz. destruct f as [|[|[|f]]]; [lia|lia|lia|]. cbn [val_pos].
    rewrite search_unfold. pose proof (K1 (S (S f)) ltac:(lia) sz) as K2. cbn [val_pos] in K2. rewrite K2. cbn [bind]. rewrite finds_tab.
    destruct (cond _) eqn:EC; [|reflexivity].
    destruct (table_node n s HD name tys (Some (p, sz)) no_vinfo Hs) as (_ & _ & S3 & _).
    fold (tnode_at name p sz) in S3. rewrite S3.
    destruct (fields_nth b s p None tys es fs HSF) as (L1 & _ & _). rewrite L1.
    destruct (collect_numbered val call find
      (search_field n b cond (node_info n b (S (S f))) (search n b cond (S (S f))) (tnode_at name p sz))
      (fun x => x) (fun _ => True) (field_finds false cond name) fs) as (yss & Y1 & Y2 & _).
    + intros i v Hv. exists (field_finds false cond name i v). split.
      * pose proof (zget_in _ _ _ _ Hv) as HI. rewrite Forall_forall in T1.
        eapply search_field_stored; eauto. apply Hk; [lia|exact HI].
      * split; [apply map_id|]. apply Forall_forall. intros. exact I.
    + rewrite Y1. cbn [bind]. rewrite map_id in Y2. rewrite Y2. unfold tnode_at. rewrite new_node_name. reflexivity.
  - intros p prev _ _. exists 0%nat. intros f _ v [].
  - intros p prev t tys e es v vs _ IH1 _ IH2 HM HT. inversion HM; subst. inversion HT; subst.
    destruct IH1 as [k1 X1]; auto. destruct IH2 as [k2 X2]; auto.
    exists (Nat.max k1 k2). intros f Hf w [<-|Hw]; [apply X1; lia|apply X2; [lia|auto]].
  - intros p prev tn e q v _ _ HS IH HM HT. eapply TAB; eauto.
  - intros p us e x k tn q v _ _ _ _ HS IH HM HT. eapply TAB; eauto.
  - exact (fun _ _ => I).
  - intros. exact I.
Qed.

Lemma search_finds : forall name p v sz, stored_table m s name p v -> measured v -> searchable v ->
  exists k, forall f, (k <= f)%nat -> search n b cond f (new_node n (Some (p, sz)) no_vinfo name) = Ok (finds false cond v).
Proof.
  intros name p v sz H HM HT. destruct (proj1 search_stored name p v H HM HT) as [k Hk]. exists k. intros f Hf.
  specialize (Hk f Hf sz). destruct (stored_pos b s _ _ _ H) as (_ & E & _). rewrite E in Hk. exact Hk.
Qed.

(** ** Where the finds are *)

Definition within (p e : Z) (x : find) : Prop := p <= v_pos (snd x) /\ v_pos (snd x) + v_size (snd x) <= e.

Definition at_find (pos : Z) (x : find) : bool := at_position pos (snd x).

Lemma filter_concat : forall A (g : A -> bool) l, filter g (List.concat l) = List.concat (map (filter g) l).
Proof. intros A g l. induction l as [|x l IH]; cbn [List.concat map]; [reflexivity|]. rewrite filter_app, IH. reflexivity. Qed.

Lemma filter_none : forall A (g : A -> bool) l, (forall x, In x l -> g x = false) -> filter g l = [].
Proof.
  intros A g l H. induction l as [|x l IH]; cbn [filter]; [reflexivity|]. rewrite H by (left; reflexivity).
  apply IH. intros y HI. apply H. right. exact HI.
Qed.

Lemma in_numbered2 : forall A B (g : Z -> A -> list B) l x, In x (List.concat (numbered g l)) ->
  exists i v, In v l /\ In x (g i v).
Proof.
  intros A B g l x H. unfold numbered in H. apply in_concat in H. destruct H as (ys & Y1 & Y2).
  apply in_map_iff in Y1. destruct Y1 as ([i v] & <- & Y3). exists i, v. split; [|exact Y2].
  clear - Y3. revert Y3. generalize 0 as j. induction l as [|w l IH]; intros j Y3; cbn [number In] in *; [contradiction|].
  destruct Y3 as [Y3|Y3]; [left; congruence|right; eapply IH; exact Y3].
Qed.

Section Inside.
Variable inside : bool.
Variable pos : Z.

Definition nested (p : Z) (v : val) : Prop := (forall x, In x (finds inside all v) -> within p (reach v) x) /\
  finds inside (at_position pos) v = filter (at_find pos) (finds inside all v).

Definition field_nested (p : Z) (v : val) : Prop := forall name i,
  (forall x, In x (field_finds inside all name i v) -> within p (reach v) x) /\
  field_finds inside (at_position pos) name i v = filter (at_find pos) (field_finds inside all name i v).

Lemma nested_none : forall p v, (forall c, finds inside c v = []) -> nested p v.
Proof. intros p v H. split; rewrite !H; [intros x []|reflexivity]. Qed.

Lemma nested_weaken : forall p q v, nested q v -> p <= q -> nested p v.
Proof. intros p q v [H1 H2] L. split; [|exact H2]. intros x HI. destruct (H1 x HI). split; lia. Qed.

Lemma nested_field : forall p v, match v with Scalar _ _ | Scalars _ _ _ => False | _ => True end -> nested p v -> field_nested p v.
Proof. intros p v H1 H2 name i. destruct v; try contradiction; exact H2. Qed.

Lemma nested_stored :
  (forall name p v, stored_table m s name p v -> nested p v) /\
  (forall p prev tys es fs, stored_fields m s p prev tys es fs -> forall v, In v fs -> field_nested p v) /\
  (forall p prev t e v, stored_field m s p prev t e v -> field_nested p v) /\
  (forall slot tn vs, stored_elems m s slot tn vs -> forall v, In v vs -> nested slot v).
Proof.
  assert (IS : forall x, filter (at_find pos) [x] = if_so (at_position pos) x) by reflexivity.
  apply stored_mind.
  - intros name p soff es tl tys fs Hs T Hso HSF IH. unfold nested. rewrite !finds_tab. cbn [all]. set (e := reach (Tab name p fs)).
    assert (R : p + 4 <= e /\ forall v, In v fs -> reach v <= e).
    { unfold e. cbn [reach]. destruct (proj1 (fold_max_le (map reach fs) (p + 4) _) (Z.le_refl _)) as [R1 R2].
      split; [exact R1|]. intros v HI. apply R2. apply in_map. exact HI. }
    assert (W : forall x, In x (List.concat (numbered (field_finds inside all name) fs)) -> within p e x).
    { intros x HI. apply in_numbered2 in HI. destruct HI as (i & v & V1 & V2).
      destruct (proj1 (IH v V1 name i) x V2) as [X1 X2]. pose proof (proj2 R v V1). split; lia. }
    split.
    + intros x [<-|HI]; [split; cbn [snd v_pos v_size]; lia|apply W; exact HI].
    + cbn [filter]. unfold at_find at 1. cbn [snd]. destruct (at_position pos (mkV p (e - p) 0)) eqn:E.
      * f_equal. rewrite filter_concat, numbered_map. f_equal. apply numbered_ext. intros i v HI. apply IH. exact HI.
      * symmetry. apply filter_none. intros x HI. destruct (W x HI) as [W1 W2]. unfold at_find, at_position in *.
        cbn [v_pos v_size] in E. lia.
  - intros p prev v [].
  - intros p prev t tys e es v vs _ IH1 _ IH2 w [<-|HI]; [exact IH1|apply IH2; exact HI].
  - intros. apply nested_field; [exact I|]. apply nested_none. reflexivity.
  - intros p prev t e He Ho name i. cbn [field_finds]. unfold if_so. cbn [all]. split; [|reflexivity].
    intros x [<-|[]]. split; cbn [snd v_pos v_size reach]; lia.
  - intros. apply nested_field; [exact I|]. apply nested_none. reflexivity.
  - intros p prev t e q k He [[V1 _] _] _ name i. cbn [field_finds]. unfold if_so. destruct (zwidth t =? 1) eqn:E; cbn [all].
    + split; [|reflexivity]. intros x [<-|[]]. split; cbn [snd v_pos v_size reach]; lia.
    + split; [intros x []|reflexivity].
  - intros. apply nested_field; [exact I|]. apply nested_none. reflexivity.
  - intros p prev tn e q v He [V1 _] HS IH. apply nested_field; [|apply (nested_weaken p q); [exact IH|lia]].
    inversion HS; exact I.
  - intros p prev tn e q vs He [[V1 _] _] _ IH. apply nested_field; [exact I|]. unfold nested in *. cbn [finds].
    destruct inside; [|split; [intros x []|reflexivity]]. split.
    + intros x HI. apply in_concat in HI. destruct HI as (ys & Y1 & Y2). apply in_map_iff in Y1. destruct Y1 as (v & <- & Y3).
      destruct (proj1 (IH v Y3) x Y2) as [X1 X2]. cbn [reach].
      destruct (proj1 (fold_max_le (map reach vs) (q + 4 * zlen vs) _) (Z.le_refl _)) as [_ R2].
      pose proof (R2 _ (in_map reach _ _ Y3)). split; lia.
    + rewrite filter_concat, map_map. f_equal. apply map_ext_in. intros v HI. apply IH. exact HI.
  - intros p us e x k tn q v He _ _ [V1 _] HS IH. apply nested_field; [|apply (nested_weaken p q); [exact IH|lia]].
    inversion HS; exact I.
  - intros. apply nested_field; [exact I|]. apply nested_none. reflexivity.
  - intros. apply nested_field; [exact I|]. apply nested_none. reflexivity.
  - intros slot tn v [].
  - intros slot tn q v vs [V1 _] _ IH1 _ IH2 w [<-|HI].
    + apply (nested_weaken slot q); [exact IH1|lia].
    + apply (nested_weaken slot (slot + 4)); [apply IH2; exact HI|lia].
Qed.
End Inside.

Lemma finds_filter : forall inside pos name p v, stored_table m s name p v ->
  finds inside (at_position pos) v = filter (fun x => at_position pos (snd x)) (finds inside all v).
Proof. intros inside pos name p v H. exact (proj2 (proj1 (nested_stored inside pos) name p v H)). Qed.

(** ** Fuel *)

Lemma upto_sslice : forall info info' go go' c, (forall c, upto (info c) (info' c)) -> (forall c, upto (go c) (go' c)) ->
  upto (search_slice n b cond info go c) (search_slice n b cond info' go' c).
Proof. intros info info' go go' c HI HG. unfold search_slice. repeat (upto_step || apply HI || apply HG). Qed.

Lemma upto_sfield : forall info info' go go' c i, (forall c, upto (info c) (info' c)) -> (forall c, upto (go c) (go' c)) ->
  upto (search_field n b cond info go c i) (search_field n b cond info' go' c i).
Proof.
  intros info info' go go' c i HI HG. unfold search_field.
  repeat (apply upto_value, HI || (apply upto_sslice; [exact HI|exact HG]) || upto_step || apply HG).
Qed.

Lemma upto_search : forall f c, upto (search n b cond f c) (search n b cond (S f) c).
Proof.
  induction f as [|f IH]; intros c; [left; reflexivity|]. rewrite (search_unfold f), (search_unfold (S f)).
  apply upto_bind; [apply upto_info|]. intros i. destruct (cond i); [|apply upto_refl].
  apply upto_bind; [|intros; apply upto_refl]. apply upto_collect. intros j.
  apply upto_sfield; [apply upto_info|exact IH].
Qed.

Lemma search_final : forall f f' c r, (f <= f')%nat -> search n b cond f c = r -> r <> OutOfFuel ->
  search n b cond f' c = r.
Proof.
  intros f f' c r H. revert r. induction H as [|f' H IH]; intros r E N; [exact E|].
  destruct (upto_search f' c) as [U|U]; [rewrite (IH r E N) in U; congruence|]. rewrite U. apply IH; auto.
Qed.

End Schema.


Lemma at_position_sized : forall pos, sized (at_position pos).
Proof. intros pos i H. unfold at_position in H. lia. Qed.

Lemma search_position : forall n b s pos name p v sz, flat b -> describes n s -> plain_names n ->
  stored_table (img_bytes (sl_data (b_bytes b))) s name p v -> measured v -> searchable v -> no_vectors v ->
  exists k, forall f, (k <= f)%nat ->
    search n b (at_position pos) f (new_node n (Some (p, sz)) no_vinfo name) =
    Ok (filter (fun x => at_position pos (snd x)) (finds true all v)).
Proof.
  intros n b s pos name p v sz HF HD HN HS HM HT HV.
  destruct (search_finds n b s (at_position pos) HF HD (at_position_sized pos) HN name p v sz HS HM HT) as [k K].
  exists k. intros f Hf. rewrite (K f Hf). f_equal. rewrite <- (no_vectors_finds true _ _ HV).
  eapply finds_filter. exact HS.
Qed.

(** ** Checking the conditions *)

Fixpoint searchable_b (v : val) : bool :=
  match v with
  | Absent (TyScalar _) => false
  | Absent (TyScalars t) => negb (zwidth t =? 1)
  | Struct _ _ => false
  | Tab _ _ fs => forallb searchable_b fs
  | _ => true
  end.

Lemma searchable_sound : forall v, searchable_b v = true -> searchable v.
Proof.
  fix go 1. intros v H. destruct v as [t|p w|p ms|p k w|p k ms|name p fs|name p es]; try discriminate; try constructor.
  - destruct t; try discriminate; constructor. cbn [searchable_b] in H. lia.
  - cbn [searchable_b] in H. clear - go H.
    induction fs as [|f fs IH]; constructor; cbn [forallb] in H; apply andb_true_iff in H; destruct H as (H1 & H2); auto.
Qed.

Fixpoint no_vectors_b (v : val) : bool :=
  match v with
  | Tab _ _ fs => forallb no_vectors_b fs
  | Tabs _ _ _ => false
  | _ => true
  end.

Lemma no_vectors_sound : forall v, no_vectors_b v = true -> no_vectors v.
Proof.
  fix go 1. intros v H. destruct v as [t|p w|p ms|p k w|p k ms|name p fs|name p es]; try discriminate; try constructor.
  cbn [no_vectors_b] in H. clear - go H.
  induction fs as [|f fs IH]; constructor; cbn [forallb] in H; apply andb_true_iff in H; destruct H as (H1 & H2); auto.
Qed.

Lemma plain_sound : forall n, forallb (fun x => negb (String.prefix "[]" (fst x))) (n_idxname n) = true -> plain_names n.
Proof.
  intros n H e. induction (n_idxname n) as [|[k x] l IH]; [reflexivity|]. cbn [forallb fst] in H. apply andb_true_iff in H.
  destruct H as [H1 H2]. cbn [lookup]. destruct (String.eqb _ _) eqn:E; [|apply IH; exact H2].
  apply String.eqb_eq in E. subst k. cbn in H1. destruct e; discriminate.
Qed.

Lemma search_outside : forall n b s cond name p v sz, flat b -> describes n s -> plain_names n -> sized cond ->
  stored_table (img_bytes (sl_data (b_bytes b))) s name p v -> measured v -> searchable v ->
  exists k, forall f, (k <= f)%nat ->
    search n b cond f (new_node n (Some (p, sz)) no_vinfo name) = Ok (finds false cond v).
Proof. intros n b s cond name p v sz HF HD HN HC. apply (search_finds n b s cond HF HD HC HN). Qed.

Lemma search_bare : forall n b s cond name p v sz, flat b -> describes n s -> plain_names n -> sized cond ->
  stored_table (img_bytes (sl_data (b_bytes b))) s name p v -> measured v -> searchable v -> no_vectors v ->
  exists k, forall f, (k <= f)%nat ->
    search n b cond f (new_node n (Some (p, sz)) no_vinfo name) = Ok (finds true cond v).
Proof.
  intros n b s cond name p v sz HF HD HN HC HS HM HT HV.
  rewrite (no_vectors_finds true _ _ HV). eapply search_outside; eauto.
Qed.

Lemma search_found : forall n b s pos name p v sz x, flat b -> describes n s -> plain_names n ->
  stored_table (img_bytes (sl_data (b_bytes b))) s name p v -> measured v -> searchable v -> no_vectors v ->
  In x (finds true all v) -> v_pos (snd x) <= pos < v_pos (snd x) + v_size (snd x) ->
  exists k rs, (forall f, (k <= f)%nat ->
    search n b (at_position pos) f (new_node n (Some (p, sz)) no_vinfo name) = Ok rs) /\ In x rs.
Proof.
  intros n b s pos name p v sz x HF HD HN HS HM HT HV HI HP.
  destruct (search_position n b s pos name p v sz HF HD HN HS HM HT HV) as [k K]. exists k. eexists.
  split; [exact K|]. apply filter_In. split; [exact HI|]. unfold at_position. lia.
Qed.
