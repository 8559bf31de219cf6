(** The visits of a traversal in full: for every one the nodes on both sides,
    as a function of the stored value. *)
From Coq Require Import ZArith List Bool Lia String.
From Coq Require Import Strings.Byte.
From Verif Require Import GoLib BaseModel GoLemmas BaseSpec BaseProofs TableModel TableSpec TableProofs.
From Verif Require Import TableProofs2 NameModel NameSpec NameProofs NameProofs2.
From Verif Require Import WalkModel WalkSpec WalkProofs WalkProofs2 WalkProofs3 WalkProofs4 WalkProofs5.
From Verif Require Import InsModel InsSpec InsProofs.
Import ListNotations.
Open Scope list_scope.
Open Scope Z_scope.

(** One visit: the node of the owner's tree, the owner as the traversal has it,
    the index, the node of the child's tree, the positions of both, the reported
    size, the number of earlier visits of the same owner, and the reference it
    goes along. *)
Record bond := mkB {
  w_tree : cnode; w_node : cnode; w_idx : Z; w_child : cnode; w_owner : Z; w_place : Z;
  w_size : Z; w_rank : Z; w_link : option (Z * Z) }.

Definition strip2 (s : string) : string :=
  match s with String _ (String _ e) => e | _ => EmptyString end.

Lemma strip2_list : forall e, strip2 ("[]" ++ e)%string = e.
Proof. reflexivity. Qed.

Fixpoint ranked {A} (g : Z -> Z -> val -> list A) (i r : Z) (fs : list val) : list (list A) :=
  match fs with
  | [] => []
  | f :: fs' => g i r f :: ranked g (i + 1) (if gap f then r else r + 1) fs'
  end.

Section Bonds.
Variable n : names.
Variable m : image.

Definition elem_bonds (c : cnode) (q k w : Z) : list bond :=
  map (fun iq => mkB c c (fst iq) (new_node n (Some (snd iq, -1)) no_vinfo (strip2 (c_name c)))
                   q (snd iq) (-1) (fst iq) None)
    (number 0 (positions q w (Z.to_nat k))).

Fixpoint bonds (tc c : cnode) (v : val) : list bond :=
  match v with
  | Tab _ p fs =>
      List.concat ((fix go i r fs := match fs with
        | [] => []
        | f :: fs' =>
            let cn := field_node n (field_type_name n c i) p f in
            let one z l := mkB tc c i cn p (val_pos f) z r l in
            match f with
            | Absent (TyScalar t) => [mkB tc c i cn p p (zwidth t) r None]
            | Scalar _ w => [one w None]
            | Scalars q k w =>
                one (if w =? 1 then k else -1) (Some (slot_of m p i, q - 4)) ::
                (if w =? 1 then [] else elem_bonds cn q k w)
            | Tab tn q _ => one (-1) (Some (slot_of m p i, q)) :: bonds cn (tnode_at n tn q (-1)) f
            | Tabs tn q _ => one (-1) (Some (slot_of m p i, q - 4)) :: bonds cn cn f
            | _ => []
            end :: go (i + 1) (if gap f then r else r + 1) fs'
        end) 0 0 fs)
  | Tabs tn q es =>
      List.concat ((fix go i es := match es with
        | [] => []
        | e :: es' =>
            let cn := tnode_at n tn (val_pos e) (-1) in
            (mkB tc c i cn q (val_pos e) (-1) i (Some (q + 4 * i, val_pos e)) :: bonds cn cn e)
              :: go (i + 1) es'
        end) 0 es)
  | _ => []
  end.

Definition field_bonds (tc c : cnode) (p i r : Z) (f : val) : list bond :=
  let cn := field_node n (field_type_name n c i) p f in
  let one z l := mkB tc c i cn p (val_pos f) z r l in
  match f with
  | Absent (TyScalar t) => [mkB tc c i cn p p (zwidth t) r None]
  | Scalar _ w => [one w None]
  | Scalars q k w =>
      one (if w =? 1 then k else -1) (Some (slot_of m p i, q - 4)) ::
      (if w =? 1 then [] else elem_bonds cn q k w)
  | Tab tn q _ => one (-1) (Some (slot_of m p i, q)) :: bonds cn (tnode_at n tn q (-1)) f
  | Tabs tn q _ => one (-1) (Some (slot_of m p i, q - 4)) :: bonds cn cn f
  | _ => []
  end.

Definition elem_bond (tc c : cnode) (tn : string) (q i : Z) (e : val) : list bond :=
  let cn := tnode_at n tn (val_pos e) (-1) in
  mkB tc c i cn q (val_pos e) (-1) i (Some (q + 4 * i, val_pos e)) :: bonds cn cn e.

Lemma bonds_tab : forall tc c name p fs,
  bonds tc c (Tab name p fs) = List.concat (ranked (field_bonds tc c p) 0 0 fs).
Proof.
  intros tc c name p fs. cbn [bonds]. f_equal. generalize 0 at 1 3 as i. generalize 0 as r. revert fs.
  induction fs as [|f fs IH]; intros r i; cbn [ranked]; [reflexivity|]. f_equal. apply IH.
Qed.

Lemma bonds_tabs : forall tc c tn q es,
  bonds tc c (Tabs tn q es) = List.concat (numbered (elem_bond tc c tn q) es).
Proof.
  intros tc c tn q es. cbn [bonds]. f_equal. unfold numbered. generalize 0 as i.
  induction es as [|f fs IH]; intros i; cbn [number map fst snd]; [reflexivity|]. f_equal. apply IH.
Qed.

End Bonds.

Section Schema.
Variable n : names.
Variable b : base.
Variable s : schema.
Hypothesis HF : flat b.
Hypothesis HD : describes n s.

Local Notation m := (img_bytes (sl_data (b_bytes b))).
Local Notation tnode_at := (tnode_at n).
Local Notation field_node := (field_node n).
Local Notation bonds := (bonds n m).

Definition full_of (x : visit) : cnode * Z * res (option cnode) * (Z * Z * Z) :=
  (x_node x, x_idx x, tree_node n b x, (x_parent x, x_child x, x_size x)).
Definition bond_of (w : bond) : cnode * Z * res (option cnode) * (Z * Z * Z) :=
  (w_node w, w_idx w, Ok (Some (w_child w)), (w_owner w, w_place w, w_size w)).

Lemma map_ranked : forall tc c p fs,
  map bond_of (List.concat (ranked (field_bonds n m tc c p) 0 0 fs)) =
  List.concat (numbered (fun i f => map bond_of (field_bonds n m tc c p i 0 f)) fs).
Proof.
  intros tc c p fs. unfold numbered. generalize 0 at 1 4 as i. generalize 0 at 1 as r. revert fs.
  induction fs as [|f fs IH]; intros r i; [reflexivity|]. cbn [ranked List.concat number map fst snd].
  rewrite map_app, IH. f_equal. unfold field_bonds. destruct f as [[]| | | | | |]; reflexivity.
Qed.

Lemma map_numbered : forall A B C (h : B -> C) (g : Z -> A -> list B) l,
  map h (List.concat (numbered g l)) = List.concat (numbered (fun i x => map h (g i x)) l).
Proof.
  intros A B C h g l. unfold numbered. rewrite concat_map, map_map. reflexivity.
Qed.

Definition trav_all (go : cnode -> res (list visit)) (name : string) (v : val) : Prop :=
  forall sz, exists xs, go (tnode_at name (val_pos v) sz) = Ok xs /\
    forall tc, map full_of xs = map bond_of (bonds tc (tnode_at name (val_pos v) sz) v).

Definition sub_all (go : cnode -> res (list visit)) (v : val) : Prop :=
  match v with
  | Tab name _ _ => trav_all go name v
  | Tabs name _ es => forall e, In e es -> trav_all go name e
  | _ => True
  end.

Lemma slice_all_scalars : forall f nd q z k e t, 4 <= q -> holds_uint m (q - 4) 4 k ->
  lookup name_to_type e = Some t -> lookup (n_idxname n) e = None ->
  let c := new_node n (Some nd) (mkV q z k) ("[]" ++ e)%string in
  exists xs, traverse_slice n b (traverse n b (S f)) c = Ok xs /\
    map full_of xs = map bond_of (elem_bonds n c q k (zwidth t)).
Proof.
  intros f nd q z k e t Hq H He HN c. pose proof (proj1 H) as Hk.
  set (el := fun i => new_node n (Some (q + i * zwidth t, -1)) no_vinfo e).
  assert (ZL : zlen (map el (indexes k)) = k) by (rewrite zlen_map; apply zlen_indexes; lia).
  assert (EG : forall i, traverse n b (S f) (el i) = Ok []).
  { intros i. cbn [traverse]. replace (c_groups (el i)) with (@nil (Z * Z)); [reflexivity|].
    unfold el, new_node, fetch_index. cbn [c_name]. rewrite HN. reflexivity. }
  assert (CI : c_info c = mkV q z k) by apply new_node_info.
  unfold traverse_slice. rewrite CI. cbn [v_pos].
  pose proof (vec_all_elems n b HF nd q z e (map el (indexes k))) as AL. cbv zeta in AL. rewrite ZL in AL. fold c in AL. rewrite AL; auto.
  2:{ intros i x Hx. rewrite zget_map in Hx. destruct (zget (indexes k) i) as [j|] eqn:E; [|discriminate].
      pose proof (zget_some_range _ _ _ E) as R. rewrite zlen_indexes in R by lia.
      rewrite zget_indexes in E by lia. injection E as <-. injection Hx as <-. apply vec_at_scalar; auto. }
  cbn [bind]. change (Z.of_nat (List.length (map el (indexes k)))) with (zlen (map el (indexes k))).
  destruct (collect_combine cnode visit _ Z
    (fun ie => let '(i, e0) := ie in
       do p <- node_pos e0; do sub <- traverse n b (S f) e0;
       Ok (mkVisit c i q p (-1) :: sub))
    full_of (fun _ => True) (fun i x => [bond_of (mkB c c i (new_node n (Some (x, -1)) no_vinfo e) q x (-1) i None)]) (map el (indexes k)) (positions q (zwidth t) (Z.to_nat k))) as (yss & Y1 & Y2 & _).
  - rewrite ZL, zlen_positions. lia.
  - intros i v x Hv Hx. rewrite zget_map in Hx. destruct (zget (indexes k) i) as [j|] eqn:E; [|discriminate].
    pose proof (zget_some_range _ _ _ E) as R. rewrite zlen_indexes in R by lia.
    rewrite zget_indexes in E by lia. injection E as <-. injection Hx as <-.
    rewrite zget_positions in Hv by lia. injection Hv as <-. rewrite EG.
    unfold node_pos. unfold el at 1. rewrite new_node_node. cbn [bind]. eexists. split; [reflexivity|].
    split; [|repeat constructor]. cbn [map full_of x_node x_idx x_parent x_child x_size]. unfold full_of. cbn [x_node x_idx x_parent x_child x_size].
    unfold tree_node. cbn [x_node x_idx]. rewrite CI. cbn [v_pos]. replace (0 <? q) with true by lia.
    assert (EV : vec_at n b c i = Ok (Some (el i))) by (apply vec_at_scalar; auto).
    rewrite EV. reflexivity.
  - rewrite Y1. cbn [bind]. eexists. split; [reflexivity|]. rewrite Y2. unfold numbered, elem_bonds.
    replace (strip2 (c_name c)) with e by (unfold c; rewrite new_node_name; reflexivity).
    generalize (number 0 (positions q (zwidth t) (Z.to_nat k))) as l. induction l as [|x l IH]; cbn; [reflexivity|]. f_equal. exact IH.
Qed.

Lemma slice_all_tables : forall go nd q z tn vs, 4 <= q -> holds_uint m (q - 4) 4 (zlen vs) ->
  table_described n tn -> stored_elems m s q tn vs -> (forall e, In e vs -> trav_all go tn e) ->
  let c := new_node n (Some nd) (mkV q z (zlen vs)) ("[]" ++ tn)%string in
  exists xs, traverse_slice n b go c = Ok xs /\
    forall tc, map full_of xs = map bond_of (bonds tc c (Tabs tn q vs)).
Proof.
  intros go nd q z tn vs Hq H HT HE HO c.
  set (el := fun v => tnode_at tn (val_pos v) (-1)).
  assert (CI : c_info c = mkV q z (zlen vs)) by apply new_node_info.
  unfold traverse_slice. rewrite CI. cbn [v_pos].
  pose proof (vec_all_elems n b HF nd q z tn (map el vs)) as AL. cbv zeta in AL. rewrite zlen_map in AL. fold c in AL. rewrite AL; auto.
  2:{ intros i x Hx. rewrite zget_map in Hx. destruct (zget vs i) as [v|] eqn:E; [|discriminate].
      injection Hx as <-. eapply vec_at_table; eauto. }
  cbn [bind]. change (Z.of_nat (List.length (map el vs))) with (zlen (map el vs)).
  assert (G : exists xs, collect (fun ie => let '(i, e0) := ie in
       do p <- node_pos e0; do sub <- go e0;
       Ok (mkVisit c i q p (-1) :: sub)) (combine (indexes (zlen (map el vs))) (map el vs)) = Ok xs /\
       map full_of (List.concat xs) = List.concat (numbered (fun i e => map bond_of (elem_bond n m c c tn q i e)) vs)).
  { destruct (collect_combine cnode visit _ val
      (fun ie => let '(i, e0) := ie in
       do p <- node_pos e0; do sub <- go e0;
       Ok (mkVisit c i q p (-1) :: sub))
      full_of (fun _ => True) (fun i e => map bond_of (elem_bond n m c c tn q i e)) (map el vs) vs) as (yss & Y1 & Y2 & _).
    - apply zlen_map.
    - intros i v x Hv Hx. rewrite zget_map, Hv in Hx. injection Hx as <-.
      destruct (HO v (zget_in _ _ _ _ Hv) (-1)) as (xs & X1 & X2).
      unfold node_pos. unfold el at 1. unfold WalkProofs.tnode_at at 1. rewrite new_node_node. cbn [bind].
      unfold el. rewrite X1. cbn [bind]. eexists. split; [reflexivity|]. split; [|apply Forall_forall; auto].
      unfold elem_bond. cbn [map]. rewrite (X2 (tnode_at tn (val_pos v) (-1))). f_equal.
      unfold full_of, bond_of. cbn [x_node x_idx x_parent x_child x_size w_node w_idx w_child w_owner w_place w_size].
      unfold tree_node. cbn [x_node x_idx]. rewrite CI. cbn [v_pos]. replace (0 <? q) with true by lia.
      assert (EV : vec_at n b c i = Ok (Some (tnode_at tn (val_pos v) (-1)))) by (eapply vec_at_table; eauto).
      rewrite EV. reflexivity.
    - eauto. }
  destruct G as (xs & X1 & X2). rewrite X1. cbn [bind]. eexists. split; [reflexivity|]. intros tc. rewrite X2, bonds_tabs, map_numbered.
  f_equal.
Qed.

Lemma bond_tree : forall tc tc' c v, map bond_of (bonds tc c v) = map bond_of (bonds tc' c v).
Proof.
  intros tc tc' c v. destruct v; try reflexivity.
  - rewrite !bonds_tab, !map_ranked. f_equal. unfold numbered. apply map_ext. intros [i f]. cbn [fst snd].
    unfold field_bonds. destruct f as [[]| | | | | |]; reflexivity.
  - rewrite !bonds_tabs, !map_numbered. reflexivity.
Qed.

Lemma traverse_field_all : forall f name p sz soff es tl tys fs i v tc,
  s name = Some tys -> table_at m p soff es tl -> 0 <= soff -> stored_fields m s p None tys es fs ->
  zget fs i = Some v -> insertable v -> sub_all (traverse n b (S f)) v ->
  exists xs, traverse_field n b (node_info n b (S f)) (traverse n b (S f)) (tnode_at name p sz) i = Ok xs /\
    map full_of xs = map bond_of (field_bonds n m tc (tnode_at name p sz) p i 0 v).
Proof.
  intros f name p sz soff es tl tys fs i v tc Hs T Hso HSF Hv HT HO.
  destruct (fields_nth b s p None tys es fs HSF) as (_ & _ & N).
  destruct (N i v Hv) as (t & e & pv & Ht & He & Hf & _).
  pose proof (field_at_stored n b s HF HD name p sz soff es tl tys i t e pv v Hs T Hso Ht He Hf) as FA.
  pose proof (value_info_stored n b s HF HD (node_info n b (S f)) name p sz soff es tl tys fs i v
    (node_info_good n b f) Hs T Hso HSF Hv) as VI.
  destruct (table_node n s HD name tys (Some (p, sz)) no_vinfo Hs) as (S1 & S2 & S3 & S4).
  destruct (S4 i _ Ht) as (typ & g & G1 & G2 & G3 & G4).
  destruct (conforming_access b p soff es tl HF T Hso) as (_ & _ & A).
  destruct (A i e He) as (A1 & A2 & A3 & A4).
  pose proof (pos_entry b p soff es tl T) as HP.
  fold (tnode_at name p sz) in *. rewrite G2 in FA.
  assert (NP : node_pos (tnode_at name p sz) = Ok p) by (unfold node_pos, WalkProofs.tnode_at; rewrite new_node_node; reflexivity).
  set (cn := field_node typ p v) in *.
  assert (VO : forall q z, full_of (mkVisit (tnode_at name p sz) i p q z) =
                 (tnode_at name p sz, i, Ok (Some cn), (p, q, z))).
  { intros q z. unfold full_of. cbn [x_node x_idx x_parent x_child x_size].
    unfold tree_node. cbn [x_node x_idx]. unfold WalkProofs.tnode_at at 2. rewrite new_node_info.
    cbn [no_vinfo v_pos Z.ltb Z.compare]. rewrite FA. reflexivity. }
  pose proof (slice_all_scalars f) as STS. set (go := traverse n b (S f)) in *. clearbody go.
  set (info := node_info n b (S f)) in *. clearbody info.
  unfold traverse_field, is_leaf_at, field_bonds. rewrite G1, G2. fold cn.
  destruct t as [t|sn ms|tn|us|t|sn ms|tn]; cbn [field_described] in G3.
  - destruct G3 as (G3 & _). destruct (says_tests _ _ G3) as (-> & -> & -> & -> & -> & ->).
    assert (L : (has [CBasic (width t)] 5 || (has [CBasic (width t)] 6 || (has [CBasic (width t)] 7 || (has [CBasic (width t)] 8 || false)))) = true /\
      has [CBasic (width t)] 1 = false /\ has [CBasic (width t)] 2 = false /\ has [CBasic (width t)] 3 = false /\ has [CBasic (width t)] 4 = false).
    { destruct (width_cases t) as [W|[W|[W|W]]]; rewrite W; repeat split; reflexivity. }
    destruct L as (L1 & L2 & L3 & L4 & L5). rewrite L1, L2, L3, L4, L5. cbn [andb].
    inversion Hf; subst; rewrite VI by (try discriminate; exact I); cbn [bind]; rewrite NP; cbn [bind field_vinfo v_pos v_size];
    (eexists; split; [reflexivity|]); cbn [map]; rewrite VO; reflexivity.
  - destruct G3 as (G3 & -> & SD). destruct (says_tests _ _ G3) as (-> & -> & -> & -> & -> & ->). cbn.
    rewrite FA. cbn [bind]. inversion Hf; subst; [|inversion HT]. subst cn. cbn [WalkProofs.field_node]. rewrite new_node_node. eexists. split; reflexivity.
  - destruct G3 as (G3 & ->). destruct (says_tests _ _ G3) as (-> & -> & -> & -> & -> & ->). cbn.
    rewrite FA. cbn [bind]. inversion Hf; subst.
    + subst cn. cbn [WalkProofs.field_node]. rewrite new_node_node. eexists. split; reflexivity.
    + match goal with H : points_to _ _ _ |- _ => pose proof (proj1 H) end.
      match goal with H : stored_table _ _ _ _ _ |- _ => destruct (stored_pos b s _ _ _ H) as (_ & _ & tys' & fs' & -> & _) end.
      replace (c_node cn) with (Some (q, -1)) by (symmetry; apply new_node_node). rewrite NP. cbn [bind]. rewrite A1. cbn [bind].
      rewrite (table_ref_at b HF p soff es tl i e q T Hso He) by auto. cbn [bind].
      replace (p + e =? q) with false by lia. destruct (HO (-1)) as (xs & X1 & X2). cbn [val_pos] in X1, X2.
      change (go cn = Ok xs) in X1. rewrite X1. cbn [bind]. eexists. split; [reflexivity|].
      cbn [map val_pos]. rewrite VO. rewrite (X2 cn). reflexivity.
  - destruct G3 as (G3 & _). destruct (says_tests _ _ G3) as (-> & -> & -> & -> & -> & ->). cbn.
    destruct (follow_stored n b s HF HD name p sz soff es tl tys fs i us Hs T Hso HSF Ht v Hv)
      as [(tn & q & fs' & -> & HST & _ & F1 & F2 & F3)|(-> & F1 & F2 & F3)]; rewrite F3; cbn [bind].
    + replace (c_node (tnode_at tn q (-1))) with (Some (q, -1)) by (symmetry; apply new_node_node). rewrite NP. cbn [bind]. rewrite A1, F2. cbn [bind].
      assert (Q : p + e < q).
      { inversion Hf; subst; match goal with H : points_to _ _ _ |- _ => pose proof (proj1 H) end.
        match goal with H : stored_table _ _ _ _ (Tab _ _ _) |- _ => inversion H; subst end. lia. }
      replace (p + e =? q) with false by lia. destruct (HO (-1)) as (xs & X1 & X2). cbn [val_pos] in X1, X2.
      rewrite X1. cbn [bind]. eexists. split; [reflexivity|].
      cbn [map val_pos]. rewrite VO. rewrite (X2 cn). reflexivity.
    + eexists. split; reflexivity.
  - destruct G3 as (G3 & en & -> & EN & NN). destruct (says_tests _ _ G3) as (-> & -> & -> & -> & -> & ->).
    inversion Hf; subst; [inversion HT|]. subst cn. cbn [WalkProofs.field_node] in FA, VO |- *.
    match goal with H : vector_from _ _ _ _ |- _ => destruct (vector_from_pos b p e q k HP ltac:(auto) H) as [Q1 Q2] end.
    specialize (VI ltac:(discriminate) I). rewrite VI, FA. cbn [bind]. rewrite NP. cbn [bind field_vinfo v_pos v_size val_pos].
    assert (W1 : zwidth t = 1 \/ zwidth t <> 1) by lia. destruct W1 as [W1|W1].
    + rewrite W1 in VO |- *. unfold zwidth in W1. replace (width t) with 1%nat by lia. cbn.
      eexists. split; [reflexivity|]. cbn [map]. rewrite VO. replace (k * 1) with k by lia. reflexivity.
    + replace (zwidth t =? 1) with false in * by lia.
      destruct (STS (p, -1) q 0 k en t Q1 Q2 EN NN) as (xs & X1 & X2).
      assert (W2 : has [CSlice; CBasic (width t)] 5 = false /\ has [CSlice; CBasic (width t)] 3 = false /\
        has [CSlice; CBasic (width t)] 1 = false /\ has [CSlice; CBasic (width t)] 4 = true).
      { unfold zwidth in W1. destruct (width_cases t) as [W|[W|[W|W]]]; rewrite W in *; [exfalso; apply W1; reflexivity| | |]; repeat split; reflexivity. }
      destruct W2 as (W2 & W3 & W4 & W5). rewrite W2, W3, W4, W5. cbn [andb negb].
      cbn [bind]. rewrite new_node_info. cbn [v_pos].
      rewrite X1. cbn [bind]. eexists. split; [reflexivity|]. cbn [map]. rewrite X2, VO. reflexivity.
  - destruct G3 as (G3 & -> & SD). inversion Hf; subst; inversion HT.
  - destruct G3 as (G3 & -> & TD). destruct (says_tests _ _ G3) as (-> & -> & -> & -> & -> & ->). cbn.
    inversion Hf; subst; [inversion HT|]. subst cn. cbn [WalkProofs.field_node] in FA, VO |- *. rewrite FA. cbn [bind]. rewrite NP. cbn [bind].
    match goal with H : vector_from _ _ _ _ |- _ => destruct (vector_from_pos b p e q _ HP ltac:(auto) H) as [Q1 Q2] end.
    destruct (slice_all_tables go (p, -1) q 0 tn vs Q1 Q2 TD) as (xs & X1 & X2); auto.
    rewrite X1. cbn [bind]. rewrite new_node_info. eexists. split; [reflexivity|]. cbn [map val_pos v_pos].
    rewrite VO. erewrite X2. reflexivity.
Qed.

Lemma traverse_all :
  (forall name p v, stored_table m s name p v -> insertable v ->
     exists k, forall f, (k <= f)%nat -> trav_all (traverse n b f) name v) /\
  (forall p prev tys es fs, stored_fields m s p prev tys es fs -> Forall insertable fs ->
     exists k, forall f, (k <= f)%nat -> forall v, In v fs -> sub_all (traverse n b f) v) /\
  (forall p prev t e v, stored_field m s p prev t e v -> insertable v ->
     exists k, forall f, (k <= f)%nat -> sub_all (traverse n b f) v) /\
  (forall slot tn vs, stored_elems m s slot tn vs -> Forall insertable vs ->
     exists k, forall f, (k <= f)%nat -> forall v, In v vs -> trav_all (traverse n b f) tn v).
Proof.
  assert (TAB : forall tn q v, stored_table m s tn q v ->
    (insertable v -> exists k, forall f, (k <= f)%nat -> trav_all (traverse n b f) tn v) ->
    insertable v -> exists k, forall f, (k <= f)%nat -> sub_all (traverse n b f) v).
  { intros tn q v HS IH HM. destruct (IH HM) as [k Hk]. exists k. intros f Hf.
    destruct (stored_pos b s _ _ _ HS) as (_ & _ & tys & fs & -> & _). cbn [sub_all]. apply Hk. exact Hf. }
  apply stored_mind; try (intros; exists 0%nat; intros; exact I).
  - intros name p soff es tl tys fs Hs T Hso HSF IH HM.
    inversion HM as [| | | | | |? ? ? M|]; subst. destruct (IH M) as [k Hk].
    exists (S (S k)). intros f Hf sz. destruct f as [|[|f]]; [lia|lia|]. cbn [val_pos].
    change (traverse n b (S (S f)) (tnode_at name p sz)) with
      (do vs <- collect (traverse_field n b (node_info n b (S f)) (traverse n b (S f)) (tnode_at name p sz))
                  (indexes (map_len (c_groups (tnode_at name p sz)))); Ok (List.concat vs)).
    destruct (table_node n s HD name tys (Some (p, sz)) no_vinfo Hs) as (_ & _ & S3 & _).
    fold (tnode_at name p sz) in S3. rewrite S3.
    destruct (fields_nth b s p None tys es fs HSF) as (L1 & _ & _). rewrite L1.
    destruct (collect_numbered val visit _
      (traverse_field n b (node_info n b (S f)) (traverse n b (S f)) (tnode_at name p sz)) full_of (fun _ => True)
      (fun i f => map bond_of (field_bonds n m (tnode_at name p sz) (tnode_at name p sz) p i 0 f)) fs) as (yss & Y1 & Y2 & _).
    + intros i v Hv. pose proof (zget_in _ _ _ _ Hv) as HI. rewrite Forall_forall in M.
      destruct (traverse_field_all f name p sz soff es tl tys fs i v (tnode_at name p sz) Hs T Hso HSF Hv) as (xs & X1 & X2); auto.
      { apply Hk; [lia|auto]. }
      exists xs. split; [exact X1|]. split; [exact X2|apply Forall_forall; auto].
    + rewrite Y1. cbn [bind]. eexists. split; [reflexivity|]. intros tc.
      rewrite (bond_tree tc (tnode_at name p sz)), bonds_tab, map_ranked. exact Y2.
  - intros p prev _. exists 0%nat. intros f _ v [].
  - intros p prev t tys e es v vs _ IH1 _ IH2 HM. inversion HM; subst.
    destruct IH1 as [k1 K1]; auto. destruct IH2 as [k2 K2]; auto.
    exists (Nat.max k1 k2). intros f Hf w [<-|Hw]; [apply K1; lia|apply K2; [lia|auto]].
  - intros p prev tn e q v _ _ HS IH HM. eapply TAB; eauto.
  - intros p prev tn e q vs _ _ _ IH HM. inversion HM as [| | | | | | |? ? ? M2]; subst. destruct (IH M2) as [k Hk].
    exists k. intros f Hf. cbn [sub_all]. apply Hk; auto.
  - intros p us e x k tn q v _ _ _ _ HS IH HM. eapply TAB; eauto.
  - intros slot tn _. exists 0%nat. intros f _ v [].
  - intros slot tn q v vs _ _ IH1 _ IH2 HM. inversion HM; subst.
    destruct IH1 as [k1 K1]; auto. destruct IH2 as [k2 K2]; auto.
    exists (Nat.max k1 k2). intros f Hf w [<-|Hw]; [apply K1; lia|apply K2; [lia|auto]].
Qed.

End Schema.
