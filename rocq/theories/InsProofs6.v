(** The trees of the code are the visits: the parent and the number of each. *)
From Coq Require Import ZArith List Bool Lia String Permutation.
From Verif Require Import GoLib BaseModel GoLemmas BaseSpec TableModel TableSpec NameModel NameSpec.
From Verif Require Import WalkModel WalkSpec WalkProofs WalkProofs2 WalkProofs3 WalkProofs5 WalkProofs9.
From Verif Require Import InsModel InsSpec InsProofs InsProofs2 InsProofs4 InsProofs5.
Import ListNotations.
Open Scope list_scope.
Open Scope Z_scope.

Lemma nodup_filter_nth : forall (X : list (Z * bool)) o i j, NoDup (map fst (filter snd X)) ->
  nth_error X i = Some (o, true) -> nth_error X j = Some (o, true) -> i = j.
Proof.
  assert (IN : forall (X : list (Z * bool)) o i, nth_error X i = Some (o, true) -> In o (map fst (filter snd X))).
  { intros X o i H. apply in_map_iff. exists (o, true). split; [reflexivity|]. apply filter_In. split; [|reflexivity].
    eapply nth_error_In. exact H. }
  induction X as [|[x r] X IH]; intros o i j ND Hi Hj; [destruct i; discriminate|].
  cbn [filter snd] in ND. destruct i as [|i], j as [|j]; cbn [nth_error] in *.
  - reflexivity.
  - injection Hi as -> ->. cbn [map fst] in ND. inversion ND as [|? ? N1 N2]; subst. exfalso. apply N1. eapply IN. exact Hj.
  - injection Hj as -> ->. cbn [map fst] in ND. inversion ND as [|? ? N1 N2]; subst. exfalso. apply N1. eapply IN. exact Hi.
  - f_equal. eapply IH; eauto. destruct r; [cbn [map fst] in ND; inversion ND; assumption|exact ND].
Qed.

(** Where the tree of a child is looked for: an absent number has no place of
    its own. *)
Definition tpos (w : bond) : option Z := tree_pos (w_child w).

Definition placed (w : bond) : Prop :=
  tpos w = Some (w_place w) \/ (tpos w = None /\ w_place w = w_owner w).

Lemma find_first_opt : forall ts qs q j0, Forall2 (fun t o => exists c, t = Some c /\ tree_pos c = o) ts qs ->
  In (Some q) qs -> exists j, find_tree ts j0 q = Ok (Some (j0 + Z.of_nat j)) /\ nth_error qs j = Some (Some q) /\
    forall i, (i < j)%nat -> nth_error qs i <> Some (Some q).
Proof.
  intros ts qs q j0 H. revert j0. induction H as [|t x ts qs (c & -> & HC) H IH]; intros j0 HI; [destruct HI|].
  cbn [find_tree].
  assert (T : (if 0 <? v_pos (c_info c) then v_pos (c_info c) =? q
               else match c_node c with Some (p, _) => p =? q | None => false end) = match x with Some y => y =? q | None => false end).
  { unfold tree_pos in HC. destruct (0 <? v_pos (c_info c)); [subst x; reflexivity|].
    destruct (c_node c) as [[p z]|]; subst x; reflexivity. }
  rewrite T. destruct x as [x|].
  - destruct (x =? q) eqn:E.
    + exists 0%nat. split; [f_equal; f_equal; lia|]. split; [cbn; f_equal; f_equal; lia|]. intros i Hi. lia.
    + destruct HI as [C|HI]; [injection C as C; lia|]. destruct (IH (j0 + 1) HI) as (j & J1 & J2 & J3).
      exists (S j). split; [rewrite J1; f_equal; f_equal; lia|]. split; [exact J2|].
      intros [|i] Hi; cbn; [intros C; injection C as C; lia|]. apply J3. lia.
  - destruct HI as [C|HI]; [discriminate|]. destruct (IH (j0 + 1) HI) as (j & J1 & J2 & J3).
    exists (S j). split; [rewrite J1; f_equal; f_equal; lia|]. split; [exact J2|].
    intros [|i] Hi; cbn; [discriminate|]. apply J3. lia.
Qed.

Lemma collect_parents_opt : forall ts qs xs, Forall2 (fun t o => exists c, t = Some c /\ tree_pos c = o) ts qs ->
  (forall x, In x xs -> In (Some (x_parent x)) qs) ->
  exists ps, collect (fun x => find_tree ts 0 (x_parent x)) xs = Ok ps /\
    Forall2 (fun q p => exists j, p = Some (Z.of_nat j) /\ nth_error qs j = Some (Some q) /\
      forall i, (i < j)%nat -> nth_error qs i <> Some (Some q)) (map x_parent xs) ps.
Proof.
  intros ts qs xs H. induction xs as [|x xs IH]; intros HI; [exists []; split; [reflexivity|constructor]|].
  destruct IH as (ps & I1 & I2); [intros y Hy; apply HI; right; exact Hy|].
  destruct (find_first_opt ts qs (x_parent x) 0 H (HI x (or_introl eq_refl))) as (j & J1 & J2).
  exists (Some (0 + Z.of_nat j) :: ps). cbn [collect map]. rewrite J1, I1. split; [reflexivity|].
  constructor; [|exact I2]. exists j. split; [reflexivity|exact J2].
Qed.

Lemma tree_pos_node : forall n q z typ, tree_pos (new_node n (Some (q, z)) no_vinfo typ) = Some q.
Proof. intros. unfold tree_pos. rewrite new_node_info, new_node_node. reflexivity. Qed.

Lemma tree_pos_vec : forall n nd q z k typ, 0 < q -> tree_pos (new_node n nd (mkV q z k) typ) = Some q.
Proof. intros. unfold tree_pos. rewrite new_node_info. cbn [v_pos]. replace (0 <? q) with true by lia. reflexivity. Qed.

Lemma bonds_placed : forall n m v, spread v -> forall tc c w, In w (bonds n m tc c v) -> placed w.
Proof.
  intros n m v H. induction H as [t|p w|p k w P|name p fs P HP HS IH|name q es P HP HS IH]; intros tc c x Hx; try (destruct Hx; fail).
  - rewrite bonds_tab in Hx. apply in_ranked in Hx. destruct Hx as (i & r & f & Hf & Hx).
    specialize (IH f Hf). specialize (HS f Hf). unfold field_bonds in Hx. unfold placed, tpos.
    destruct f as [t|q w|q ms|q k w|q k ms|tn q gs|tn q gs]; try (destruct Hx; fail).
    + destruct t; try (destruct Hx; fail). destruct Hx as [<-|[]]. right. cbn [w_child w_place w_owner field_node].
      split; [|reflexivity]. unfold tree_pos. rewrite new_node_info, new_node_node. reflexivity.
    + destruct Hx as [<-|[]]. left. apply tree_pos_node.
    + destruct Hx as [<-|Hx].
      * left. inversion HS; subst. cbn [w_child w_place field_node val_pos]. destruct (w =? 1); apply tree_pos_vec; assumption.
      * destruct (w =? 1); [destruct Hx|]. apply in_map_iff in Hx. destruct Hx as (iq & <- & _). left. apply tree_pos_node.
    + destruct Hx as [<-|Hx]; [left; apply tree_pos_node|eapply IH; exact Hx].
    + destruct Hx as [<-|Hx]; [left|eapply IH; exact Hx]. inversion HS; subst. apply tree_pos_vec. assumption.
  - rewrite bonds_tabs in Hx. apply in_numbered in Hx. destruct Hx as (i & e & He & [<-|Hx]).
    + left. apply tree_pos_node.
    + eapply IH; eauto.
Qed.

Section Parents.
Variable bs : list bond.
Variable root : cnode.
Variable p : Z.
Hypothesis HG : grown [(root, p)] bs.
Hypothesis HN : NoDup (p :: map w_place (filter real bs)).

Notation nodes := (root :: map w_child bs).
Notation qs := (Some p :: map tpos bs).
Notation X := ((p, true) :: map (fun w => (w_place w, real w)) bs).

Lemma nodup_X : NoDup (map fst (filter snd X)).
Proof.
  cbn [filter snd map fst].
  assert (E : map fst (filter snd (map (fun w => (w_place w, real w)) bs)) = map w_place (filter real bs)).
  { clear. induction bs as [|w l IH]; [reflexivity|]. cbn [map filter snd]. destruct (real w); cbn [map fst]; rewrite IH; reflexivity. }
  rewrite E. exact HN.
Qed.

Lemma grown_at : forall l1 w l2, bs = l1 ++ w :: l2 -> exists j, (j <= List.length l1)%nat /\
  nth_error nodes j = Some (w_tree w) /\ nth_error X j = Some (w_owner w, true).
Proof.
  intros l1 w l2 E. specialize (HG l1 w l2 E). apply in_app_or in HG. destruct HG as [[H|[]]|H].
  - injection H as E1 E2. exists 0%nat. cbn [nth_error]. rewrite E1, E2. split; [lia|split; reflexivity].
  - apply in_map_iff in H. destruct H as (x & H1 & H2). injection H1 as E1 E2. apply filter_In in H2. destruct H2 as [H2 H3].
    apply In_nth_error in H2. destruct H2 as (i & H2).
    assert (Hi : (i < List.length l1)%nat) by (apply nth_error_Some; congruence).
    exists (S i). cbn [nth_error]. rewrite !nth_error_map, E, nth_error_app1, H2 by exact Hi. cbn [option_map].
    split; [lia|]. rewrite E1, E2, H3. split; reflexivity.
Qed.

Hypothesis HL : forall w, In w bs -> placed w.

Lemma parent_at : forall l1 w l2 j, bs = l1 ++ w :: l2 -> nth_error qs j = Some (Some (w_owner w)) ->
  (forall i, (i < j)%nat -> nth_error qs i <> Some (Some (w_owner w))) ->
  nth_error nodes j = Some (w_tree w) /\ (j <= List.length l1)%nat.
Proof.
  assert (XQ : forall j o, nth_error X j = Some (o, true) -> nth_error qs j = Some (Some o)).
  { intros [|j] o H; cbn [nth_error] in *; [congruence|]. rewrite nth_error_map in *.
    destruct (nth_error bs j) as [x|] eqn:EX; [|discriminate]. cbn [option_map] in *. injection H as <- R.
    destruct (HL x (nth_error_In _ _ EX)) as [E|[_ E]]; [congruence|]. unfold real in R. rewrite E, Z.eqb_refl in R. discriminate. }
  intros l1 w l2 j E HJ HF. destruct (grown_at l1 w l2 E) as (j0 & L & G1 & G2).
  destruct (Nat.lt_trichotomy j j0) as [C|[->|C]]; [|auto|].
  - exfalso. destruct j as [|j].
    + cbn [nth_error] in HJ. injection HJ as HJ.
      assert (0%nat = j0); [|lia]. eapply nodup_filter_nth; [exact nodup_X| |exact G2]. rewrite <- HJ. reflexivity.
    + cbn [nth_error] in HJ. rewrite nth_error_map in HJ. destruct (nth_error bs j) as [x|] eqn:EX; [|discriminate].
      cbn [option_map] in HJ. injection HJ as HJ.
      assert (HJ' : w_place x = w_owner w) by (destruct (HL x (nth_error_In _ _ EX)) as [E'|[E' _]]; congruence).
      clear HJ. rename HJ' into HJ. destruct (real x) eqn:R.
      * assert (S j = j0); [|lia]. eapply nodup_filter_nth; [exact nodup_X| |exact G2].
        cbn [nth_error]. rewrite nth_error_map, EX. cbn [option_map]. rewrite HJ, R. reflexivity.
      * apply nth_error_split in EX. destruct EX as (k1 & k2 & EB & EL).
        destruct (grown_at k1 x k2 EB) as (j1 & L1 & G3 & G4). unfold real in R.
        assert (w_owner x = w_owner w) by lia. apply (HF j1); [lia|]. apply XQ in G4. congruence.
  - exfalso. apply (HF j0 C). eapply XQ. exact G2.
Qed.

End Parents.

Fixpoint count_of (j : Z) (ps : list (option Z)) : Z :=
  match ps with
  | [] => 0
  | o :: ps' => (match o with Some k => if k =? j then 1 else 0 | None => 0 end) + count_of j ps'
  end.

Lemma children_at : forall ps j a k c, zget (flat_map (childs_of j) (number a ps)) k = Some c ->
  exists l1 l2, ps = l1 ++ Some j :: l2 /\ c = a + zlen l1 + 1 /\ k = count_of j l1.
Proof.
  induction ps as [|o ps IH]; intros j a k c H.
  - exfalso. apply zget_some_range in H. cbn in H. change (zlen (@nil Z)) with 0 in H. lia.
  - cbn [number flat_map] in H. unfold childs_of at 1 in H. cbn [fst snd] in H.
    assert (GO : zget (flat_map (childs_of j) (number (a + 1) ps)) k = Some c -> match o with Some k => k <> j | None => True end ->
      exists l1 l2, o :: ps = l1 ++ Some j :: l2 /\ c = a + zlen l1 + 1 /\ k = count_of j l1).
    { intros K NJ. destruct (IH _ _ _ _ K) as (l1 & l2 & E1 & E2 & E3). exists (o :: l1), l2. cbn [app count_of]. rewrite zlen_cons.
      split; [congruence|]. split; [lia|]. destruct o as [d|]; [|lia]. replace (d =? j) with false by lia. lia. }
    destruct o as [d|]; [|apply GO; auto]. destruct (d =? j) eqn:E; [|apply GO; [exact H|lia]].
    assert (d = j) by lia. subst d. cbn [app] in H. rewrite zget_cons in H. destruct (k =? 0) eqn:K.
    + injection H as <-. exists [], ps. cbn [app count_of]. change (zlen (@nil (option Z))) with 0. repeat split; lia.
    + destruct (IH _ _ _ _ H) as (l1 & l2 & E1 & E2 & E3). exists (Some j :: l1), l2. cbn [app count_of]. rewrite zlen_cons.
      split; [congruence|]. split; [lia|]. replace (j =? j) with true by lia. lia.
Qed.

Lemma perm_indices : forall A (l : list A) d ks, NoDup ks -> (forall k, In k ks <-> 1 <= k <= zlen l) ->
  Permutation (map (fun k => nth (Z.to_nat (k - 1)) l d) ks) l.
Proof.
  intros A l d ks ND H.
  assert (E : l = map (fun k => nth (Z.to_nat (k - 1)) l d) (map (fun i => Z.of_nat i + 1) (seq 0 (List.length l)))).
  { rewrite map_map. apply nth_ext with (d := d) (d' := d).
    - rewrite map_length, seq_length. reflexivity.
    - intros i Hi. set (g := fun x : nat => nth (Z.to_nat (Z.of_nat x + 1 - 1)) l d).
      rewrite (nth_indep (map g (seq 0 (List.length l))) d (g 0%nat)) by (rewrite map_length, seq_length; exact Hi).
      rewrite map_nth, seq_nth by exact Hi. unfold g. f_equal. lia. }
  rewrite E at 1. apply Permutation_map. apply NoDup_Permutation.
  - exact ND.
  - apply FinFun.Injective_map_NoDup; [intros a b; lia|apply seq_NoDup].
  - intros k. rewrite H. unfold zlen. split.
    + intros K. apply in_map_iff. exists (Z.to_nat (k - 1)). split; [lia|]. apply in_seq. lia.
    + intros K. apply in_map_iff in K. destruct K as (i & <- & K). apply in_seq in K. lia.
Qed.

Section Schema.
Variable n : names.
Variable b : base.
Variable s : schema.
Hypothesis HF : flat b.
Hypothesis HD : describes n s.

Local Notation m := (img_bytes (sl_data (b_bytes b))).

Definition matches (ts : list (option cnode)) (e : Z * Z * Z) (w : bond) : Prop :=
  let '(j, k, c) := e in node_at ts j = Some (w_tree w) /\ node_at ts c = Some (w_child w) /\ k = w_rank w.

Lemma edges_found : forall name p v sz, stored_table m s name p v -> insertable v -> NoDup (starts v) ->
  exists k, forall f, (k <= f)%nat -> exists ts ps es ws,
    all_tree n b f (tnode_at n name p sz) = Ok (ts, ps) /\
    below (S (List.length ps)) ps 0 = Ok es /\
    Forall2 (matches ts) es ws /\
    Permutation ws (bonds n m (tnode_at n name p sz) (tnode_at n name p sz) v).
Proof.
  intros name p v sz H HT ND. destruct (proj1 (traverse_all n b s HF HD) name p v H HT) as [k Hk]. exists k. intros f Hf.
  destruct (stored_pos b s _ _ _ H) as (P0 & E & tys & fs & EV & _).
  pose proof (proj1 (stored_spread b s) name p v H HT) as SP.
  destruct (Hk f Hf sz) as (xs & X1 & X2). rewrite E in X1. specialize (X2 (tnode_at n name p sz)). rewrite E in X2.
  set (root := tnode_at n name p sz) in *. set (bs := bonds n m root root v) in *.
  assert (N1 : collect (tree_node n b) xs = Ok (map (fun w => Some (w_child w)) bs)).
  { clear - X2. revert X2. generalize bs as l. induction xs as [|x xs IH]; intros [|w l] X2; try discriminate; [reflexivity|].
    cbn [map] in X2. injection X2 as E1 E2 E3 E4 E5 E6 E7. cbn [collect map]. rewrite E3. cbn [bind].
    rewrite (IH l E7). reflexivity. }
  assert (PO : map x_parent xs = map w_owner bs).
  { apply (f_equal (map (fun z => fst (fst (snd z))))) in X2. rewrite !map_map in X2. exact X2. }
  set (ts := Some root :: map (fun w => Some (w_child w)) bs).
  set (qs := Some p :: map tpos bs).
  assert (HG : grown [(root, p)] bs) by (apply bonds_grown; [exact SP|left; rewrite E; reflexivity]).
  assert (HN : NoDup (p :: map w_place (filter real bs))).
  { rewrite <- E. unfold bs. rewrite <- (bonds_starts n m v SP); [exact ND|]. intros; subst v; discriminate. }
  assert (HL : forall w, In w bs -> placed w) by (apply bonds_placed; exact SP).
  assert (HC : counted (fun _ => 0) bs) by (apply bonds_counted; auto).
  assert (TP : Forall2 (fun t o => exists c, t = Some c /\ tree_pos c = o) ts qs).
  { constructor.
    - eexists. split; [reflexivity|]. apply tree_pos_node.
    - generalize bs as l. clear. induction l as [|w l IH]; cbn [map]; constructor; [|exact IH]. eexists. split; reflexivity. }
  destruct (collect_parents_opt ts qs xs TP) as (ps & Q1 & Q2).
  { intros x Hx. assert (HI : In (x_parent x) (map w_owner bs)) by (rewrite <- PO; apply in_map; exact Hx).
    apply in_map_iff in HI. destruct HI as (w & <- & HI). apply in_split in HI. destruct HI as (l1 & l2 & EB).
    destruct (grown_at bs root p HG l1 w l2 EB) as (j & _ & _ & J). unfold qs.
    destruct j as [|j]; cbn [nth_error] in J; [left; congruence|]. right. rewrite nth_error_map in J.
    destruct (nth_error bs j) as [y|] eqn:EY; [|discriminate]. cbn [option_map] in J. injection J as J R. rewrite <- J.
    pose proof (nth_error_In _ _ EY) as IY. destruct (HL y IY) as [EP|[_ EP]].
    - rewrite <- EP. apply in_map. exact IY.
    - unfold real in R. rewrite EP, Z.eqb_refl in R. discriminate. }
  rewrite PO in Q2.
  assert (LP : List.length ps = List.length bs).
  { rewrite <- (map_length w_owner). clear - Q2. induction Q2; cbn [List.length]; [reflexivity|lia]. }
  assert (PW : forall l1 w l2 o, bs = l1 ++ w :: l2 -> nth_error ps (List.length l1) = Some o ->
    exists j, o = Some (Z.of_nat j) /\ nth_error qs j = Some (Some (w_owner w)) /\
      (forall i, (i < j)%nat -> nth_error qs i <> Some (Some (w_owner w))) /\
      nth_error (root :: map w_child bs) j = Some (w_tree w) /\ (j <= List.length l1)%nat).
  { intros l1 w l2 o EB HO.
    assert (HW : nth_error (map w_owner bs) (List.length l1) = Some (w_owner w)).
    { rewrite nth_error_map, EB, nth_error_app2, Nat.sub_diag by lia. reflexivity. }
    assert (Q3 : exists j, o = Some (Z.of_nat j) /\ nth_error qs j = Some (Some (w_owner w)) /\ forall i, (i < j)%nat -> nth_error qs i <> Some (Some (w_owner w))).
    { clear - Q2 HO HW. revert HO HW. generalize (List.length l1) as i. induction Q2 as [|q o' ql ps HQ Q2 IH]; intros i HO HW; [destruct i; discriminate|].
      destruct i as [|i]; cbn [nth_error] in *; [|eapply IH; eauto]. injection HO as <-. injection HW as <-. exact HQ. }
    destruct Q3 as (j & J1 & J2 & J3). exists j. split; [exact J1|]. split; [exact J2|]. split; [exact J3|].
    eapply parent_at; eauto. }
  assert (HP : forall i o, zget ps i = Some o -> exists j, o = Some j /\ 0 <= j <= i).
  { intros i o HO. pose proof (zget_some_range _ _ _ HO) as R. unfold zget in HO. replace (i <? 0) with false in HO by lia.
    assert (L : (Z.to_nat i < List.length bs)%nat) by (unfold zlen in R; lia).
    destruct (nth_error bs (Z.to_nat i)) as [w|] eqn:EW; [|apply nth_error_None in EW; lia].
    apply nth_error_split in EW. destruct EW as (l1 & l2 & EB & EL). rewrite <- EL in HO.
    destruct (PW l1 w l2 o EB HO) as (j & J1 & _ & _ & _ & J2). exists (Z.of_nat j). split; [exact J1|]. lia. }
  destruct (below_ok ps HP (S (List.length ps)) 0) as (es & B1 & B2 & B3 & B4); [unfold zlen; lia|unfold zlen; lia|].
  set (w0 := mkB root root 0 root 0 0 0 0 None). exists ts, ps, es, (map (fun c => nth (Z.to_nat (c - 1)) bs w0) (map snd es)).
    split; [|split; [exact B1|split]].
    + unfold all_tree. rewrite X1. cbn [bind]. rewrite N1. cbn [bind]. fold ts. rewrite Q1. reflexivity.
    + rewrite map_map. clear B1 B2 B4. induction B3 as [|[[j' k'] c'] es HE _ IH]; [constructor|]. cbn [map]. constructor; [|exact IH].
      destruct HE as (Y1 & Y2 & _). cbn [snd]. rewrite children_number in Y2.
      destruct (children_at _ _ _ _ _ Y2) as (l1 & l2 & EP & EC & EK).
      assert (L : (List.length l1 < List.length bs)%nat) by (rewrite <- LP, EP, app_length; cbn [List.length]; lia).
      destruct (nth_error bs (List.length l1)) as [w|] eqn:EW; [|apply nth_error_None in EW; lia].
      assert (NW : nth (Z.to_nat (c' - 1)) bs w0 = w).
      { apply nth_error_nth with (d := w0) in EW. rewrite <- EW. f_equal. unfold zlen in EC. lia. }
      rewrite NW. pose proof EW as EW'. apply nth_error_split in EW'. destruct EW' as (k1 & k2 & EB & EL).
      destruct (PW k1 w k2 (Some j') EB) as (j & J1 & J2 & J3 & J4 & J5).
      { rewrite EL, EP, nth_error_app2, Nat.sub_diag by lia. reflexivity. }
      injection J1 as ->. unfold matches.
      assert (TS : forall i, nth_error ts i = option_map Some (nth_error (root :: map w_child bs) i)).
      { intros i. unfold ts. rewrite <- nth_error_map. cbn [map]. rewrite map_map. reflexivity. }
      split; [|split].
      * unfold node_at, zget. replace (Z.of_nat j <? 0) with false by lia. rewrite Nat2Z.id, TS, J4. reflexivity.
      * unfold node_at, zget. unfold zlen in EC. replace (c' <? 0) with false by lia. rewrite TS.
        replace (Z.to_nat c') with (S (List.length l1)) by lia. cbn [nth_error]. rewrite nth_error_map, EW. reflexivity.
      * rewrite (counted_split k1 _ w k2 (eq_ind _ (counted (fun _ => 0)) HC _ EB)). rewrite EK.
        (* count *)
        assert (PRE : forall a x o, nth_error bs a = Some x -> nth_error ps a = Some o ->
                  match o with Some d => (d =? Z.of_nat j) | None => false end = (w_owner x =? w_owner w)).
        { intros a x o HX HO. apply nth_error_split in HX. destruct HX as (h1 & h2 & EH & EHL). rewrite <- EHL in HO.
          destruct (PW h1 x h2 o EH HO) as (d & -> & D2 & D3 & _ & _).
          destruct (Z.eqb_spec (w_owner x) (w_owner w)) as [EO|NO].
          - assert (d = j); [|lia]. destruct (Nat.lt_trichotomy d j) as [C|[C|C]]; [|exact C|].
            + exfalso. apply (J3 d C). congruence.
            + exfalso. apply (D3 j C). congruence.
          - destruct (Z.eqb_spec (Z.of_nat d) (Z.of_nat j)) as [EJ|NJ]; [|reflexivity].
            exfalso. apply NO. assert (d = j) by lia. congruence. }
        clear - PRE EP EB EL. revert PRE EP EB EL. generalize bs ps. revert l1. induction k1 as [|x k1 IH]; intros [|o l1] B P PRE EP EB EL; try discriminate; [reflexivity|].
        cbn [count_of owned]. cbn [app] in EP, EB. subst B P. cbn [List.length] in EL.
        pose proof (PRE 0%nat x o eq_refl eq_refl) as P0. rewrite <- P0.
        specialize (IH l1 (k1 ++ w :: k2) (l1 ++ Some (Z.of_nat j) :: l2)).
        rewrite (IH (fun a => PRE (S a)) eq_refl eq_refl ltac:(lia)). destruct o as [d|]; cbn [option_map]; lia.
    + apply perm_indices; [exact B2|]. intros c. split.
      * intros HI. apply in_map_iff in HI. destruct HI as ([[j' k'] c'] & <- & HI). rewrite Forall_forall in B3.
        destruct (B3 _ HI) as (Y1 & _). apply zget_some_range in Y1. cbn [snd]. unfold zlen in *. lia.
      * intros R. apply B4. apply above_root; [exact HP|]. unfold zlen in *. lia.
Qed.

End Schema.
