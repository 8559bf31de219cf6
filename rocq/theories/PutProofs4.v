(** Inserting space behind a table: the references of the table itself are left to
    the caller, all others are moved. *)
From Coq Require Import ZArith List Bool Lia String Permutation.
From Coq Require Import Strings.Byte.
From Verif Require Import GoLib BaseModel GoLemmas BaseSpec BaseProofs TableModel TableSpec TableProofs TableProofs2.
From Verif Require Import NameModel NameSpec WalkModel WalkSpec WalkProofs WalkProofs2 WalkProofs3 WalkProofs4 WalkProofs5.
From Verif Require Import InsModel InsSpec InsProofs InsProofs2 InsProofs4 InsProofs5 InsProofs6 InsProofs7 InsProofs8 InsProofs9
  InsProofs10 InsProofs11 InsProofs12.
From Verif Require Import PutModel PutSpec PutProofs PutProofs2.
Import ListNotations.
Open Scope list_scope.
Open Scope Z_scope.

Lemma met_seen : forall s own pos fs v, (forall gs, In (Tab (fst own) (snd own) gs) (tables v) -> gs = fs) ->
  forall u, met s own pos u v -> seen s own pos (fun _ _ gs => gs = fs) u v.
Proof.
  intros s own pos fs v. induction v as [t|p w|p ms|p k w|p k ms|name p gs go|name p es go] using val_deep; intros HU u H;
    try (constructor; fail); inversion H; subst.
  - econstructor; eauto.
    + intros i f Hf Hc. match goal with X : forall i f, _ -> _ < pos <= _ -> _ |- _ => destruct (X i f Hf Hc) as (A & B) end. split; [exact A|].
      destruct (string_dec (fst own) name) as [EN|EN]; [destruct (Z.eq_dec (snd own) p) as [EP|EP]|].
      * left. assert (E : own = (name, p)) by (destruct own; cbn in *; congruence). split; [exact E|].
        apply HU. rewrite EN, EP. left. reflexivity.
      * right. split; [intros X; rewrite X in EP; apply EP; reflexivity|]. destruct B as [X|B]; [rewrite X in EP; exfalso; apply EP; reflexivity|exact B].
      * right. split; [intros X; rewrite X in EN; apply EN; reflexivity|]. destruct B as [X|B]; [rewrite X in EN; exfalso; apply EN; reflexivity|exact B].
    + intros i f t Hf Ht. apply go; [eapply zget_in; exact Hf| |eauto]. intros gs' HG. apply HU. right. apply in_flat_map. exists f. split; [eapply zget_in; exact Hf|exact HG].
  - constructor. intros e He. apply go; auto. intros gs' HG. apply HU. apply in_flat_map. eauto.
Qed.

Lemma ranked_in : forall A (g : Z -> Z -> val -> list A) fs i0 r0 i f, zget fs i = Some f ->
  exists r, forall x, In x (g (i0 + i) r f) -> In x (List.concat (ranked g i0 r0 fs)).
Proof.
  induction fs as [|h fs IH]; intros i0 r0 i f H; [pose proof (zget_some_range _ _ _ H) as R; cbn in R; lia|]. cbn [ranked List.concat]. rewrite zget_cons in H.
  destruct (Z.eqb_spec i 0) as [->|NE].
  - injection H as ->. exists r0. intros x Hx. apply in_or_app. left. rewrite Z.add_0_r in Hx. exact Hx.
  - destruct (IH (i0 + 1) (if gap h then r0 else r0 + 1) (i - 1) f H) as (r & Hr). exists r. intros x Hx. apply in_or_app. right. apply Hr.
    replace (i0 + 1 + (i - 1)) with (i0 + i) by lia. exact Hx.
Qed.

Section Own.
Variable n : names.
Variable b : base.
Variable s : schema.
Local Notation m := (img_bytes (sl_data (b_bytes b))).
Hypothesis HD : describes n s.
Variables (tn : string) (tp : Z).
Variable pos : Z.
Variable mine : string -> Z -> list val -> Prop.

Lemma bonds_own : forall v, good m s v -> forall u tc c, seen s (tn, tp) pos mine u v -> insertable v ->
  tc_ok n (tn, tp) pos u v tc -> c_ok n v c ->
  forall fs i f t, In (Tab tn tp fs) (tables v) -> zget fs i = Some f -> start f = Some t -> tp < pos <= val_pos f ->
  exists w z, In w (bonds n m tc c v) /\ w_link w = Some (slot_of m tp i, t) /\ w_tree w = tnode_at n tn tp z.
Proof.
  intros v HG. induction HG as [t0|p w P W O|q k w Q W K O|name p fs tys soff es tl Hs T Hso SF HGs IH|nm q es Q K SE HGs IH];
    intros u tc c HFo HT HTC HC gs i f t Hin Hf Hst HPv; try (destruct Hin; fail); cbn [tables] in Hin.
  - destruct HTC as (TC1 & TC2 & TC3). destruct HC as [z0 ->].
    destruct (seen_tab _ _ _ _ _ _ _ _ HFo) as (tys' & Hs' & FO1 & FO2 & FO3). rewrite Hs in Hs'. injection Hs' as <-.
    rewrite bonds_tab. destruct Hin as [E|Hin].
    + injection E as -> -> ->. destruct (FO1 i f Hf HPv) as (-> & _). destruct (TC3 eq_refl) as [z ->].
      destruct (ranked_in _ (field_bonds n m (tnode_at n tn tp z) (tnode_at n tn tp z0) tp) gs 0 0 i f Hf) as (r & HR).
      rewrite Z.add_0_l in HR. unfold field_bonds in HR.
      destruct f as [ta|q w|q ms|q k w|q k ms|tn' q hs|tn' q hs]; cbn [start] in Hst; try discriminate; injection Hst as <-.
      * eexists _, z. split; [apply HR; left; reflexivity|]. split; reflexivity.
      * exfalso. assert (X : insertable (Structs q k ms)) by (inversion HT as [| | | | | |? ? ? M|]; subst; rewrite Forall_forall in M; apply M; eapply zget_in; exact Hf). inversion X.
      * eexists _, z. split; [apply HR; left; reflexivity|]. split; reflexivity.
      * eexists _, z. split; [apply HR; left; reflexivity|]. split; reflexivity.
    + apply in_flat_map in Hin. destruct Hin as (g & G1 & G2). pose proof G1 as GI. apply zget_of_in in GI. destruct GI as (j & GI).
      destruct (fields_nth b s p None tys es fs SF) as (L1 & L2 & N). destruct (N j g GI) as (ty & e & pv & Ht & He & Hfi & _).
      assert (HTg : insertable g) by (inversion HT as [| | | | | |? ? ? M|]; subst; rewrite Forall_forall in M; apply M; exact G1).
      pose proof (field_cases m s p pv ty e g Hfi HTg) as FC.
      destruct (table_node n s HD name tys (Some (p, z0)) no_vinfo Hs) as (_ & _ & _ & S4).
      destruct (S4 j ty Ht) as (typ & gg & K1 & K2 & K3 & _). fold (tnode_at n name p z0) in K1, K2.
      destruct (ranked_in _ (field_bonds n m tc (tnode_at n name p z0) p) fs 0 0 j g GI) as (r & HR).
      rewrite Z.add_0_l in HR. unfold field_bonds in HR. rewrite K2 in HR.
      destruct g as [ta|q w|q ms|q k w|q k ms|tn' q hs|tn' q hs]; try (destruct G2; fail).
      * destruct FC as (FC1 & FC2 & FC3 & FC4).
        destruct (IH _ G1 (is_union ty) (field_node n typ p (Tab tn' q hs)) (tnode_at n tn' q (-1))) with (fs := gs) (i := i) (f := f) (t := t) as (w & z & W1 & W2 & W3); auto.
        -- eapply FO3; eauto.
        -- cbn [tc_ok field_node]. split; [apply place_node|]. split; [rewrite new_node_node; eauto|].
           intros U. specialize (FC3 U). subst ty. cbn [field_described] in K3. destruct K3 as [_ ->]. exists (-1). reflexivity.
        -- exists (-1). reflexivity.
        -- exists w, z. split; [apply HR; right; exact W1|]. auto.
      * destruct FC as (FC1 & FC2 & ->). cbn [field_described] in K3. destruct K3 as (G3 & -> & G4).
        destruct (IH _ G1 false (field_node n ("[]" ++ tn') p (Tabs tn' q hs)) (field_node n ("[]" ++ tn') p (Tabs tn' q hs))) with (fs := gs) (i := i) (f := f) (t := t) as (w & z & W1 & W2 & W3); auto.
        -- change false with (is_union (TyTables tn')). eapply FO3; eauto.
        -- cbn [tc_ok field_node]. exists p. split; [reflexivity|]. split; [exact G4|]. intros (e0 & E1 & E2). eapply FO2; eauto.
        -- exact I.
        -- exists w, z. split; [apply HR; right; exact W1|]. auto.
  - apply in_flat_map in Hin. destruct Hin as (g & G1 & G2). pose proof G1 as GI. apply zget_of_in in GI. destruct GI as (j & GI).
    destruct (elems_nth b s q nm es SE j g GI) as (t' & PT & ST). destruct (stored_pos b s _ _ _ ST) as (_ & ET & tys & hs & EE & _).
    assert (M : Forall insertable es) by (inversion HT; assumption). rewrite Forall_forall in M.
    pose proof (seen_tabs _ _ _ _ _ _ _ _ HFo) as FO.
    assert (PG : val_pos g = t') by (rewrite EE; reflexivity).
    destruct (IH g G1 false (tnode_at n nm (val_pos g) (-1)) (tnode_at n nm (val_pos g) (-1))) with (fs := gs) (i := i) (f := f) (t := t) as (w & z & W1 & W2 & W3); auto.
    + rewrite PG. clear - EE. subst g. cbn [tc_ok]. split; [apply place_node|]. split; [unfold tnode_at; rewrite new_node_node; eauto|]. intros _. exists (-1). reflexivity.
    + rewrite PG. subst g. exists (-1). reflexivity.
    + exists w, z. split; [|auto]. rewrite bonds_tabs. eapply in_concat_numbered; [exact GI|]. right. exact W1.
Qed.
End Own.

(** One bond for each reference. *)
Lemma linkof_once : forall ws l w w', ForallOrdPairs (fun x y => disjoint (fst x) 4 (fst y) 4) (flat_map linkof ws) ->
  In w ws -> In w' ws -> w_link w = Some l -> w_link w' = Some l -> w = w'.
Proof.
  induction ws as [|x ws IH]; intros l w w' H Hw Hw' L L'; [destruct Hw|]. cbn [flat_map] in H.
  assert (T : ForallOrdPairs (fun x y => disjoint (fst x) 4 (fst y) 4) (flat_map linkof ws)).
  { clear - H. induction (linkof x) as [|y k IHk]; [exact H|]. cbn in H. inversion H; subst. auto. }
  assert (NO : forall w, In w ws -> w_link w = Some l -> w_link x = Some l -> False).
  { intros w0 H0 L0 LX. unfold linkof at 1 in H. rewrite LX in H. cbn in H. inversion H as [|? ? F _]; subst.
    rewrite Forall_forall in F. assert (I : In l (flat_map linkof ws)) by (apply in_flat_map; exists w0; split; [exact H0|]; unfold linkof; rewrite L0; left; reflexivity).
    specialize (F l I). unfold disjoint in F. lia. }
  destruct Hw as [<-|Hw]; destruct Hw' as [<-|Hw'].
  - reflexivity.
  - exfalso. eauto.
  - exfalso. eauto.
  - eauto.
Qed.

Section InsertOwn.
Variable n : names.
Variable b : base.
Variable s : schema.
Hypothesis HF : flat b.
Hypothesis HD : describes n s.
Local Notation m := (img_bytes (sl_data (b_bytes b))).

Definition own_link (tp : Z) (fs : list val) (l : Z * Z) : Prop :=
  exists i f t, zget fs i = Some f /\ start f = Some t /\ l = (slot_of m tp i, t).

Lemma insert_own : forall name p v tn tp z fs pos size,
  n_root n = name -> stored_table m s name p v -> holds_uint m 0 4 p -> insertable v ->
  p < 65536 -> vtable_of m p <> 0 -> p < pos -> 0 <= size -> zlen (sl_data (b_bytes b)) + size < 4294967296 ->
  8 <= tp -> tp < pos -> In (Tab tn tp fs) (tables v) -> (forall gs, In (Tab tn tp gs) (tables v) -> gs = fs) ->
  between m pos v -> apart_links m v -> NoDup (starts v) -> met s (tn, tp) pos false v ->
  let c := new_node n (Some (tp, z)) no_vinfo tn in
  exists k, forall f, (k <= f)%nat -> exists nb D,
    node_insert_buf n f b c pos size = Ok (nb, c) /\ state b pos size true nb D /\
    (forall l, In l D -> In l (filter (crossing pos) (links m v)) /\ ~ own_link tp fs l) /\
    (forall l, In l (filter (crossing pos) (links m v)) -> In l D \/ own_link tp fs l).
Proof.
  intros name p v tn tp z fs pos size HN H H0 HT P16 VT PP HS SZ C8 TPP IT UQ HB HA ND ME c.
  assert (TT : exists soff es tl fs, table_at m p soff es tl /\ 0 <= soff /\ v = Tab name p fs) by (inversion H; subst; do 4 eexists; eauto).
  destruct TT as (soff & es & tl & fs0 & T & Hso & EV). pose proof (ta_vpos _ _ _ _ _ T) as TV.
  assert (HG : good m s v) by (eapply (proj1 (stored_good b s)); eauto).
  pose proof (layout_facts b s v HG HT) as LF.
  assert (TD : table_described n tn).
  { destruct (proj1 (tables_stored (img_bytes (sl_data (b_bytes b))) s v) name p H _ IT) as (nm & q & gs & E & X). injection E as <- <- <-.
    assert (X2 : exists tys, s tn = Some tys) by (inversion X; subst; eauto). destruct X2 as (tys & X2). destruct (HD tn tys X2) as (X3 & _). exact X3. }
  destruct (table_name n tn TD) as (LN & _ & _).
  set (mine := fun (_ : string) (_ : Z) (gs : list val) => gs = fs).
  assert (SE : seen s (tn, tp) pos mine false v) by (apply met_seen; auto).
  assert (HC : c_node c = Some (tp, z)) by apply new_node_node.
  assert (CN : c_name c = tn) by apply new_node_name.
  destruct (edges_found n b s HF HD name p v (-1) H HT ND) as (k & HK). exists k. intros f Hf.
  destruct (HK f Hf) as (ts & ps & eds & ws & E1 & E2 & E3 & E4).
  assert (HPos : 0 <= pos) by lia.
  destruct (state_start b HF pos size HPos HS true) as (nb & N1 & N2).
  assert (BL : Permutation (flat_map linkof ws) (links m v)).
  { rewrite <- (bonds_links n m v (proj1 (stored_spread b s) name p v H HT) (tnode_at n name p (-1)) (tnode_at n name p (-1))).
    apply flat_map_perm. exact E4. }
  assert (TC : tc_ok n (tn, tp) pos false v (tnode_at n name p (-1))).
  { rewrite EV. split; [apply place_node|]. split; [eexists; apply new_node_node|]. intros _. exists (-1). reflexivity. }
  assert (CC : c_ok n v (tnode_at n name p (-1))) by (rewrite EV; exists (-1); reflexivity).
  assert (BF : forall w, In w ws -> bfact n b s (tn, tp) pos mine (parts m v) (links m v) w).
  { intros w Hw. apply (bonds_facts n b s HD (tn, tp) pos mine (parts m v) (links m v) v HG false (tnode_at n name p (-1)) (tnode_at n name p (-1))); auto.
    - apply incl_refl.
    - apply incl_refl.
    - eapply Permutation_in; [exact E4|exact Hw]. }
  assert (OP : ForallOrdPairs (fun x y => disjoint (fst x) 4 (fst y) 4) (flat_map linkof ws)).
  { eapply pairs_perm; [|symmetry; exact BL|exact (proj1 HA)]. intros x y X. unfold disjoint in *. lia. }
  destruct (edges_moved n b s HD pos size HS c tp z HC (parts m v) (links m v)) with (create := true) (mine := mine) (ts := ts) (es := eds) (ws := ws) (nb := nb) (D := @nil (Z * Z)) as (nb' & D & M1 & M2 & M3 & M4 & M5); auto.
  - intros a t x k' Ha Hx. apply (proj2 HA a t x k' Ha Hx).
  - intros a t Ha. pose proof (proj2 LF a t Ha). lia.
  - intros x [].
  - rewrite CN. exact BF.
  - intros x Hx. eapply Permutation_in; [exact BL|exact Hx].
  - intros x y _ [].
  - rewrite CN in *. exists nb', D. split; [|split; [exact M2|]].
    + unfold node_insert_buf, node_insert_space. rewrite N1. cbn [bind]. unfold node_pos. rewrite HC. cbn [bind].
      rewrite (root_seen b s HF name p v tp H H0 P16 VT C8). cbn [bind]. rewrite HN.
      rewrite (root_stored n b s HF name p v H H0). cbn [bind].
      change (new_node n (Some (p, -1)) no_vinfo name) with (tnode_at n name p (-1)). rewrite E1. cbn [bind].
      rewrite E2. cbn [bind]. rewrite M1. cbn [bind]. unfold moved_node. rewrite CN, LN. cbn [bind]. rewrite HC.
      replace (pos <? tp) with false by lia. reflexivity.
    + split.
      * intros l X. apply M4 in X. destruct X as [[]|(w & W1 & W2 & W3)]. apply filter_In in W2. destruct W2 as [W2 W4]. split.
        -- rewrite filter_In. split; [|exact W4]. apply (Permutation_in _ BL). apply in_flat_map. exists w. split; [exact W1|exact W2].
        -- intros (i & f0 & t & F1 & F2 & ->). unfold crossing in W4. cbn [fst snd] in W4.
           assert (WL : w_link w = Some (slot_of m tp i, t)).
           { unfold linkof in W2. destruct (w_link w) as [l|]; [|destruct W2]. destruct W2 as [->|[]]. reflexivity. }
           assert (VP : t <= val_pos f0) by (destruct f0; cbn [start] in F2; try discriminate; injection F2 as <-; cbn [val_pos]; lia).
           destruct (bonds_own n b s HD tn tp pos mine v HG false (tnode_at n name p (-1)) (tnode_at n name p (-1)) SE HT TC CC fs i f0 t IT F1 F2 ltac:(lia)) as (w' & z' & X1 & X2 & X3).
           apply (Permutation_in _ (Permutation_sym E4)) in X1.
           assert (w = w') by (eapply linkof_once; eauto). subst w'.
           destruct W3 as [W3|W3].
           ++ destruct W3 as (nm & q & z1 & t1 & t2 & t3 & t4 & t5 & t6 & t7 & Y1 & Y2 & Y3 & Y4 & Y5 & Y6 & Y7 & Y8 & Y9 & Y10 & Y11 & Y12 & Y13 & Y14 & Y15 & _).
              apply Y15. rewrite X3 in Y1.
              assert (A1 : c_name (tnode_at n tn tp z') = c_name (tnode_at n nm q z1)) by (rewrite Y1; reflexivity).
              assert (A2 : c_node (tnode_at n tn tp z') = c_node (tnode_at n nm q z1)) by (rewrite Y1; reflexivity).
              unfold tnode_at in A1, A2. rewrite !new_node_name in A1. rewrite !new_node_node in A2. congruence.
           ++ destruct W3 as (q & tn' & p' & k' & a & t1 & Y1 & Y2 & _). rewrite X3 in Y1.
              assert (A1 : c_name (tnode_at n tn tp z') = c_name (new_node n (Some (p', -1)) (mkV q 0 k') ("[]" ++ tn')%string)) by (rewrite Y1; reflexivity).
              unfold tnode_at in A1. rewrite !new_node_name in A1. specialize (LN 0). rewrite A1 in LN. unfold is_list_name in LN. destruct tn'; vm_compute in LN; discriminate.
      * intros l X. apply filter_In in X. destruct X as [X Y]. apply (Permutation_in _ (Permutation_sym BL)) in X.
        apply in_flat_map in X. destruct X as (w & W1 & W2).
        destruct (M5 l w W1) as [Q|Q]; [apply filter_In; auto|left; exact Q|]. right.
        destruct Q as (nm & q & z1 & gs & i & f0 & t & Q1 & Q2 & Q3 & Q4 & Q5 & Q6 & Q7). unfold mine in Q3. subst gs.
        assert (q = tp) by congruence. subst q. exists i, f0, t. split; [exact Q4|]. split; [exact Q5|].
        unfold linkof in W2. rewrite Q6 in W2. destruct W2 as [<-|[]]. reflexivity.
Qed.
End InsertOwn.
