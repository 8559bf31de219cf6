(** All references across the place are moved, once each. *)
From Coq Require Import ZArith List Bool Lia String Permutation.
From Coq Require Import Strings.Byte.
From Verif Require Import GoLib BaseModel GoLemmas BaseSpec BaseProofs TableModel TableSpec TableProofs TableProofs2.
From Verif Require Import NameModel NameSpec NameProofs NameProofs2 WalkModel WalkSpec WalkProofs WalkProofs2 WalkProofs3 WalkProofs5.
From Verif Require Import InsModel InsSpec InsProofs InsProofs2 InsProofs4 InsProofs5 InsProofs6 InsProofs7 InsProofs8 InsProofs9.
Import ListNotations.
Open Scope list_scope.
Open Scope Z_scope.

Definition crossing (pos : Z) (l : Z * Z) : bool := (fst l <? pos) && (pos <=? snd l).

Section Moves.
Variable n : names.
Variable b : base.
Variable s : schema.
Hypothesis HF : flat b.
Hypothesis HD : describes n s.
Variables pos size : Z.
Hypothesis HP : 0 <= pos.
Hypothesis HS : 0 <= size.
Variable c : cnode.
Variable cp cz : Z.
Hypothesis HC : c_node c = Some (cp, cz).
Variables PS LS : list (Z * Z).
Hypothesis APART : forall a t x k, In (a, t) LS -> In (x, k) PS -> disjoint a 4 x k.
Hypothesis FITS : forall a t, In (a, t) LS -> t - a + size < 4294967296.
Local Notation m := (img_bytes (sl_data (b_bytes b))).
Local Notation own := (c_name c, cp).
Variable create : bool.
Variable mine : string -> Z -> list val -> Prop.
Local Notation state := (state b pos size create).
Local Notation bfact := (bfact n b s own pos mine PS LS).
Local Notation moves := (moves n b s own pos PS LS).
Local Notation own_step := (own_step n b own pos mine).

Lemma edge_moved : forall ts nb D e w, state nb D -> incl D LS -> bfact w -> matches ts e w ->
  (forall a t, In (a, t) (linkof w) -> clear_of D a 4) ->
  exists nb' X, move_edge n c ts pos size (Ok nb) e = Ok nb' /\ state nb' (X ++ D) /\
    (forall l, In l X -> In l (filter (crossing pos) (linkof w)) /\ moves w) /\
    (forall l, In l (filter (crossing pos) (linkof w)) -> In l X \/ own_step w).
Proof.
  intros ts nb D [[j k] i] w ST HI (F1 & (d1 & F2) & FF) (M1 & M2 & M3) CL.
  assert (DONE : forall nb' (R : moves w \/ filter (crossing pos) (linkof w) = []), state nb' (filter (crossing pos) (linkof w) ++ D) ->
    forall r, r = Ok nb' -> exists nb' X, r = Ok nb' /\ state nb' (X ++ D) /\
      (forall l, In l X -> In l (filter (crossing pos) (linkof w)) /\ moves w) /\
      (forall l, In l (filter (crossing pos) (linkof w)) -> In l X \/ own_step w)).
  { intros nb' R S r E. exists nb', (filter (crossing pos) (linkof w)). split; [exact E|]. split; [exact S|]. split; [|auto].
    intros l Hl. split; [exact Hl|]. destruct R as [R|R]; [exact R|]. rewrite R in Hl. destruct Hl. }
  unfold move_edge. cbn [bind]. rewrite M1, M2, F2, F1. destruct d1 as [tp tz].
  destruct FF as [(F4 & F5)|(F3 & (d2 & F4) & F5)].
  { rewrite F4. apply (DONE nb); [|unfold linkof; rewrite F5; exact ST|reflexivity]. right. unfold linkof. rewrite F5. reflexivity. }
  rewrite F4, F3.
  assert (CLP : forall x k, In (x, k) PS -> clear_of D x k).
  { intros x k' Hx a t Ha. eapply APART; eauto. }
  destruct F5 as [(P1 & P2)|[[F5|F5]|F5]].
  - replace ((w_owner w <=? pos) && (pos <=? w_place w)) with false by lia.
    assert (NIL : filter (crossing pos) (linkof w) = []); [|apply (DONE nb); [right; exact NIL|rewrite NIL; exact ST|reflexivity]].
    unfold linkof. destruct (w_link w) as [[a t]|]; [|reflexivity]. cbn [filter]. specialize (P2 a t eq_refl).
    unfold crossing. cbn [fst snd]. replace ((a <? pos) && (pos <=? t)) with false by lia. reflexivity.
  - assert (MV : moves w) by (left; exact F5).
    destruct F5 as (name & p & z & tys & soff & es & tl & e & a & t & E1 & Hs & T & Hso & He & -> & E4 & EL & HO & AT & B1 & B2 & B3 & B4 & OWN & GR & I1 & I2 & I3).
    rewrite E1 in F1, F2. unfold tnode_at in F1, F2. rewrite place_node in F1. rewrite new_node_node in F2. injection F2 as -> ->.
    replace ((w_owner w <=? pos) && (pos <=? w_place w)) with true by lia. rewrite HC, E1.
    unfold tnode_at at 1. rewrite new_node_name.
    assert (NO : String.eqb name (c_name c) && (tp =? cp) = false).
    { destruct (String.eqb_spec name (c_name c)) as [EN|]; [|reflexivity]. destruct (Z.eqb_spec tp cp) as [EP|]; [|reflexivity].
      exfalso. apply OWN. congruence. }
    rewrite NO. unfold move_node. unfold tnode_at at 1 2. rewrite new_node_name, new_node_info. cbn [no_vinfo v_len].
    destruct (table_name n name (proj1 (HD name tys Hs))) as (N1 & N2 & _). rewrite N1. cbn [bind].
    unfold tnode_at at 1. rewrite new_node_name. rewrite N2. rewrite M3. cbn zeta in GR. rewrite GR.
    unfold tnode_at at 1. rewrite new_node_node. unfold move_pos. cbn [t_io t_pos].
    rewrite (state_virtual b pos size create nb D tp soff es tl (w_rank w) e ST T Hso He B1 B2 (CLP _ _ I1) (CLP _ _ I2)).
    cbn [bind]. pose proof (pos_entry b tp soff es tl T) as P0.
    assert (CA : clear_of D (tp + e) 4) by (eapply CL; unfold linkof; rewrite EL; left; reflexivity).
    rewrite (state_rd b pos size create nb D 4 (tp + e) _ ST ltac:(lia) ltac:(lia) ltac:(lia) CA HO). cbn [bind].
    replace (tp + e + (t - (tp + e))) with t by lia.
    assert (FE : filter (crossing pos) (linkof w) = if t <? pos then [] else [(tp + e, t)]).
    { unfold linkof. rewrite EL. cbn [filter]. unfold crossing. cbn [fst snd]. replace (tp + e <? pos) with true by lia. cbn [andb].
      destruct (t <? pos) eqn:C; [replace (pos <=? t) with false by lia|replace (pos <=? t) with true by lia]; reflexivity. }
    destruct (t <? pos) eqn:C.
    + cbn [bind t_io]. apply (DONE nb); [left; exact MV|rewrite FE; exact ST|reflexivity].
    + destruct (state_write b pos size HS create nb D (tp + e) t ST ltac:(lia) ltac:(lia) CA HO (FITS _ _ I3)) as (nb' & W1 & W2).
      rewrite W1. cbn [bind t_io]. apply (DONE nb'); [left; exact MV|rewrite FE; exact W2|reflexivity].
  - assert (MV : moves w) by (right; exact F5).
    destruct F5 as (q & tn & p' & k' & a & t & E1 & TD & RK & Q & -> & EL & HO & B1 & B2 & OWN & I3).
    rewrite E1 in F1, F2. rewrite new_node_node in F2. injection F2 as EP EZ. subst tp tz.
    rewrite place_vec in F1 by lia.
    replace ((w_owner w <=? pos) && (pos <=? w_place w)) with true by lia. rewrite HC, E1, new_node_name.
    assert (NO : String.eqb ("[]" ++ tn)%string (c_name c) && (p' =? cp) = false).
    { destruct (String.eqb_spec ("[]" ++ tn)%string (c_name c)) as [EN|]; [|reflexivity]. destruct (Z.eqb_spec p' cp) as [EQ|]; [|reflexivity].
      exfalso. apply OWN. congruence. }
    rewrite NO. unfold move_node. rewrite new_node_name, is_list_spec. cbn [bind].
    unfold move_pos_on_list. rewrite new_node_info, new_node_name. cbn [v_len v_pos]. rewrite M3.
    replace ((k' <=? w_rank w) || (w_rank w <? 0)) with false by lia.
    change (str_from2 ("[]" ++ tn)%string) with (Ok tn). cbn [bind].
    destruct (table_name n tn TD) as (_ & _ & g & G1 & G2). rewrite G1. cbn [bind]. rewrite G2.
    replace (q + w_rank w * 4) with (q + 4 * w_rank w) by lia.
    assert (CA : clear_of D (q + 4 * w_rank w) 4) by (eapply CL; unfold linkof; rewrite EL; left; reflexivity).
    rewrite (state_rd b pos size create nb D 4 (q + 4 * w_rank w) _ ST ltac:(lia) ltac:(lia) ltac:(lia) CA HO). cbn [bind].
    assert (FE : filter (crossing pos) (linkof w) = [(q + 4 * w_rank w, t)]).
    { unfold linkof. rewrite EL. cbn [filter]. unfold crossing. cbn [fst snd].
      replace (q + 4 * w_rank w <? pos) with true by lia. replace (pos <=? t) with true by lia. reflexivity. }
    destruct (state_write b pos size HS create nb D (q + 4 * w_rank w) t ST ltac:(lia) ltac:(lia) CA HO (FITS _ _ I3)) as (nb' & W1 & W2).
    apply (DONE nb'); [left; exact MV|rewrite FE; exact W2|exact W1].
  - pose proof F5 as OS. destruct F5 as (name & p & z & fs & i' & f & t & E1 & OWN & _ & _ & _ & EL & R).
    replace ((w_owner w <=? pos) && (pos <=? w_place w)) with true by lia. rewrite HC, E1. unfold tnode_at at 1. rewrite new_node_name.
    rewrite E1 in F2. unfold tnode_at in F2. rewrite new_node_node in F2. assert (c_name c = name) by congruence. assert (cp = tp) by congruence. subst cp name.
    rewrite String.eqb_refl, Z.eqb_refl. cbn [andb]. exists nb, []. split; [reflexivity|]. split; [exact ST|]. split; [intros l []|auto].
Qed.

Lemma edges_moved : forall ts es ws, Forall2 (matches ts) es ws -> forall nb D, state nb D -> incl D LS ->
  (forall w, In w ws -> bfact w) -> incl (flat_map linkof ws) LS ->
  ForallOrdPairs (fun x y => disjoint (fst x) 4 (fst y) 4) (flat_map linkof ws) ->
  (forall x y, In x (flat_map linkof ws) -> In y D -> disjoint (fst x) 4 (fst y) 4) ->
  exists nb' D', fold_left (move_edge n c ts pos size) es (Ok nb) = Ok nb' /\ state nb' D' /\
    (forall l, In l D -> In l D') /\
    (forall l, In l D' -> In l D \/ exists w, In w ws /\ In l (filter (crossing pos) (linkof w)) /\ moves w) /\
    (forall l w, In w ws -> In l (filter (crossing pos) (linkof w)) -> In l D' \/ own_step w).
Proof.
  intros ts es ws H. induction H as [|e w es ws M H IH]; intros nb D ST HI HB HL HO HDJ.
  - exists nb, D. split; [reflexivity|]. split; [exact ST|]. split; [auto|]. split; [auto|]. intros l w [].
  - cbn [flat_map] in *.
    destruct (edge_moved ts nb D e w ST HI (HB _ (or_introl eq_refl)) M) as (nb1 & X & E1 & S1 & X1 & X1').
    { intros a t Ha a' t' Hd. specialize (HDJ (a, t) (a', t') (in_or_app _ _ _ (or_introl Ha)) Hd). unfold disjoint in *. cbn [fst] in *. lia. }
    destruct (IH nb1 (X ++ D) S1) as (nb2 & D2 & E2 & S2 & X2 & X3 & X4).
    + intros l Hl. apply in_app_or in Hl. destruct Hl as [Hl|Hl]; [|apply HI, Hl]. apply X1, proj1, filter_In in Hl. apply HL, in_or_app. left. apply Hl.
    + intros w' Hw. apply HB. right. exact Hw.
    + intros l Hl. apply HL, in_or_app. right. exact Hl.
    + clear - HO. induction (linkof w) as [|x l IHl]; [exact HO|]. cbn in HO. inversion HO; subst. auto.
    + intros x y Hx Hy. apply in_app_or in Hy. destruct Hy as [Hy|Hy].
      * apply X1, proj1, filter_In in Hy. destruct Hy as [Hy _]. clear - HO Hx Hy.
        induction (linkof w) as [|z l IHl]; [destruct Hy|]. cbn in HO. inversion HO as [|? ? F O]; subst. destruct Hy as [->|Hy]; [|auto].
        rewrite Forall_forall in F. specialize (F x (in_or_app _ _ _ (or_intror Hx))). unfold disjoint in *. lia.
      * apply HDJ; [apply in_or_app; right; exact Hx|exact Hy].
    + exists nb2, D2. split; [|split; [exact S2|]].
      * change (fold_left (move_edge n c ts pos size) es (move_edge n c ts pos size (Ok nb) e) = Ok nb2). rewrite E1. exact E2.
      * split; [|split].
        -- intros l Hl. apply X2, in_or_app. right. exact Hl.
        -- intros l Hl. apply X3 in Hl. destruct Hl as [Hl|(w' & W1 & W2)].
           ++ apply in_app_or in Hl. destruct Hl as [Hl|Hl]; [|auto]. right. exists w. split; [left; reflexivity|]. apply X1. exact Hl.
           ++ right. exists w'. split; [right; exact W1|exact W2].
        -- intros l w' [<-|Hw] Hl; [|apply (X4 l w' Hw Hl)]. apply X1' in Hl. destruct Hl as [Hl|Hl]; [|auto]. left. apply X2, in_or_app. left. exact Hl.
Qed.
End Moves.
