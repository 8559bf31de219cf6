(** Trees and successive roots. *)
From Coq Require Import ZArith List Bool Lia String.
From Coq Require Import Strings.Byte.
From Verif Require Import GoLib BaseModel GoLemmas BaseSpec BaseProofs TableModel TableSpec TableProofs.
From Verif Require Import TableProofs2 NameModel NameSpec NameProofs NameProofs2 StreamModel.
From Verif Require Import WalkModel WalkSpec WalkProofs WalkProofs2 WalkProofs3 WalkProofs4 WalkProofs5.
Import ListNotations.
Open Scope list_scope.
Open Scope Z_scope.

(** ** Owners *)

Lemma in_numbered : forall A B (g : Z -> A -> list B) l x, In x (List.concat (numbered g l)) ->
  exists i v, In v l /\ In x (g i v) /\ incl (g i v) (List.concat (numbered g l)).
Proof.
  intros A B g l x H. unfold numbered in *. revert H. generalize 0 as k.
  induction l as [|a l IH]; intros k H; cbn in H; [contradiction|].
  apply in_app_or in H. destruct H as [H|H].
  - exists k, a. split; [left; reflexivity|]. split; [exact H|]. cbn. apply incl_appl, incl_refl.
  - destruct (IH _ H) as (i & v & I1 & I2 & I3). exists i, v. split; [right; exact I1|]. split; [exact I2|].
    cbn. apply incl_appr. exact I3.
Qed.

Definition owned (v : val) : Prop := forall x, In x (sightings v) ->
  owner_of x = val_pos v \/ exists y, In y (sightings v) /\ place_of y = owner_of x.

Lemma owned_traversable : forall v, traversable v -> owned v.
Proof.
  fix go 2. intros v H. destruct H as [tn|sn ms|us|p w|p k w|name p fs H|name p es H];
    try (intros x []).
  - intros x HX. left. cbn [sightings] in HX. destruct (w =? 1); [destruct HX|].
    apply in_map_iff in HX. destruct HX as (iq & <- & _). reflexivity.
  - assert (HO : forall v, In v fs -> owned v).
    { clear - go H. induction H as [|f fs Hf H IH]; intros v HI; [destruct HI|].
      destruct HI as [<-|HI]; [apply go; exact Hf|apply IH; exact HI]. }
    clear go. intros x HX. rewrite sightings_tab in HX |- *.
    apply in_numbered in HX. destruct HX as (i & v & I1 & I2 & I3). specialize (HO v I1).
    assert (D : x = (p, i, val_pos v, snd x) \/ In x (sightings v) /\
      exists z, incl ((p, i, val_pos v, z) :: sightings v) (field_sights p i v)).
    { destruct v; cbn [field_sights] in I2; try (destruct I2 as [<-|I2]; [left; reflexivity|right]);
        try destruct I2; (split; [exact I2|eexists; apply incl_refl]). }
    destruct D as [D|(D & z & D2)]; [left; rewrite D; reflexivity|]. right.
    destruct (HO x D) as [E|(y & Y1 & Y2)].
    + eexists. split; [apply I3, D2; left; reflexivity|]. exact (eq_sym E).
    + exists y. split; [apply I3, D2; right; exact Y1|exact Y2].
  - assert (HO : forall v, In v es -> owned v).
    { clear - go H. induction H as [|f fs Hf H IH]; intros v HI; [destruct HI|].
      destruct HI as [<-|HI]; [apply go; exact Hf|apply IH; exact HI]. }
    clear go. intros x HX. rewrite sightings_tabs in HX |- *.
    apply in_numbered in HX. destruct HX as (i & v & I1 & I2 & I3). specialize (HO v I1).
    destruct I2 as [<-|D]; [left; reflexivity|]. right.
    destruct (HO x D) as [E|(y & Y1 & Y2)].
    + eexists. split; [apply I3; left; reflexivity|]. exact (eq_sym E).
    + exists y. split; [apply I3; right; exact Y1|exact Y2].
Qed.

(** ** Trees *)

Lemma stands_at_pos : forall c q, tree_pos c = Some q -> stands_at c q.
Proof.
  intros c q H. unfold tree_pos, stands_at in *. destruct (0 <? v_pos (c_info c)); [congruence|].
  destruct (c_node c) as [[p z]|]; [|discriminate]. exists z. congruence.
Qed.

Lemma find_first : forall ts qs q j0, Forall2 (fun t q => exists c, t = Some c /\ tree_pos c = Some q) ts qs ->
  In q qs -> exists j, find_tree ts j0 q = Ok (Some (j0 + Z.of_nat j)) /\ nth_error qs j = Some q /\
    forall i, (i < j)%nat -> nth_error qs i <> Some q.
Proof.
  intros ts qs q j0 H. revert j0. induction H as [|t x ts qs (c & -> & HC) H IH]; intros j0 HI; [destruct HI|].
  cbn [find_tree].
  assert (T : (if 0 <? v_pos (c_info c) then v_pos (c_info c) =? q
               else match c_node c with Some (p, _) => p =? q | None => false end) = (x =? q)).
  { unfold tree_pos in HC. destruct (0 <? v_pos (c_info c)); [congruence|].
    destruct (c_node c) as [[p z]|]; [|discriminate]. congruence. }
  rewrite T. destruct (x =? q) eqn:E.
  - exists 0%nat. split; [f_equal; f_equal; lia|]. split; [cbn; f_equal; lia|]. intros i Hi. lia.
  - destruct HI as [->|HI]; [lia|]. destruct (IH (j0 + 1) HI) as (j & J1 & J2 & J3).
    exists (S j). split; [rewrite J1; f_equal; f_equal; lia|]. split; [exact J2|].
    intros [|i] Hi; cbn; [intros C; injection C as C; lia|]. apply J3. lia.
Qed.

Section Schema.
Variable n : names.
Variable b : base.
Variable s : schema.
Hypothesis HF : flat b.
Hypothesis HD : describes n s.

Notation m := (img_bytes (sl_data (b_bytes b))).

Lemma collect_trees : forall xs, Forall (visit_ok n b) xs ->
  exists ns, collect (tree_node n b) xs = Ok ns /\
    Forall2 (fun t q => exists c, t = Some c /\ tree_pos c = Some q) ns (map x_child xs).
Proof.
  intros xs H. induction H as [|x xs (c & E & T) H IH]; [exists []; split; [reflexivity|constructor]|].
  destruct IH as (ns & I1 & I2). exists (Some c :: ns). cbn [collect map]. rewrite E, I1. split; [reflexivity|].
  constructor; [exists c; auto|exact I2].
Qed.

Lemma collect_parents : forall ts qs xs, Forall2 (fun t q => exists c, t = Some c /\ tree_pos c = Some q) ts qs ->
  (forall x, In x xs -> In (x_parent x) qs) ->
  exists ps, collect (fun x => find_tree ts 0 (x_parent x)) xs = Ok ps /\
    Forall2 (fun q p => exists j, p = Some (Z.of_nat j) /\ nth_error qs j = Some q /\
      forall i, (i < j)%nat -> nth_error qs i <> Some q) (map x_parent xs) ps.
Proof.
  intros ts qs xs H. induction xs as [|x xs IH]; intros HI; [exists []; split; [reflexivity|constructor]|].
  destruct IH as (ps & I1 & I2); [intros y Hy; apply HI; right; exact Hy|].
  destruct (find_first ts qs (x_parent x) 0 H (HI x (or_introl eq_refl))) as (j & J1 & J2).
  exists (Some (0 + Z.of_nat j) :: ps). cbn [collect map]. rewrite J1, I1. split; [reflexivity|].
  constructor; [|exact I2]. exists j. split; [reflexivity|exact J2].
Qed.

Lemma trees_found : forall name p v sz, stored_table m s name p v -> traversable v ->
  exists k, forall f, (k <= f)%nat -> exists ts ps,
    all_tree n b f (new_node n (Some (p, sz)) no_vinfo name) = Ok (ts, ps) /\
    Forall2 (fun t q => exists c, t = Some c /\ stands_at c q) ts (p :: map place_of (sightings v)) /\
    Forall2 (fun q o => exists j, o = Some (Z.of_nat j) /\
        nth_error (p :: map place_of (sightings v)) j = Some q /\
        forall i, (i < j)%nat -> nth_error (p :: map place_of (sightings v)) i <> Some q)
      (map owner_of (sightings v)) ps.
Proof.
  intros name p v sz H HM. destruct (proj1 (traverse_stored n b s HF HD) name p v H HM) as [k Hk]. exists k. intros f Hf.
  destruct (stored_pos b s _ _ _ H) as (P0 & E & _).
  specialize (Hk f Hf sz). rewrite E in Hk. destruct Hk as (xs & X1 & X2 & X3).
  destruct (collect_trees xs X3) as (ns & N1 & N2).
  assert (PC : map x_child xs = map place_of (sightings v)).
  { rewrite <- X2, map_map. reflexivity. }
  assert (PO : map x_parent xs = map owner_of (sightings v)).
  { rewrite <- X2, map_map. reflexivity. }
  assert (T : Forall2 (fun t q => exists c, t = Some c /\ tree_pos c = Some q)
    (Some (tnode_at n name p sz) :: ns) (p :: map place_of (sightings v))).
  { constructor; [|rewrite <- PC; exact N2]. eexists. split; [reflexivity|].
    unfold tree_pos, tnode_at. rewrite new_node_info, new_node_node. reflexivity. }
  destruct (collect_parents _ _ xs T) as (ps & P1 & P2).
  { intros x HX. pose proof (owned_traversable v HM (sight x)) as O.
    destruct O as [O|(y & Y1 & Y2)].
    - rewrite <- X2. apply in_map. exact HX.
    - left. change (owner_of (sight x)) with (x_parent x) in O. congruence.
    - right. change (owner_of (sight x)) with (x_parent x) in Y2. rewrite <- Y2. apply in_map. exact Y1. }
  exists (Some (tnode_at n name p sz) :: ns), ps. split; [|split].
  - unfold all_tree. fold (tnode_at n name p sz). rewrite X1. cbn [bind]. rewrite N1. cbn [bind]. rewrite P1. reflexivity.
  - clear - T. induction T as [|t q ts qs (c & -> & C) T IH]; constructor; [|exact IH].
    exists c. split; [reflexivity|apply stands_at_pos, C].
  - rewrite <- PO. exact P2.
Qed.

(** ** Successive roots *)

Lemma no_next : forall name p v, stored_table m s name p v -> measured v -> holds_uint m 0 4 p ->
  reach v <= len_buf b -> len_buf b mod 4 = 0 ->
  exists c k, root_node n b name = Ok c /\ forall f, (k <= f)%nat -> has_next n b f c = Ok false.
Proof.
  intros name p v H HM HR HL H4. destruct (measured_len n b s HF HD name p v H HM HR) as (c & k & r & C1 & C2 & C3 & C4).
  exists c, k. split; [exact C1|]. intros f Hf. unfold has_next. rewrite (C2 f Hf). cbn [bind]. f_equal.
  apply Z.ltb_ge. apply Z.mod_divide in C3; [|lia]. apply Z.mod_divide in H4; [|lia].
  destruct C3 as [x ->]. destruct H4 as [y Hy]. lia.
Qed.

End Schema.

Lemma skip_upto : forall s r t u, gs_upto s r = Ok t -> gs_from t r = Ok u -> sl_data u = [].
Proof.
  intros s r t u H1 H2. unfold gs_upto, gs_range in H1.
  destruct ((0 <=? 0) && (0 <=? r) && (r <=? gs_cap s)) eqn:E; [|discriminate]. injection H1 as <-.
  unfold gs_from in H2. cbn [sl_data] in H2. match goal with H : (if ?c then _ else _) = _ |- _ => destruct c; [|discriminate] end.
  injection H2 as <-. cbn [sl_data]. apply length_zero_iff_nil. unfold zskip, zfirst.
  rewrite ?skipn_length, ?firstn_length. lia.
Qed.

Lemma empty_reads : forall t, sl_data t = [] -> rd 4 (new_base t) 0 = Panic.
Proof.
  intros t H. destruct t as [l sp]. cbn in H. subst l. reflexivity.
Qed.

Lemma next_stays : forall n b f c nb c', root_next n b f (memory_next b) c = Ok (nb, c') ->
  nb = b /\ c' = c.
Proof.
  intros n b f c nb c' H. unfold root_next in H. destruct (node_len n b f c) as [r| |]; try discriminate.
  cbn [bind] in H. destruct (len_buf b <? r); [split; congruence|].
  exfalso. unfold memory_next in H. destruct (next_buf b r) as [[b' t]| |] eqn:E; try discriminate.
  cbn [bind snd] in H.
  assert (Z0 : sl_data t = []).
  { unfold next_buf in E. destruct (r <? gs_len (b_bytes b)).
    - destruct (gs_upto (b_bytes b) 0) as [u| |] eqn:U; try discriminate. cbn [bind] in E.
      assert (t = u) by congruence. subst u. unfold gs_upto, gs_range in U.
      match goal with H : (if ?c then _ else _) = _ |- _ => destruct c; [|discriminate] end.
      injection U as <-. reflexivity.
    - destruct (gs_upto (b_bytes b) r) as [u| |] eqn:U; try discriminate. cbn [bind] in E.
      destruct (gs_from u r) as [w| |] eqn:W; try discriminate. cbn [bind] in E.
      assert (t = w).
      { destruct (r <? gs_cap (b_bytes b)); cbn [bind] in E; [destruct (gs_upto (b_bytes b) r); cbn [bind] in E|]; congruence. }
      subst w. exact (skip_upto _ _ _ _ U W). }
  rewrite (empty_reads t Z0) in H. discriminate.
Qed.

(** ** Checkers *)

Definition narrow (f : val) : bool :=
  match f with Absent (TyScalars t) => negb (zwidth t =? 1) | _ => true end.
Definition fits (p r : Z) (f : val) : bool :=
  match f with Absent (TyScalar t) => p + zwidth t <=? r | _ => true end.

Fixpoint measured_b (v : val) : bool :=
  match v with
  | Tab name p fs =>
      existsb (fun f => negb (is_absent f)) fs && forallb (fits p (reach v)) fs && forallb narrow fs &&
      forallb measured_b fs
  | Tabs name p es =>
      forallb (fun e => reach e <=? reach (last es (Absent (TyTable name)))) es && forallb measured_b es
  | _ => true
  end.

Lemma measured_sound : forall v, measured_b v = true -> measured v.
Proof.
  fix go 1. intros v H. destruct v as [t|p w|p ms|p k w|p k ms|name p fs|name p es]; try constructor.
  - clear go. cbn [measured_b] in H. rewrite !andb_true_iff in H. destruct H as (((H & _) & _) & _).
    apply existsb_exists in H. destruct H as (f & F1 & F2). exists f. split; [exact F1|]. destruct (is_absent f); [discriminate|reflexivity].
  - clear go. intros t HI. cbn [measured_b] in H. rewrite !andb_true_iff in H. destruct H as (((_ & H) & _) & _).
    rewrite forallb_forall in H. specialize (H _ HI). cbn [fits] in H. lia.
  - clear go. intros t HI. cbn [measured_b] in H. rewrite !andb_true_iff in H. destruct H as ((_ & H) & _).
    rewrite forallb_forall in H. specialize (H _ HI). cbn [narrow] in H. intros C. rewrite C in H. discriminate.
  - cbn [measured_b] in H. rewrite !andb_true_iff in H. destruct H as (_ & H). clear - go H.
    induction fs as [|f fs IH]; constructor; cbn [forallb] in H; apply andb_true_iff in H; destruct H as (H1 & H2); auto.
  - clear go. intros e HI. cbn [measured_b] in H. rewrite !andb_true_iff in H. destruct H as (H & _).
    rewrite forallb_forall in H. specialize (H _ HI). cbn beta in H. lia.
  - cbn [measured_b] in H. rewrite !andb_true_iff in H. destruct H as (_ & H). clear - go H.
    induction es as [|f fs IH]; constructor; cbn [forallb] in H; apply andb_true_iff in H; destruct H as (H1 & H2); auto.
Qed.

Fixpoint traversable_b (v : val) : bool :=
  match v with
  | Absent (TyTable _) | Absent (TyStruct _ _) | Absent (TyUnion _) | Scalar _ _ | Scalars _ _ _ => true
  | Tab _ _ fs => forallb traversable_b fs
  | Tabs _ _ es => forallb traversable_b es
  | _ => false
  end.

Lemma traversable_sound : forall v, traversable_b v = true -> traversable v.
Proof.
  fix go 1. intros v H. destruct v as [t|p w|p ms|p k w|p k ms|name p fs|name p es].
  - destruct t; try discriminate; constructor.
  - constructor.
  - discriminate.
  - constructor.
  - discriminate.
  - constructor. cbn [traversable_b] in H. clear - go H.
    induction fs as [|f fs IH]; constructor; cbn [forallb] in H; apply andb_true_iff in H; destruct H as (H1 & H2); auto.
  - constructor. cbn [traversable_b] in H. clear - go H.
    induction es as [|f fs IH]; constructor; cbn [forallb] in H; apply andb_true_iff in H; destruct H as (H1 & H2); auto.
Qed.
