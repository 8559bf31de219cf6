(** Each visit is passed over, moves a field, or moves an element. *)
From Coq Require Import ZArith List Bool Lia String.
From Verif Require Import GoLib BaseModel GoLemmas BaseSpec TableModel TableSpec TableProofs NameModel NameSpec.
From Verif Require Import WalkModel WalkSpec WalkProofs WalkProofs2 WalkProofs3 WalkProofs4 WalkProofs5.
From Verif Require Import InsModel InsSpec InsProofs InsProofs2 InsProofs4 InsProofs5 InsProofs7.
Import ListNotations.
Open Scope list_scope.
Open Scope Z_scope.

Lemma in_ranked_idx : forall A (g : Z -> Z -> val -> list A) fs i0 r0 x,
  In x (List.concat (ranked g i0 r0 fs)) -> exists i r f, zget fs i = Some f /\ In x (g (i0 + i) r f) /\
    ((forall j h, 0 <= j < i -> zget fs j = Some h -> gap h = false) -> r = r0 + i).
Proof.
  induction fs as [|f fs IH]; intros i0 r0 x H; [destruct H|]. cbn [ranked List.concat] in H.
  apply in_app_or in H. destruct H as [H|H].
  - exists 0, r0, f. replace (i0 + 0) with i0 by lia. split; [reflexivity|]. split; [exact H|]. intros _. lia.
  - destruct (IH _ _ _ H) as (i & r & h & H1 & H2 & H3). pose proof (zget_some_range _ _ _ H1) as R.
    exists (i + 1), r, h. split; [|split].
    + rewrite zget_cons. replace (i + 1 =? 0) with false by lia. replace (i + 1 - 1) with i by lia. exact H1.
    + replace (i0 + (i + 1)) with (i0 + 1 + i) by lia. exact H2.
    + intros HP. assert (HF : gap f = false) by (apply (HP 0 f); [lia|reflexivity]). rewrite HF in H3.
      rewrite H3; [lia|]. intros j k Hj Hk. apply (HP (j + 1) k); [lia|].
      rewrite zget_cons. replace (j + 1 =? 0) with false by lia. replace (j + 1 - 1) with j by lia. exact Hk.
Qed.

(** The references the code finds, where those of some tables may be left to
    the caller. *)
Section Seen.
Variable s : schema.
Variable own : string * Z.
Variable pos : Z.
Variable mine : string -> Z -> list val -> Prop.

Inductive seen : bool -> val -> Prop :=
| Se_absent : forall u t, seen u (Absent t)
| Se_scalar : forall u p w, seen u (Scalar p w)
| Se_scalars : forall u p k w, seen u (Scalars p k w)
| Se_tab : forall u name p fs tys, s name = Some tys ->
    (forall i f, zget fs i = Some f -> p < pos <= val_pos f ->
       u = false /\ ((own = (name, p) /\ mine name p fs) \/
         (own <> (name, p) /\ forall j g, 0 <= j < i -> zget fs j = Some g -> gap g = false))) ->
    (forall i tn q es, zget fs i = Some (Tabs tn q es) ->
       (exists e, In e es /\ q < pos <= val_pos e) -> own <> (("[]" ++ tn)%string, p)) ->
    (forall i f t, zget fs i = Some f -> zget tys i = Some t -> seen (is_union t) f) ->
    seen u (Tab name p fs)
| Se_tabs : forall u name q es, (forall e, In e es -> seen false e) -> seen u (Tabs name q es).

Lemma seen_tab : forall u name p fs, seen u (Tab name p fs) -> exists tys, s name = Some tys /\
    (forall i f, zget fs i = Some f -> p < pos <= val_pos f ->
       u = false /\ ((own = (name, p) /\ mine name p fs) \/
         (own <> (name, p) /\ forall j g, 0 <= j < i -> zget fs j = Some g -> gap g = false))) /\
    (forall i tn q es, zget fs i = Some (Tabs tn q es) ->
       (exists e, In e es /\ q < pos <= val_pos e) -> own <> (("[]" ++ tn)%string, p)) /\
    (forall i f t, zget fs i = Some f -> zget tys i = Some t -> seen (is_union t) f).
Proof. intros u name p fs H. inversion H; subst. eauto. Qed.

Lemma seen_tabs : forall u name q es, seen u (Tabs name q es) -> forall e, In e es -> seen false e.
Proof. intros u name p fs H. inversion H; subst. assumption. Qed.
End Seen.

Lemma found_seen : forall s own pos v, forall u, found s own pos u v -> seen s own pos (fun _ _ _ => False) u v.
Proof.
  intros s own pos v. induction v as [t|p w|p ms|p k w|p k ms|name p fs go|name p es go] using val_deep; intros u H;
    try (constructor; fail); inversion H; subst.
  - econstructor; eauto.
    + intros i f Hf Hc. match goal with X : forall i f, _ -> _ < pos <= _ -> _ |- _ => destruct (X i f Hf Hc) as (A & B & C) end. auto.
    + intros i f t Hf Ht. apply go; [eapply zget_in; exact Hf|]. eauto.
  - constructor. auto.
Qed.

Lemma place_node : forall n q z typ, place (new_node n (Some (q, z)) no_vinfo typ) = q.
Proof. intros. unfold place. rewrite new_node_info, new_node_node. reflexivity. Qed.

Lemma place_vec : forall n nd q z k typ, 0 < q -> place (new_node n nd (mkV q z k) typ) = q.
Proof. intros. unfold place. rewrite new_node_info. cbn [v_pos]. replace (0 <? q) with true by lia. reflexivity. Qed.

Section Facts.
Variable n : names.
Variable b : base.
Variable s : schema.
Local Notation m := (img_bytes (sl_data (b_bytes b))).
Hypothesis HD : describes n s.
Variable own : string * Z.
Variable pos : Z.
Variable mine : string -> Z -> list val -> Prop.
Variables PS LS : list (Z * Z).

Definition passed (w : bond) : Prop :=
  ~ (w_owner w <= pos <= w_place w) /\ forall a t, w_link w = Some (a, t) -> ~ (a < pos <= t).

Definition table_step (w : bond) : Prop := exists name p z tys soff es tl e a t,
  w_tree w = tnode_at n name p z /\ s name = Some tys /\ table_at m p soff es tl /\ 0 <= soff /\
  zget es (w_rank w) = Some e /\ a = p + e /\ 4 <= e /\ w_link w = Some (a, t) /\ holds_uint m a 4 (t - a) /\ a + 4 <= t /\
  p + 4 <= pos /\ p - soff + 4 + 2 * zlen es <= pos /\ a + 4 <= pos <= w_place w /\ t <= w_place w /\
  own <> (name, p) /\
  (let g := group_at (tnode_at n name p z) (w_rank w) in
   is_field_union g || is_field_table g || is_field_slice g || is_field_bytes g = true) /\
  In (p, 4) PS /\ In (p - soff, 4 + 2 * zlen es) PS /\ In (a, t) LS.

Definition list_step (w : bond) : Prop := exists q tn p' k a t,
  w_tree w = new_node n (Some (p', -1)) (mkV q 0 k) ("[]" ++ tn)%string /\ table_described n tn /\
  0 <= w_rank w < k /\ 4 <= q /\ a = q + 4 * w_rank w /\ w_link w = Some (a, t) /\ holds_uint m a 4 (t - a) /\
  a + 4 <= pos <= t /\ t = w_place w /\ own <> (("[]" ++ tn)%string, p') /\ In (a, t) LS.

(** A reference of the table of the node itself: the code leaves it alone. *)
Definition own_step (w : bond) : Prop := exists name p z fs i f t,
  w_tree w = tnode_at n name p z /\ own = (name, p) /\ mine name p fs /\ zget fs i = Some f /\ start f = Some t /\
  w_link w = Some (slot_of m p i, t) /\ w_owner w <= pos <= w_place w.

Definition moves (w : bond) : Prop := table_step w \/ list_step w.

Definition bfact (w : bond) : Prop :=
  place (w_tree w) = w_owner w /\ (exists d, c_node (w_tree w) = Some d) /\
  ((c_node (w_child w) = None /\ w_link w = None) \/
   (place (w_child w) = w_place w /\ (exists d, c_node (w_child w) = Some d) /\
    (passed w \/ moves w \/ own_step w))).

Definition tc_ok (u : bool) (v : val) (tc : cnode) : Prop :=
  match v with
  | Tab name p _ => place tc = p /\ (exists d, c_node tc = Some d) /\
      (u = false -> exists z, tc = tnode_at n name p z)
  | Tabs tn q es => exists p', tc = new_node n (Some (p', -1)) (mkV q 0 (zlen es)) ("[]" ++ tn)%string /\
      table_described n tn /\
      ((exists e, In e es /\ q < pos <= val_pos e) -> own <> (("[]" ++ tn)%string, p'))
  | _ => True
  end.

Definition c_ok (v : val) (c : cnode) : Prop :=
  match v with Tab name p _ => exists z, c = tnode_at n name p z | _ => True end.

Lemma bonds_facts : forall v, good m s v -> forall u tc c, between m pos v -> seen s own pos mine u v -> insertable v ->
  tc_ok u v tc -> c_ok v c -> incl (parts m v) PS -> incl (links m v) LS ->
  forall w, In w (bonds n m tc c v) -> bfact w.
Proof.
  intros v HG. induction HG as [t|p w P W O|q k w Q W K O|name p fs tys soff es tl Hs T Hso SF HGs IH|tn q es Q K SE HGs IH];
    intros u tc c HB HFo HT HTC HC HPS HLS x Hx; try (destruct Hx; fail).
  - (* tables *)
    rewrite bonds_tab in Hx. destruct (in_ranked_idx _ _ _ _ _ _ Hx) as (i & r & f & Hf & Hx' & HR). clear Hx. rename Hx' into Hx.
    replace (0 + i) with i in Hx by lia.
    destruct (fields_nth b s p None tys es fs SF) as (L1 & L2 & N).
    destruct (N i f Hf) as (t & e & pv & Ht & He & Hfi & _).
    assert (HTf : insertable f).
    { inversion HT as [| | | | | |? ? ? M|]; subst. rewrite Forall_forall in M. apply M. eapply zget_in. exact Hf. }
    pose proof (field_cases m s p pv t e f Hfi HTf) as FC.
    destruct HTC as (TC1 & TC2 & TC3). destruct HC as [z0 ->].
    destruct (seen_tab _ _ _ _ _ _ _ _ HFo) as (tys' & Hs' & FO1 & FO2 & FO3). rewrite Hs in Hs'. injection Hs' as <-.
    destruct (table_node n s HD name tys (Some (p, z0)) no_vinfo Hs) as (_ & _ & _ & S4).
    destruct (S4 i t Ht) as (typ & g & G1 & G2 & G3 & _). fold (tnode_at n name p z0) in G1, G2.
    pose proof (table_vtable m p soff es tl T Hso) as EV. pose proof (table_slot m p soff es tl i e T Hso He) as ES.
    pose proof (soff_pos m p soff es tl T Hso) as SP. pose proof (pos_entry b p soff es tl T) as P0.
    pose proof (between_field m pos _ _ _ _ _ HB Hf) as HBf. destruct HB as (B1 & B2 & B3).
    assert (T1 : p < pos <-> p - soff < pos) by (rewrite <- EV; apply B3; rewrite ties_tab; left; reflexivity).
    assert (T2 : is_absent f = false -> (p < pos <-> p + e < pos)).
    { intros NA. rewrite <- ES. apply B3. rewrite ties_tab. right. eapply in_concat_numbered; [exact Hf|]. rewrite NA. left. reflexivity. }
    assert (V1 : one_side pos p 4) by (apply B1; cbn [parts]; left; reflexivity).
    assert (V2 : one_side pos (p - soff) (4 + 2 * zlen es)) by (rewrite <- EV, L2; apply B1; cbn [parts]; right; left; reflexivity).
    assert (PSf : incl (parts m f) PS).
    { intros y Hy. apply HPS. cbn [parts]. right. right. apply in_flat_map. exists f. split; [eapply zget_in; exact Hf|exact Hy]. }
    assert (LSf : incl (links m f) LS).
    { intros y Hy. apply HLS. rewrite links_tab. eapply in_concat_numbered; [exact Hf|]. apply in_or_app. right. exact Hy. }
    pose proof (zlen_nonneg es) as ZE.
    assert (ONE : forall cn z' t0, is_absent f = false -> 4 <= e -> start f = Some t0 -> points_to m (p + e) t0 -> t0 <= val_pos f ->
       (is_field_union g || is_field_table g || is_field_slice g || is_field_bytes g = true) ->
       place cn = val_pos f -> (exists d, c_node cn = Some d) ->
       bfact (mkB tc (tnode_at n name p z0) i cn p (val_pos f) z' r (Some (slot_of m p i, t0)))).
    { intros cn z' t0 NA He4 ST (PT1 & PT2) LE GR PC NC. split; [exact TC1|]. split; [exact TC2|]. right. split; [exact PC|]. split; [exact NC|].
      assert (LK : In (slot_of m p i, t0) (links m (Tab name p fs))).
      { rewrite links_tab. eapply in_concat_numbered; [exact Hf|]. rewrite ST. left. reflexivity. }
      pose proof (B2 _ _ LK) as V3. rewrite ES in V3. unfold one_side in V1, V2, V3. specialize (T2 NA).
      destruct (Z_lt_dec p pos) as [C1|C1]; [destruct (Z_le_dec pos (val_pos f)) as [C2|C2]|].
      - right. destruct (FO1 i f Hf (conj C1 C2)) as (-> & [(OWN & MI)|(OWN & PRES)]); destruct (TC3 eq_refl) as [z ->].
        { right. exists name, p, z, fs, i, f, t0. cbn [w_tree w_link w_owner w_place].
          repeat (split; [first [assumption|reflexivity|lia]|]). lia. }
        left. left.
        assert (r = i) by (rewrite HR by exact PRES; lia). subst r.
        exists name, p, z, tys, soff, es, tl, e, (p + e), t0. cbn [w_tree w_rank w_link w_place].
        rewrite ES. repeat (split; [first [assumption|reflexivity|lia]|]).
        split; [cbn zeta; assert (GA : group_at (tnode_at n name p z) i = g) by (rewrite <- G1; unfold group_at, tnode_at, new_node, fetch_index; cbn [c_name c_groups]; destruct (lookup (n_idxname n) name); reflexivity); rewrite GA; exact GR|].
        split; [apply HPS; cbn [parts]; left; reflexivity|].
        split; [apply HPS; cbn [parts]; right; left; rewrite EV, L2; reflexivity|].
        apply HLS. rewrite <- ES. exact LK.
      - left. split; cbn [w_owner w_place w_link]; [lia|]. intros a t' E. injection E as <- <-. lia.
      - left. split; cbn [w_owner w_place w_link]; [lia|]. intros a t' E. injection E as <- <-. lia. }
    unfold field_bonds in Hx. rewrite G2 in Hx.
    destruct f as [ta|q w|q ms|q k w|q k ms|tn q gs|tn q gs]; try (destruct Hx; fail); cbn [is_absent val_pos start] in *.
    + destruct ta; try (destruct Hx; fail). destruct Hx as [<-|[]]. unfold bfact. cbn [w_tree w_owner w_child w_link field_node].
      split; [exact TC1|]. split; [exact TC2|]. left. rewrite new_node_node. split; reflexivity.
    + destruct FC as (FC1 & ->). destruct Hx as [<-|[]]. unfold bfact. cbn [w_tree w_owner w_child w_place field_node].
      split; [exact TC1|]. split; [exact TC2|]. right. split; [apply place_node|]. split; [rewrite new_node_node; eauto|].
      left. split; cbn [w_owner w_place w_link]; [lia|discriminate].
    + destruct FC as (FC1 & FC2 & FC3). pose proof FC2 as [FQ _].
      assert (PC : place (field_node n typ p (Scalars q k w)) = q).
      { cbn [field_node]. destruct (w =? 1); apply place_vec; lia. }
      assert (NC : exists d, c_node (field_node n typ p (Scalars q k w)) = Some d).
      { cbn [field_node]. destruct (w =? 1); rewrite new_node_node; eauto. }
      destruct Hx as [<-|Hx].
      * apply ONE; auto; [lia|]. rewrite FC3 in G3. destruct G3 as [G3 _]. destruct (says_tests _ _ G3) as (_ & _ & _ & -> & _).
        cbn. rewrite !orb_true_r. reflexivity.
      * destruct (w =? 1) eqn:W1; [destruct Hx|]. unfold elem_bonds in Hx. apply in_map_iff in Hx. destruct Hx as ([j y] & <- & Hy).
        apply in_number in Hy. replace (j - 0) with j in Hy by lia. pose proof (zget_some_range _ _ _ Hy) as R. rewrite zlen_positions in R.
        rewrite zget_positions in Hy by lia. injection Hy as <-.
        unfold bfact. cbn [w_tree w_owner w_child w_place fst snd].
        split; [exact PC|]. split; [exact NC|]. right. split; [apply place_node|]. split; [rewrite new_node_node; eauto|].
        left. split; cbn [w_owner w_place w_link]; [|discriminate].
        specialize (HGs _ (zget_in _ _ _ _ Hf)). inversion HGs as [| |? ? ? Q W K O| |]; subst.
        destruct HBf as (B4 & _ & _). specialize (B4 _ _ (or_introl eq_refl)). unfold one_side in B4. nia.
    + destruct FC as (FC1 & FC2 & FC3 & FC4). pose proof FC2 as [FQ _].
      destruct Hx as [<-|Hx].
      * apply ONE; auto; [lia| |apply place_node|cbn [field_node]; rewrite new_node_node; eauto].
        destruct FC4 as [FC4| ->].
        -- destruct t; try discriminate. cbn [field_described] in G3. destruct G3 as [G3 _]. destruct (says_tests _ _ G3) as (_ & _ & -> & _).
           cbn. reflexivity.
        -- cbn [field_described] in G3. destruct G3 as [G3 _]. destruct (says_tests _ _ G3) as (_ & -> & _).
           cbn. rewrite !orb_true_r. reflexivity.
      * eapply (IH _ (zget_in _ _ _ _ Hf) (is_union t)); try exact Hx; auto.
        -- eapply FO3; eauto.
        -- cbn [tc_ok field_node]. split; [apply place_node|]. split; [rewrite new_node_node; eauto|].
           intros U. specialize (FC3 U). subst t. cbn [field_described] in G3. destruct G3 as [_ ->]. exists (-1). reflexivity.
        -- exists (-1). reflexivity.
    + destruct FC as (FC1 & FC2 & ->). pose proof FC2 as [FQ _]. cbn [field_described] in G3. destruct G3 as (G3 & -> & G4).
      destruct Hx as [<-|Hx].
      * apply ONE; auto; [lia| |apply place_vec; lia|cbn [field_node]; rewrite new_node_node; eauto].
        destruct (says_tests _ _ G3) as (_ & _ & _ & -> & _). cbn. rewrite !orb_true_r. reflexivity.
      * eapply (IH _ (zget_in _ _ _ _ Hf) false); try exact Hx; auto.
        -- change false with (is_union (TyTables tn)). eapply FO3; eauto.
        -- cbn [tc_ok field_node]. exists p. split; [reflexivity|]. split; [exact G4|]. intros (e0 & E1 & E2). eapply FO2; eauto.
        -- exact I.
  - (* vectors of tables *)
    rewrite bonds_tabs in Hx. apply concat_numbered_in in Hx. destruct Hx as (i & e & He & Hx).
    destruct HTC as (p' & -> & TD & OWN). pose proof (between_elem m pos _ _ _ _ _ HB He) as HBe. destruct HB as (B1 & B2 & B3).
    destruct (elems_nth b s q tn es SE i e He) as (t & PT & ST). destruct (stored_pos b s _ _ _ ST) as (_ & ET & tys & fs & EE & _).
    destruct PT as (PT1 & PT2). pose proof (zget_some_range _ _ _ He) as R.
    assert (LK : In (q + 4 * i, val_pos e) (links m (Tabs tn q es))).
    { rewrite links_tabs. eapply in_concat_numbered; [exact He|]. left. reflexivity. }
    destruct Hx as [<-|Hx].
    + unfold bfact. cbn [w_tree w_owner w_child w_place]. split; [apply place_vec; lia|]. split; [rewrite new_node_node; eauto|].
      right. split; [apply place_node|]. split; [unfold tnode_at; rewrite new_node_node; eauto|].
      assert (T1 : q - 4 < pos <-> q + 4 * i < pos).
      { apply B3. rewrite ties_tabs. eapply in_concat_numbered; [exact He|]. left. reflexivity. }
      pose proof (B2 _ _ LK) as V1. pose proof (B1 _ _ (or_introl eq_refl)) as V2. unfold one_side in V1, V2.
      destruct (Z_lt_dec q pos) as [C1|C1]; [destruct (Z_le_dec pos (val_pos e)) as [C2|C2]|].
      * right. left. right. exists q, tn, p', (zlen es), (q + 4 * i), (val_pos e). cbn [w_tree w_rank w_link w_place].
        rewrite <- ET in PT2.
        repeat (split; [first [assumption|reflexivity|lia]|]).
        split; [apply OWN; exists e; split; [eapply zget_in; exact He|lia]|]. apply HLS. exact LK.
      * left. split; cbn [w_owner w_place w_link]; [lia|]. intros a t' E. assert (a = q + 4 * i) by congruence. assert (t' = val_pos e) by congruence. lia.
      * left. split; cbn [w_owner w_place w_link]; [lia|]. intros a t' E. assert (a = q + 4 * i) by congruence. assert (t' = val_pos e) by congruence. lia.
    + pose proof (seen_tabs _ _ _ _ _ _ _ _ HFo) as FO.
      assert (M : Forall insertable es) by (inversion HT; assumption). rewrite Forall_forall in M. clear ET.
      subst e. cbn [val_pos] in Hx.
      eapply (IH _ (zget_in _ _ _ _ He) false); try exact Hx; auto.
      * apply FO. eapply zget_in; exact He.
      * apply M. eapply zget_in; exact He.
      * cbn [tc_ok]. split; [apply place_node|]. split; [unfold tnode_at; rewrite new_node_node; eauto|]. intros _. exists (-1). reflexivity.
      * exists (-1). reflexivity.
      * intros y Hy. apply HPS. cbn [parts]. right. apply in_flat_map. eexists. split; [eapply zget_in; exact He|exact Hy].
      * intros y Hy. apply HLS. rewrite links_tabs. eapply in_concat_numbered; [exact He|]. right. exact Hy.
Qed.
End Facts.
