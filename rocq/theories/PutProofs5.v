(** Numbers and structs put into a stored table that lacks them. *)
From Coq Require Import ZArith List Bool Lia String.
From Coq Require Import Strings.Byte.
From Verif Require Import GoLib BaseModel GoLemmas BaseSpec BaseProofs TableModel TableSpec TableProofs TableProofs2.
From Verif Require Import NameModel NameSpec WalkModel WalkSpec WalkProofs WalkProofs2 WalkProofs3 WalkProofs4 WalkProofs5 EqualSpec ListProofs2.
From Verif Require Import BuildModel InsModel InsSpec InsProofs InsProofs2 InsProofs4 InsProofs5 InsProofs6 InsProofs7 InsProofs8 InsProofs9
  InsProofs10 InsProofs11 InsProofs12.
From Verif Require Import PutModel PutSpec PutProofs PutProofs2 PutProofs3 PutProofs4.
From Verif Require BuildSpec.
Import ListNotations.
Open Scope list_scope.
Open Scope Z_scope.

(** ** The layout of a table in a value *)

Lemma fop_app : forall A (R : A -> A -> Prop) l1 l2, ForallOrdPairs R (l1 ++ l2) ->
  ForallOrdPairs R l1 /\ ForallOrdPairs R l2 /\ forall x y, In x l1 -> In y l2 -> R x y.
Proof.
  intros A R. induction l1 as [|z l1 IH]; intros l2 H; [split; [constructor|]; split; [exact H|intros x y []]|].
  cbn in H. inversion H as [|? ? F O]; subst. destruct (IH l2 O) as (I1 & I2 & I3). apply Forall_app in F. destruct F as [F1 F2].
  split; [constructor; auto|]. split; [exact I2|]. intros x y [<-|Hx] Hy; [|auto]. rewrite Forall_forall in F2. auto.
Qed.

Lemma fop_numbered : forall A B (R : B -> B -> Prop) (g : Z -> A -> list B) l k,
  ForallOrdPairs R (List.concat (map (fun iv => g (fst iv) (snd iv)) (number k l))) ->
  (forall i x, zget l i = Some x -> ForallOrdPairs R (g (k + i) x)) /\
  (forall i j x y a c, i < j -> zget l i = Some x -> zget l j = Some y -> In a (g (k + i) x) -> In c (g (k + j) y) -> R a c).
Proof.
  intros A B R g. induction l as [|z l IH]; intros k H.
  - split; intros i; intros; match goal with X : zget [] _ = Some _ |- _ => pose proof (zget_some_range _ _ _ X) as Q; cbn in Q; lia end.
  - cbn [number map List.concat fst snd] in H. apply fop_app in H. destruct H as (H1 & H2 & H3). destruct (IH (k + 1) H2) as [I1 I2]. split.
    + intros i x Hi. rewrite zget_cons in Hi. destruct (Z.eqb_spec i 0) as [->|NE].
      * injection Hi as <-. rewrite Z.add_0_r. exact H1.
      * replace (k + i) with (k + 1 + (i - 1)) by lia. apply I1. exact Hi.
    + intros i j x y a c Lt Hi Hj Ha Hc. pose proof (zget_some_range _ _ _ Hi) as RI. rewrite zget_cons in Hi, Hj. replace (j =? 0) with false in Hj by lia.
      destruct (Z.eqb_spec i 0) as [->|NE].
      * injection Hi as <-. rewrite Z.add_0_r in Ha. apply H3; [exact Ha|]. apply in_concat. exists (g (k + j) y). split; [|exact Hc].
        apply in_map_iff. exists (k + j, y). split; [reflexivity|]. apply in_number. replace (k + j - (k + 1)) with (j - 1) by lia. exact Hj.
      * apply (I2 (i - 1) (j - 1) x y); auto; [lia| |].
        -- replace (k + 1 + (i - 1)) with (k + i) by lia. exact Ha.
        -- replace (k + 1 + (j - 1)) with (k + j) by lia. exact Hc.
Qed.

Lemma fop_numbered0 : forall A B (R : B -> B -> Prop) (g : Z -> A -> list B) l, ForallOrdPairs R (List.concat (numbered g l)) ->
  (forall i x, zget l i = Some x -> ForallOrdPairs R (g i x)) /\
  (forall i j x y a c, i < j -> zget l i = Some x -> zget l j = Some y -> In a (g i x) -> In c (g j y) -> R a c).
Proof. intros A B R g l H. exact (fop_numbered A B R g l 0 H). Qed.

Section Inside.
Variable m : image.
Variable R : Z * Z -> Z * Z -> Prop.

Lemma tables_inside : forall v w, In w (tables v) -> incl (parts m w) (parts m v) /\ incl (links m w) (links m v) /\ incl (ties m w) (ties m v) /\
  (ForallOrdPairs R (links m v) -> ForallOrdPairs R (links m w)).
Proof.
  intros v w. induction v as [ty|q k|q ms|q k l|q k ms|nm p fs go|nm p vs go] using val_deep; intros H; try (destruct H; fail).
  - cbn [tables] in H. destruct H as [<-|H]; [repeat split; try apply incl_refl; auto|].
    apply in_flat_map in H. destruct H as (f & F1 & F2). destruct (go f F1 F2) as (G1 & G2 & G3 & G4). pose proof F1 as FI. apply zget_of_in in FI. destruct FI as (i & FI).
    split; [|split; [|split]].
    + intros a Ha. cbn [parts]. right. right. apply in_flat_map. exists f. split; [exact F1|]. apply G1, Ha.
    + intros a Ha. rewrite links_tab. eapply in_concat_numbered; [exact FI|]. apply in_or_app. right. apply G2, Ha.
    + intros a Ha. rewrite ties_tab. right. eapply in_concat_numbered; [exact FI|]. destruct (is_absent f); [|right]; apply G3, Ha.
    + intros O. apply G4. rewrite links_tab in O. apply fop_numbered0 in O. destruct O as [O _]. specialize (O i f FI). apply fop_app in O. apply O.
  - cbn [tables] in H. apply in_flat_map in H. destruct H as (f & F1 & F2). destruct (go f F1 F2) as (G1 & G2 & G3 & G4). pose proof F1 as FI. apply zget_of_in in FI. destruct FI as (i & FI).
    split; [|split; [|split]].
    + intros a Ha. cbn [parts]. right. apply in_flat_map. exists f. split; [exact F1|]. apply G1, Ha.
    + intros a Ha. rewrite links_tabs. eapply in_concat_numbered; [exact FI|]. right. apply G2, Ha.
    + intros a Ha. rewrite ties_tabs. eapply in_concat_numbered; [exact FI|]. right. apply G3, Ha.
    + intros O. apply G4. rewrite links_tabs in O. apply fop_numbered0 in O. destruct O as [O _]. specialize (O i f FI). inversion O; subst. assumption.
Qed.

Lemma links_field : forall nm tp fs i f t, zget fs i = Some f -> start f = Some t -> In (slot_of m tp i, t) (links m (Tab nm tp fs)).
Proof. intros nm tp fs i f t H1 H2. rewrite links_tab. eapply in_concat_numbered; [exact H1|]. rewrite H2. left. reflexivity. Qed.

Lemma ties_field : forall nm tp fs i f, zget fs i = Some f -> is_absent f = false -> In (tp, slot_of m tp i) (ties m (Tab nm tp fs)).
Proof. intros nm tp fs i f H1 H2. rewrite ties_tab. right. eapply in_concat_numbered; [exact H1|]. rewrite H2. left. reflexivity. Qed.

Lemma links_fields : forall nm tp fs i j f g t u, (forall x y, R x y -> R y x) -> ForallOrdPairs R (links m (Tab nm tp fs)) -> i <> j ->
  zget fs i = Some f -> start f = Some t -> zget fs j = Some g -> start g = Some u -> R (slot_of m tp i, t) (slot_of m tp j, u).
Proof.
  intros nm tp fs i j f g t u SY O NE F1 F2 G1 G2. rewrite links_tab in O. apply fop_numbered0 in O. destruct O as [_ O].
  destruct (Z_lt_dec i j) as [Lt|Ge].
  - apply (O i j f g); auto; rewrite ?F2, ?G2; left; reflexivity.
  - apply SY. apply (O j i g f); auto; [lia| |]; rewrite ?F2, ?G2; left; reflexivity.
Qed.
End Inside.

(** ** What the loop sees of each field *)

Lemma node_kind : forall n s, describes n s -> forall tn tys tp z i t, s tn = Some tys -> zget tys i = Some t ->
  let c := new_node n (Some (tp, z)) no_vinfo tn in
  match t with
  | TyScalar _ | TyStruct _ _ => kind_at c i <> KRef
  | _ => kind_at c i = KRef /\
      (let g := group_at c i in is_field_union g || is_field_table g || is_field_slice g || is_field_bytes g = true)
  end.
Proof.
  intros n s HD tn tys tp z i t Hs Ht c.
  destruct (table_node n s HD tn tys (Some (tp, z)) no_vinfo Hs) as (_ & _ & _ & F).
  destruct (F i t Ht) as (typ & g & G1 & G2 & G3 & G4). fold c in G1. unfold kind_at. cbn zeta. rewrite G1.
  destruct t as [t|sn ms|tn'|us|t|sn ms|tn']; cbn [field_described] in G3.
  - destruct G3 as [G3 _]. destruct (says_tests _ _ G3) as (T1 & T2 & T3 & T4 & T5 & T6). rewrite T4, T6, T1.
    destruct (width_cases t) as [W|[W|[W|W]]]; rewrite W; cbn; discriminate.
  - destruct G3 as (G3 & _). destruct (says_tests _ _ G3) as (T1 & T2 & T3 & T4 & T5 & T6). rewrite T4, T6, T1. cbn. discriminate.
  - destruct G3 as (G3 & _). destruct (says_tests _ _ G3) as (T1 & T2 & T3 & T4 & T5 & T6). rewrite T1, T2, T3, T4, T6. split; reflexivity.
  - destruct G3 as (G3 & _). destruct (says_tests _ _ G3) as (T1 & T2 & T3 & T4 & T5 & T6). rewrite T1, T2, T3, T4, T6. split; reflexivity.
  - destruct G3 as (G3 & _). destruct (says_tests _ _ G3) as (T1 & T2 & T3 & T4 & T5 & T6). rewrite T4. cbn. split; [reflexivity|]. rewrite !orb_true_r. reflexivity.
  - destruct G3 as (G3 & _). destruct (says_tests _ _ G3) as (T1 & T2 & T3 & T4 & T5 & T6). rewrite T4. cbn. split; [reflexivity|]. rewrite !orb_true_r. reflexivity.
  - destruct G3 as (G3 & _). destruct (says_tests _ _ G3) as (T1 & T2 & T3 & T4 & T5 & T6). rewrite T4. cbn. split; [reflexivity|]. rewrite !orb_true_r. reflexivity.
Qed.

(** ** The whole *)

Lemma besides_table : forall m tp v nm q fs, In (Tab nm q fs) (tables v) -> In (q, 4) (besides m tp v).
Proof.
  intros m tp v nm q fs. induction v as [ty|q0 k|q0 ms|q0 k l|q0 k ms|nm0 p gs go|nm0 p vs go] using val_deep; intros H; try (destruct H; fail).
  - cbn [tables] in H. destruct H as [E|H]; [injection E as -> -> ->; left; reflexivity|].
    apply in_flat_map in H. destruct H as (f & F1 & F2). cbn [besides]. right. apply in_or_app. right. apply in_flat_map. eauto.
  - cbn [tables] in H. apply in_flat_map in H. destruct H as (f & F1 & F2). cbn [besides]. right. apply in_flat_map. eauto.
Qed.

Lemma insertable_table : forall v w, insertable v -> In w (tables v) -> insertable w.
Proof.
  intros v w. induction v as [ty|q0 k|q0 ms|q0 k l|q0 k ms|nm0 p gs go|nm0 p vs go] using val_deep; intros HT H; try (destruct H; fail).
  - cbn [tables] in H. destruct H as [<-|H]; [exact HT|]. apply in_flat_map in H. destruct H as (f & F1 & F2).
    inversion HT as [| | | | | |? ? ? M|]; subst. rewrite Forall_forall in M. eauto.
  - cbn [tables] in H. apply in_flat_map in H. destruct H as (f & F1 & F2).
    inversion HT as [| | | | | | |? ? ? M]; subst. rewrite Forall_forall in M. eauto.
Qed.

Lemma vcell_in : forall tp so es y k, vcell tp so es y k ->
  (y = tp /\ k = 4) \/ (k = 2 /\ tp - so <= y /\ y + 2 <= tp - so + 4 + 2 * zlen es).
Proof.
  intros tp so es y k Hv. pose proof (zlen_nonneg es). destruct Hv as [Hv|[Hv|[Hv|(i & Hi & -> & ->)]]]; lia.
Qed.

Lemma zlen_indexes : forall k, 0 <= k -> zlen (indexes k) = k.
Proof. intros k K. unfold indexes, zlen. rewrite map_length, seq_length. lia. Qed.

Section Absent.
Variable n : names.
Variable b : base.
Variable s : schema.
Hypothesis HF : flat b.
Hypothesis HD : describes n s.
Local Notation m := (img_bytes (sl_data (b_bytes b))).
Local Notation L := (zlen (sl_data (b_bytes b))).

Lemma put_absent : forall name p v tn tp z fs tys idx t fb f x,
  let pos := table_end m tp in
  n_root n = name -> stored_table m s name p v -> holds_uint m 0 4 p -> insertable v ->
  p < 65536 -> vtable_of m p <> 0 -> only_table v (Tab tn tp fs) ->
  s tn = Some tys -> zget tys idx = Some t -> types_no_union tys idx -> zget fs idx = Some (Absent t) ->
  BuildSpec.gives n s tn idx t fb f (BuildSpec.Bytes x) -> x <> [] ->
  p < pos -> tp < pos -> 8 <= tp -> 4 <= vtable_of m tp -> pos - tp + zlen x < 65536 -> L + zlen x < 4294967296 ->
  between m pos v -> apart_links m v -> NoDup (starts v) -> sole_vtable m tp (zlen fs) v -> met s (tn, tp) pos false v ->
  let c := new_node n (Some (tp, z)) no_vinfo tn in
  exists k, forall fuel, (k <= fuel)%nat -> exists b' m',
    put_field n fuel b c idx fb f = Ok (Put_ok b' c) /\ shows b' m' /\ holds_uint m' 0 4 p /\
    stored_table m' s name p (fill tp idx (inline_at t pos) (moved pos (zlen x) v)) /\
    same_value m m' v (moved pos (zlen x) v) /\ bytes_at m' pos x.
Proof.
  intros name p v tn tp z fs tys idx t fb f x pos HN H H0 HT P16 VT OT HS Ht HNU Hw Hg Hx PP TPP C8 V4 T16 SZ HB HA ND SV ME c.
  pose proof (zget_some_range _ _ _ Ht) as RI. destruct OT as [OT1 OT2].
  destruct (inline_given n s HD tn tys tp z idx t fb f x HS Ht Hg) as (fp & fz & CN & DV & G1 & G2 & G3 & G4 & G5 & G6). fold c in G1, G2, G3, G4, G5.
  destruct (proj1 (tables_stored m s v) name p H _ OT1) as (nm & q & gs & E & HTb). injection E as <- <- <-.
  assert (INV : exists so es l, table_at m tp so es l /\ 0 <= so /\ stored_fields m s tp None tys es fs).
  { inversion HTb as [? ? so es l tys' ? Hs' T Hso SF]; subst. rewrite HS in Hs'. injection Hs' as <-. exists so, es, l. auto. }
  destruct INV as (so & es & tl & T & Hso & SF).
  destruct (fields_nth b s tp None tys es fs SF) as (L1 & L2 & N). destruct (N idx (Absent t) Hw) as (t' & e & pv & N1 & N2 & N3 & _).
  assert (t' = t) by congruence. subst t'.
  assert (E0 : e = 0) by (destruct t; try contradiction; inversion N3; reflexivity). subst e.
  assert (UQ : forall gs, In (Tab tn tp gs) (tables v) -> gs = fs).
  { intros gs HG. specialize (OT2 _ HG eq_refl). congruence. }
  assert (UN : forall nm gs, In (Tab nm tp gs) (tables v) -> nm = tn /\ gs = fs).
  { intros nm gs HG. specialize (OT2 _ HG eq_refl). split; congruence. }
  assert (ZX : 1 <= zlen x) by (destruct x as [|y x]; [contradiction|]; rewrite zlen_cons; pose proof (zlen_nonneg x); lia).
  set (size := zlen x) in *.
  assert (HG : good m s v) by (eapply (proj1 (stored_good b s)); eauto).
  pose proof (layout_facts b s v HG HT) as [LF1 LF2].
  pose proof (table_vtable m tp so es tl T Hso) as EV. pose proof (ta_vpos _ _ _ _ _ T) as TV. pose proof (zlen_nonneg es) as ZE.
  assert (EP : pos = tp + tl).
  { unfold pos, table_end. rewrite EV. rewrite (num_holds m 2 (tp - so + 2) tl (ta_tlen _ _ _ _ _ T)). reflexivity. }
  clearbody pos.
  destruct (tables_inside m (fun x y => disjoint (fst x) 4 (fst y) 4) v _ OT1) as (IN1 & IN2 & IN3 & IN4). specialize (IN4 (proj1 HA)).
  assert (P1 : In (tp, 4) (parts m v)) by (apply IN1; cbn [parts]; left; reflexivity).
  assert (P2 : In (tp - so, 4 + 2 * zlen es) (parts m v)) by (apply IN1; cbn [parts]; right; left; rewrite EV, L2; reflexivity).
  destruct HB as (B1 & B2 & B3). destruct HA as (A1 & A2).
  pose proof (B1 _ _ P1) as O1. pose proof (B1 _ _ P2) as O2.
  assert (TI : tp < pos <-> tp - so < pos) by (rewrite <- EV; apply B3, IN3; rewrite ties_tab; left; reflexivity).
  unfold one_side in O1, O2. rewrite EV in *.
  assert (SVt : disjoint tp 4 (tp - so) (4 + 2 * zlen es)).
  { rewrite L2, <- EV. apply SV. eapply besides_table. exact OT1. }
  assert (SVs : forall a l, In (a, l) (besides m tp v) -> disjoint a l (tp - so) (4 + 2 * zlen es)).
  { intros a l Hal. rewrite L2, <- EV. apply SV. exact Hal. }
  assert (LD : forall a u, In (a, u) (links m v) -> disjoint a 4 tp 4 /\ disjoint a 4 (tp - so) (4 + 2 * zlen es)).
  { intros a u Hau. split; eapply A2; eauto. }
  (* the references of the table *)
  set (lk := fun i => match zget fs i with Some f => match start f with Some u => Some (slot_of m tp i, u) | None => None end | None => None end).
  assert (OWN : forall i a u, lk i = Some (a, u) -> exists f e, zget fs i = Some f /\ start f = Some u /\ zget es i = Some e /\ a = tp + e /\ a = slot_of m tp i /\
    4 <= e /\ a + 4 <= u /\ holds_uint m a 4 (u - a) /\ a + 4 <= pos /\ In (a, u) (links m v) /\ u < L /\ i <> idx /\ kind_at c i = KRef /\
    (let g := group_at c i in is_field_union g || is_field_table g || is_field_slice g || is_field_bytes g = true)).
  { intros i a u HL. unfold lk in HL. destruct (zget fs i) as [f0|] eqn:Hf; [|discriminate]. destruct (start f0) as [u0|] eqn:Hst; [|discriminate].
    assert (a = slot_of m tp i) by congruence. assert (u0 = u) by congruence. subst u0.
    destruct (N i f0 Hf) as (ti & ei & pvi & Ti & Ei & Fi & _). exists f0, ei.
    assert (HTf : insertable f0).
    { assert (X : insertable (Tab tn tp fs)) by (eapply insertable_table; eauto). inversion X as [| | | | | |? ? ? M|]; subst. rewrite Forall_forall in M. apply M. eapply zget_in. exact Hf. }
    pose proof (field_cases m s tp pvi ti ei f0 Fi HTf) as FC. pose proof (node_kind n s HD tn tys tp z i ti HS Ti) as NK. fold c in NK.
    pose proof (table_slot m tp so es tl i ei T Hso Ei) as ES.
    assert (LI : In (a, u) (links m v)) by (subst a; apply IN2; eapply links_field; eauto).
    assert (NA : is_absent f0 = false) by (destruct f0; try discriminate; reflexivity).
    assert (TA : tp < pos <-> a < pos) by (subst a; apply B3, IN3; eapply ties_field; eauto).
    pose proof (B2 _ _ LI) as OA. unfold one_side in OA. pose proof (LF2 _ _ LI) as [_ UL].
    assert (FACT : 4 <= ei /\ points_to m (tp + ei) u /\ kind_at c i = KRef /\
      (let g := group_at c i in is_field_union g || is_field_table g || is_field_slice g || is_field_bytes g = true)).
    { destruct f0; cbn [start] in Hst; try discriminate; injection Hst as <-.
      - destruct FC as (F1 & F2 & F3). rewrite F3 in NK. auto.
      - destruct FC.
      - destruct FC as (F1 & F2 & F3 & F4). split; [exact F1|]. split; [exact F2|]. destruct F4 as [F4| ->]; [|exact NK]. destruct ti; try discriminate. exact NK.
      - destruct FC as (F1 & F2 & ->). auto. }
    destruct FACT as (K1 & (K2 & K3) & K4 & K5). rewrite ES in *. subst a.
    assert (i <> idx) by (intros ->; rewrite Hw in Hf; injection Hf as <-; discriminate).
    repeat (split; [first [assumption|reflexivity|lia]|]). exact K5. }
  assert (TRI : forall i, In i (indexes (zlen tys)) -> skipped (set_nth idx tl es) c idx lk i \/ linked pos tp so (set_nth idx tl es) c idx size lk i).
  { intros i Hi. apply zget_of_in in Hi. destruct Hi as (j & Hj). pose proof (zget_some_range _ _ _ Hj) as RJ. rewrite zlen_indexes in RJ by apply zlen_nonneg.
    rewrite zget_indexes in Hj by lia. injection Hj as ->.
    destruct (lk i) as [[a u]|] eqn:HL.
    - right. destruct (OWN i a u HL) as (f0 & ei & Q1 & Q2 & Q3 & Q4 & Q5 & Q6 & Q7 & Q8 & Q9 & Q10 & Q11 & Q12 & Q13 & Q14). subst a.
      exists ei, u. split; [exact HL|]. split; [exact Q12|]. split; [exact Q13|]. split; [exact Q14|].
      split; [rewrite zget_set_nth by lia; replace (i =? idx) with false by lia; exact Q3|]. repeat (split; [lia|]).
      intros y k Hv. destruct (LD _ _ Q10) as [D1 D2]. apply vcell_in in Hv. rewrite zlen_set_nth in Hv. unfold disjoint in *. lia.
    - left. split; [exact HL|]. destruct (Z.eq_dec i idx) as [|NE]; [left; assumption|]. right.
      destruct (zget_some fs i) as (f0 & Hf); [lia|]. destruct (N i f0 Hf) as (ti & ei & pvi & Ti & Ei & Fi & _).
      unfold lk in HL. rewrite Hf in HL. pose proof (node_kind n s HD tn tys tp z i ti HS Ti) as NK. fold c in NK.
      assert (HTf : insertable f0).
      { assert (X : insertable (Tab tn tp fs)) by (eapply insertable_table; eauto). inversion X as [| | | | | |? ? ? M|]; subst. rewrite Forall_forall in M. apply M. eapply zget_in. exact Hf. }
      pose proof (field_cases m s tp pvi ti ei f0 Fi HTf) as FC.
      destruct f0; cbn [start] in HL; try discriminate; try (destruct FC; fail).
      + subst ei. right. rewrite zget_set_nth by lia. replace (i =? idx) with false by lia. exact Ei.
      + left. assert (X : exists t0, ti = TyScalar t0).
        { inversion Fi as [| | | | |? ? ? ? ? ? ? ? X| |? ? ? ? ? ? ? ? ? ? ? ? X| |]; subst; [eauto|inversion X|inversion X]. }
        destruct X as (t0 & ->). exact NK. }
  destruct (insert_own n b s HF HD name p v tn tp z fs pos size HN H H0 HT P16 VT PP ltac:(lia) SZ C8 TPP OT1 UQ (conj B1 (conj B2 B3)) (conj A1 A2) ND ME) as (k & HK).
  exists (S k). intros fuel Hfu. destruct (HK fuel ltac:(lia)) as (nb & D & I1 & ST & DI1 & DI2). fold c in I1. clear HK.
  assert (DL : forall a u, In (a, u) D -> In (a, u) (links m v) /\ a < pos <= u).
  { intros a u Ha. apply DI1 in Ha. destruct Ha as [Ha _]. apply filter_In in Ha. destruct Ha as [Ha1 Ha2]. unfold crossing in Ha2. cbn [fst snd] in Ha2. split; [exact Ha1|lia]. }
  assert (DO : forall a u i a' u', In (a, u) D -> lk i = Some (a', u') -> disjoint a 4 a' 4).
  { intros a u i a' u' Ha HL. destruct (OWN i a' u' HL) as (f0 & ei & Q1 & Q2 & Q3 & Q4 & Q5 & Q6 & Q7 & Q8 & Q9 & Q10 & Q11).
    destruct (ForallOrdPairs_In A1 (a, u) (a', u') (proj1 (DL _ _ Ha)) Q10) as [E|[E|E]].
    - exfalso. destruct (DI1 _ Ha) as [_ NO]. apply NO. exists i, f0, u'. split; [exact Q1|]. split; [exact Q2|]. rewrite E, Q5. reflexivity.
    - exact E.
    - unfold disjoint in *. cbn [fst] in E. lia. }
  set (C0 := map (fun l : Z * Z => (fst l, 4)) D).
  assert (CD : forall y l, In (y, l) C0 -> l = 4 /\ exists u, In (y, u) D).
  { intros y l Hy. apply in_map_iff in Hy. destruct Hy as ([a u] & E & Ha). cbn [fst] in E. assert (y = a) by congruence. assert (l = 4) by congruence. subst. eauto. }
  assert (CVT : forall y l, In (y, l) C0 -> disjoint y l tp 4 /\ disjoint y l (tp - so) (4 + 2 * zlen es)).
  { intros y l Hy. destruct (CD y l Hy) as (-> & u & Ha). apply (LD y u). apply (DL _ _ Ha). }
  assert (K0 : cells pos nb C0).
  { split; [apply (s_mem _ _ _ _ _ _ ST)|rewrite (s_len _ _ _ _ _ _ ST); lia|].
    eapply Forall_impl; [|exact (s_diff _ _ _ _ _ _ ST)]. cbn beta. intros d [Q|(a & u & Q1 & Q2 & Q3)]; [left; exact Q|right].
    apply in_map_iff. exists (a, u). split; [cbn [fst]; congruence|exact Q1]. }
  assert (LOW : forall i, 0 <= i < pos -> (forall a u, In (a, u) D -> disjoint a 4 i 1) -> content nb i = m i) by (exact (s_low _ _ _ _ _ _ ST)).
  assert (V0 : vtab pos tp so es tl nb C0).
  { split; [exact K0| |].
    - assert (KEEP : forall y l, (y = tp /\ l = 4) \/ (tp - so <= y /\ 0 <= l /\ y + l <= tp - so + 4 + 2 * zlen es) -> forall j, 0 <= j < l -> content nb (y + j) = m (y + j)).
      { intros y l Hy j Hj. apply LOW; [lia|]. intros a u Ha. destruct (LD a u (proj1 (DL _ _ Ha))) as [D1 D2]. unfold disjoint in *. lia. }
      destruct T as [Ta Tb Tc Td Te Tf]. constructor; auto.
      + eapply holds_uint_ext; [|exact Ta]. intros j Hj. apply (KEEP tp 4); [left; auto|lia].
      + eapply holds_uint_ext; [|exact Td]. intros j Hj. apply (KEEP (tp - so) 2); [right; lia|lia].
      + eapply holds_uint_ext; [|exact Te]. intros j Hj. apply (KEEP (tp - so + 2) 2); [right; lia|lia].
      + intros i ei Hi. pose proof (zget_some_range _ _ _ Hi). eapply holds_uint_ext; [|exact (Tf i ei Hi)]. intros j Hj. apply (KEEP (tp - so + 4 + 2 * i) 2); [right; lia|lia].
    - intros y l Hv. apply vcell_in in Hv. split; [lia|]. intros y' l' Hy. right. destruct (CVT y' l' Hy) as [D1 D2]. unfold disjoint in *. lia. }
  pose proof (proj1 (ta_tlen _ _ _ _ _ T)) as TB. change (256 ^ Z.of_nat 2) with 65536 in TB.
  (* the two writes into the vtable *)
  set (e1 := le_encode 2 tl). assert (Ze1 : zlen e1 = 2) by (unfold e1; rewrite zlen_le_encode; reflexivity).
  destruct (cells_write pos nb C0 (tp - so + 4 + idx * 2) e1 K0) as (b2 & W1 & K1 & _ & W1c); [lia|lia|lia| |].
  { intros y l Hy. right. destruct (CVT y l Hy). unfold disjoint in *. lia. }
  rewrite Ze1 in *.
  set (e2 := le_encode 2 (tl + size)). assert (Ze2 : zlen e2 = 2) by (unfold e2; rewrite zlen_le_encode; reflexivity).
  destruct (cells_write pos b2 _ (tp - so + 2) e2 K1) as (b3 & W2 & K2 & _ & W2c); [lia|lia|lia| |].
  { intros y l [Hy|Hy]; right; [|destruct (CVT y l Hy); unfold disjoint in *; lia].
    assert (y = tp - so + 4 + idx * 2) by congruence. assert (l = 2) by congruence. unfold disjoint. lia. }
  rewrite Ze2 in *. set (C2 := (tp - so + 2, 2) :: (tp - so + 4 + idx * 2, 2) :: C0) in *.
  assert (B3c : forall i, i < tp - so + 2 \/ tp - so + 4 <= i -> i < tp - so + 4 + idx * 2 \/ tp - so + 6 + idx * 2 <= i -> content b3 i = content nb i).
  { intros i H1 H2. rewrite W2c. unfold img_write. rewrite Ze2. replace ((tp - so + 2 <=? i) && (i <? tp - so + 2 + 2)) with false by lia.
    rewrite W1c. unfold img_write. rewrite Ze1. replace ((tp - so + 4 + idx * 2 <=? i) && (i <? tp - so + 4 + idx * 2 + 2)) with false by lia. reflexivity. }
  assert (B3o : forall i, i < tp - so \/ tp - so + 4 + 2 * zlen es <= i -> content b3 i = content nb i) by (intros i Hi; apply B3c; lia).
  assert (V3 : vtab pos tp so (set_nth idx tl es) (tl + size) b3 C2).
  { split; [exact K2| |].
    - pose proof (v_table _ _ _ _ _ _ _ V0) as [Ta Tb Tc Td Te Tf]. constructor; auto.
      + eapply holds_uint_ext; [|exact Ta]. intros j Hj. apply B3o. unfold disjoint in SVt. lia.
      + rewrite zlen_set_nth. eapply holds_uint_ext; [|exact Td]. intros j Hj. apply B3c; lia.
      + apply holds_uint_encode; [|change (256 ^ Z.of_nat 2) with 65536; lia]. intros j Hj. rewrite W2c. unfold img_write. rewrite Ze2.
        replace ((tp - so + 2 <=? tp - so + 2 + j) && (tp - so + 2 + j <? tp - so + 2 + 2)) with true by lia. unfold e2. f_equal. lia.
      + intros i ei Hi. rewrite zget_set_nth in Hi by lia. destruct (Z.eqb_spec i idx) as [->|NE].
        * destruct (idx <? zlen es); [|discriminate]. injection Hi as <-. apply holds_uint_encode; [|change (256 ^ Z.of_nat 2) with 65536; lia].
          intros j Hj. rewrite W2c. unfold img_write. rewrite Ze2.
          replace ((tp - so + 2 <=? tp - so + 4 + 2 * idx + j) && (tp - so + 4 + 2 * idx + j <? tp - so + 2 + 2)) with false by lia.
          rewrite W1c. unfold img_write. rewrite Ze1.
          replace ((tp - so + 4 + idx * 2 <=? tp - so + 4 + 2 * idx + j) && (tp - so + 4 + 2 * idx + j <? tp - so + 4 + idx * 2 + 2)) with true by lia. unfold e1. f_equal. lia.
        * pose proof (zget_some_range _ _ _ Hi). eapply holds_uint_ext; [|exact (Tf i ei Hi)]. intros j Hj. apply B3c; lia.
    - intros y l Hv. pose proof (vcell_in _ _ _ _ _ Hv) as Hv'. unfold vcell in Hv. rewrite zlen_set_nth in Hv, Hv'. split; [lia|]. intros y' l' [Hy|[Hy|Hy]].
      + assert (y' = tp - so + 2) by congruence. assert (l' = 2) by congruence. subst y' l'. clear Hy.
        destruct Hv as [(-> & ->)|[(-> & ->)|[(-> & ->)|(i & Hi & -> & ->)]]]; [right|right|left; reflexivity|right]; unfold disjoint in *; lia.
      + assert (y' = tp - so + 4 + idx * 2) by congruence. assert (l' = 2) by congruence. subst y' l'. clear Hy.
        destruct Hv as [(-> & ->)|[(-> & ->)|[(-> & ->)|(i & Hi & -> & ->)]]]; [right; unfold disjoint in *; lia|right; unfold disjoint in *; lia|right; unfold disjoint in *; lia|].
        destruct (Z.eq_dec i idx) as [->|NE]; [left; f_equal; lia|right; unfold disjoint; lia].
      + right. destruct (CVT y' l' Hy) as [D1 D2]. unfold disjoint in *. lia. }
  (* the fields of the table *)
  assert (TD : table_described n tn) by (destruct (HD tn tys HS) as (X & _); exact X).
  destruct (table_name n tn TD) as (LN & SN & _).
  assert (CNm : c_name c = tn) by apply new_node_name. assert (CNn : c_node c = Some (tp, z)) by apply new_node_node.
  destruct (fields_moved pos tp so (set_nth idx tl es) (tl + size) Hso n c z CNn ltac:(rewrite CNm; apply LN) ltac:(rewrite CNm; exact SN) idx size ltac:(lia) ltac:(lia) lk
    (indexes (zlen tys)) b3 C2 (indexes_nodup _) V3 TRI) as (b4 & C4 & M1 & V4' & M3 & M4).
  { intros i j a u a' u' _ _ NE Hi Hj. destruct (OWN i a u Hi) as (f0 & ei & Q1 & Q2 & Q3 & Q4 & Q5 & _).
    destruct (OWN j a' u' Hj) as (f1 & ej & Q1' & Q2' & Q3' & Q4' & Q5' & _). rewrite Q5, Q5'.
    apply (links_fields m (fun x y => disjoint (fst x) 4 (fst y) 4) tn tp fs i j f0 f1 u u'); auto. intros x0 y0 X. unfold disjoint in *. lia. }
  { intros i a u _ Hi. destruct (OWN i a u Hi) as (f0 & ei & Q1 & Q2 & Q3 & Q4 & Q5 & Q6 & Q7 & Q8 & Q9 & Q10 & Q11). destruct (LD a u Q10) as [D1 D2]. split.
    - intros y l [Hy|[Hy|Hy]].
      + assert (y = tp - so + 2) by congruence. assert (l = 2) by congruence. unfold disjoint in *. lia.
      + assert (y = tp - so + 4 + idx * 2) by congruence. assert (l = 2) by congruence. unfold disjoint in *. lia.
      + destruct (CD y l Hy) as (-> & u' & Ha). eapply DO; eauto.
    - eapply holds_uint_ext; [|exact Q8]. intros j Hj. rewrite B3o by (unfold disjoint in D2; lia). apply LOW; [lia|].
      intros a' u' Ha. pose proof (DO _ _ _ _ _ Ha Hi) as DJ. unfold disjoint in *. lia. }
  (* the bytes of the field *)
  assert (GL : gs_len (b_bytes b4) <= pos) by (apply (k_len _ _ _ (v_cells _ _ _ _ _ _ _ V4'))).
  destruct (copy_beyond b4 fb fp x pos DV ZX GL) as (sl & CP1 & CP2).
  set (b5 := set_diffs b4 (b_diffs b4 ++ [mkDiff pos sl])) in *.
  assert (CT : forall i, content b5 i = img_write (content b4) pos x i).
  { intros i. unfold content, b5. cbn [set_diffs b_diffs b_bytes]. rewrite over_app, over_one. cbn [d_off]. unfold d_data. cbn [d_sl]. rewrite CP2. reflexivity. }
  assert (K5 : cells pos b5 C4) by (apply cells_beyond; [apply (v_cells _ _ _ _ _ _ _ V4')|cbn [d_off]; lia|cbn [d_off]; lia]).
  assert (OUT : forall i, i < pos \/ pos + size <= i -> content b5 i = content b4 i).
  { intros i Hi. rewrite CT. unfold img_write. fold size. replace ((pos <=? i) && (i <? pos + size)) with false by lia. reflexivity. }
  assert (V5 : vtab pos tp so (set_nth idx tl es) (tl + size) b5 C4).
  { apply (vtab_keep pos tp so (set_nth idx tl es) (tl + size) b4 b5 C4 C4 V4' K5); [auto|].
    intros y l Hv j Hj. apply OUT. pose proof (v_safe _ _ _ _ _ _ _ V4' y l Hv). lia. }
  set (m' := content b5).
  assert (INS : bytes_at m' pos x).
  { intros i Hi. unfold m'. rewrite CT. unfold img_write. replace ((pos <=? pos + i) && (pos + i <? pos + zlen x)) with true by lia. f_equal. lia. }
  assert (NT : forall i, (forall j a u, lk j = Some (a, u) -> pos <= u -> disjoint a 4 i 1) -> content b4 i = content b3 i).
  { intros i Hi. apply M3. intros (j & a & u & _ & X1 & X2 & X3). specialize (Hi j a u X1 X2). unfold disjoint in Hi. lia. }
  assert (HIGH : forall i, pos <= i -> m' (i + size) = m i).
  { intros i Hi. unfold m'. rewrite OUT by lia. rewrite NT.
    - rewrite B3o by lia. apply (s_high _ _ _ _ _ _ ST). exact Hi.
    - intros j a u Hj Hu. destruct (OWN j a u Hj) as (f0 & ei & Q1 & Q2 & Q3 & Q4 & Q5 & Q6 & Q7 & Q8 & Q9 & _). unfold disjoint. lia. }
  assert (SAME : forall i, 0 <= i < pos -> (forall a u, In (a, u) (links m v) -> a < pos <= u -> disjoint a 4 i 1) -> i < tp - so \/ tp - so + 4 + 2 * zlen es <= i -> m' i = m i).
  { intros i Hi HLi Hv. unfold m'. rewrite OUT by lia. rewrite NT.
    - rewrite B3o by exact Hv. apply LOW; [exact Hi|]. intros a u Ha. apply DL in Ha. apply (HLi a u); apply Ha.
    - intros j a u Hj Hu. destruct (OWN j a u Hj) as (f0 & ei & Q1 & Q2 & Q3 & Q4 & Q5 & Q6 & Q7 & Q8 & Q9 & Q10 & _). apply (HLi a u); [exact Q10|lia]. }
  assert (COPY : forall y k0, In (y, k0) (besides m tp v) -> forall j, 0 <= j < k0 -> m' (shift pos size y + j) = m (y + j)).
  { intros y k0 HI j Hj. pose proof (besides_parts m tp v _ HI) as HI'. pose proof (B1 _ _ HI') as OS. pose proof (LF1 _ _ HI') as Y0. unfold one_side in OS.
    unfold shift. destruct (y <? pos) eqn:C.
    - apply SAME; [lia| |].
      + intros a u Ha _. pose proof (A2 a u y k0 Ha HI') as DJ. unfold disjoint in *. lia.
      + pose proof (SVs _ _ HI) as DJ. unfold disjoint in DJ. lia.
    - replace (y + size + j) with (y + j + size) by lia. apply HIGH. lia. }
  assert (LINK : forall a u, In (a, u) (links m v) -> a + 4 <= u -> holds_uint m a 4 (u - a) -> holds_uint m' (shift pos size a) 4 (shift pos size u - shift pos size a)).
  { intros a u HI AT HO. pose proof (B2 a u HI) as OS. unfold one_side in OS. pose proof (LF2 a u HI) as X0. destruct (LD a u HI) as [D1 D2].
    unfold shift. destruct (a <? pos) eqn:C.
    - destruct (u <? pos) eqn:C'.
      + eapply holds_uint_ext; [|exact HO]. intros j Hj. apply SAME; [lia| |unfold disjoint in D2; lia].
        intros a' u' Ha' Hc. destruct (ForallOrdPairs_In A1 (a, u) (a', u') HI Ha') as [E|[E|E]].
        * assert (u = u') by congruence. lia.
        * unfold disjoint in *. cbn [fst] in E. lia.
        * unfold disjoint in *. cbn [fst] in E. lia.
      + replace (u + size - a) with (u - a + size) by lia.
        assert (X : holds_uint (content b4) a 4 (u - a + size)).
        { destruct (DI2 (a, u)) as [Q|(i & f0 & t0 & Q1 & Q2 & Q3)].
          - apply filter_In. split; [exact HI|]. unfold crossing. cbn [fst snd]. lia.
          - eapply holds_uint_ext; [|exact (s_done _ _ _ _ _ _ ST a u Q)]. intros j Hj. rewrite NT.
            + apply B3o. unfold disjoint in D2. lia.
            + intros i a' u' Hi Hu. pose proof (DO _ _ _ _ _ Q Hi) as DJ. unfold disjoint in *. lia.
          - apply (M4 i).
            + pose proof (zget_some_range _ _ _ Q1) as R. eapply zget_in with (i := i). rewrite zget_indexes by lia. reflexivity.
            + unfold lk. rewrite Q1, Q2. rewrite Q3. reflexivity.
            + lia. }
        eapply holds_uint_ext; [|exact X]. intros j Hj. apply OUT. lia.
    - replace (u <? pos) with false by lia. replace (u + size - (a + size)) with (u - a) by lia.
      destruct HO as [HO1 HO2]. split; [exact HO1|]. intros j Hj. replace (a + size + j) with (a + j + size) by lia. rewrite HIGH by lia. apply HO2. exact Hj. }
  assert (FS : fill tp idx (Absent t) v = v).
  { apply fill_same; [lia|]. intros nm gs HGs. destruct (UN nm gs HGs) as [-> ->]. exact Hw. }
  exists b5, m'. split; [|split; [|split; [|split; [|split]]]].
  - unfold put_field. rewrite G1, G2. cbn [negb]. unfold c at 1. rewrite new_node_node. rewrite G3, G4. unfold put_inline.
    rewrite (G5 fuel ltac:(lia)). cbn [bind]. rewrite CN. rewrite (table_preload b tp so es tl HF T Hso). cbn [bind].
    destruct (conforming_access b tp so es tl HF T Hso) as (_ & C1 & CA). destruct (CA idx 0 N2) as (_ & C2' & _). rewrite C2'. cbn [bind negb Z.eqb].
    unfold put_vtable. rewrite C1. cbn [bind]. replace (u16 tl) with tl by (unfold u16; rewrite Z.mod_small; [reflexivity|change (2 ^ 16) with 65536; lia]).
    rewrite <- EP. fold size. rewrite I1. cbn [bind]. rewrite CNn. rewrite (vtab_vpos pos tp so es tl Hso nb C0 V0). cbn [bind].
    fold e1. rewrite W1. cbn [bind].
    replace (u16 (tl + u16 size)) with (tl + size) by (unfold u16; change (2 ^ 16) with 65536; rewrite (Z.mod_small size) by lia; rewrite Z.mod_small; lia).
    fold e2. rewrite W2. cbn [bind].
    destruct (table_node n s HD tn tys (Some (tp, z)) no_vinfo HS) as (_ & _ & ML & _). fold c in ML. rewrite ML, <- EP, M1. cbn [bind].
    unfold size. rewrite CP1. cbn [bind]. unfold node_pos. rewrite CNn. cbn [bind].
    rewrite (vtab_preload pos tp so (set_nth idx tl es) (tl + size) Hso b5 C4 V5). reflexivity.
  - apply shows_content. apply (k_mem _ _ _ K5).
  - assert (PV : p + 4 <= pos /\ 0 <= p).
    { assert (X : In (p, 4) (parts m v)) by (clear - H; inversion H; subst; left; reflexivity). pose proof (B1 _ _ X) as Y. pose proof (LF1 _ _ X). unfold one_side in Y. lia. }
    eapply holds_uint_ext; [|exact H0]. intros j Hj. apply SAME; [lia| |lia]. intros a u Ha _. pose proof (LF2 a u Ha). unfold disjoint. lia.
  - assert (PS : shift pos size p = p) by (unfold shift; replace (p <? pos) with true by lia; reflexivity).
    rewrite <- PS at 1. apply (stored_put m m' s pos size ltac:(lia) (besides m tp v) (links m v) COPY LINK tp idx TPP ltac:(lia) (inline_at t pos) t tn tys t so es tl (tl + size) tl
      HS Ht HNU Hso T (v_table _ _ _ _ _ _ _ V5)).
    + intros pv'. assert (OC : occupied m' (tp + tl) size).
      { intros j Hj. rewrite <- EP. rewrite (INS j Hj). destruct (zget_some x j Hj) as (y & Y). eauto. }
      rewrite EP. destruct t; try contradiction; cbn [inline_at]; rewrite G6 in OC; [apply Sv_scalar|apply Sv_struct]; solve [lia|exact OC].
    + rewrite FS. split; [apply incl_refl|]. split; [apply incl_refl|]. exact B3.
    + intros nm gs HGs. apply (UN nm gs HGs).
    + exact H.
  - apply (alike_put m m' pos size (besides m tp v) (links m v) COPY LINK tp idx). apply incl_refl.
  - exact INS.
Qed.
End Absent.
