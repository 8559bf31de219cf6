(** Setting numbers and structs that are there, in buffers with journal entries,
    once and several times. *)
From Coq Require Import ZArith List Bool Lia String.
From Coq Require Import Strings.Byte.
From Verif Require Import GoLib BaseModel GoLemmas BaseSpec BaseProofs BaseProofs2 BaseProofs3 TableModel TableSpec TableProofs.
From Verif Require Import TableProofs2 NameModel NameSpec StreamModel WalkModel WalkSpec WalkProofs WalkProofs2 WalkProofs3 WalkProofs5.
From Verif Require Import EqualSpec BuildModel InsModel InsSpec InsProofs InsProofs7 PutModel PutSpec PutProofs PutProofs2 PutProofs7.
From Verif Require Import JourModel JourSpec JourProofs JourProofs8.
From Verif Require BuildSpec.
Import ListNotations.
Open Scope list_scope.
Open Scope Z_scope.

(** ** What does not change *)

Lemma num_ext : forall m m' k p, (forall i, 0 <= i < Z.of_nat k -> m' (p + i) = m (p + i)) -> num m' p k = num m p k.
Proof.
  intros m m' k. induction k as [|k IH]; intros p H; [reflexivity|]. cbn [num].
  pose proof (H 0 ltac:(lia)) as H0. replace (p + 0) with p in H0 by lia. rewrite H0. f_equal. f_equal. apply IH.
  intros i Hi. replace (p + 1 + i) with (p + (i + 1)) by lia. apply H. lia.
Qed.

Section Same.
Variables m m' : image.

Definition same_tables (v : val) : Prop := forall nm p fs, In (Tab nm p fs) (tables v) ->
  vtable_of m' p = vtable_of m p /\ forall i, 0 <= i < zlen fs -> slot_of m' p i = slot_of m p i.

Lemma same_sub : forall nm p fs f, same_tables (Tab nm p fs) -> In f fs -> same_tables f.
Proof. intros nm p fs f H Hf nm' p' fs' Hin. apply (H nm'). right. apply in_flat_map. eauto. Qed.

Lemma same_elem : forall nm p es f, same_tables (Tabs nm p es) -> In f es -> same_tables f.
Proof. intros nm p fs f H Hf nm' p' fs' Hin. apply (H nm'). apply in_flat_map. eauto. Qed.

Lemma flat_map_same : forall A B (g h : A -> list B) l, (forall x, In x l -> g x = h x) -> flat_map g l = flat_map h l.
Proof. intros A B g h l H. induction l as [|x l IH]; cbn; [reflexivity|]. rewrite (H x), IH; auto; [intros; apply H; right; assumption|left; reflexivity]. Qed.

Lemma same_frame : forall v, same_tables v -> frame m' v = frame m v.
Proof.
  intros v. induction v as [ty|q w|q ms|q k w|q k ms|nm p fs go|nm p vs go] using val_deep; intros H; try reflexivity; cbn [frame].
  - destruct (H nm p fs (or_introl eq_refl)) as [-> _]. do 4 f_equal. apply flat_map_same. intros f Hf. apply go; [exact Hf|]. eapply same_sub; eauto.
  - f_equal. apply flat_map_same. intros f Hf. apply go; [exact Hf|]. eapply same_elem; eauto.
Qed.

Lemma same_parts : forall v, same_tables v -> parts m' v = parts m v.
Proof.
  intros v. induction v as [ty|q w|q ms|q k w|q k ms|nm p fs go|nm p vs go] using val_deep; intros H; try reflexivity; cbn [parts].
  - destruct (H nm p fs (or_introl eq_refl)) as [-> _]. do 2 f_equal. apply flat_map_same. intros f Hf. apply go; [exact Hf|]. eapply same_sub; eauto.
  - f_equal. apply flat_map_same. intros f Hf. apply go; [exact Hf|]. eapply same_elem; eauto.
Qed.

Lemma numbered_same : forall A B (g h : Z -> A -> list B) l, (forall i x, zget l i = Some x -> g i x = h i x) ->
  List.concat (numbered g l) = List.concat (numbered h l).
Proof.
  intros A B g h l H. unfold numbered. f_equal. apply map_ext_in. intros [i x] Hin. cbn [fst snd]. apply H. apply in_number in Hin. replace (i - 0) with i in Hin by lia. exact Hin.
Qed.

Lemma same_links : forall v, same_tables v -> links m' v = links m v.
Proof.
  intros v. induction v as [ty|q w|q ms|q k w|q k ms|nm p fs go|nm p vs go] using val_deep; intros H; try reflexivity.
  - rewrite !links_tab. apply numbered_same. intros i f Hf. destruct (H nm p fs (or_introl eq_refl)) as [_ HS].
    rewrite (HS i (zget_some_range _ _ _ Hf)), (go f); [reflexivity|eapply zget_in; eauto|]. eapply same_sub; eauto. eapply zget_in; eauto.
  - rewrite !links_tabs. apply numbered_same. intros i f Hf. rewrite (go f); [reflexivity|eapply zget_in; eauto|]. eapply same_elem; eauto. eapply zget_in; eauto.
Qed.

Lemma same_fill : forall tp idx t v, 0 <= idx -> same_tables v -> same_tables (fill tp idx (Absent t) v).
Proof.
  intros tp idx t v HI. induction v as [ty|q w|q ms|q k w|q k ms|nm p fs go|nm p vs go] using val_deep; intros H; try exact H.
  - intros nm' p' fs' Hin. cbn [fill tables] in Hin. destruct Hin as [E|Hin].
    + injection E as <- <- <-. destruct (H nm p fs (or_introl eq_refl)) as [H1 H2]. split; [exact H1|].
      intros i Hi. apply H2. destruct (p =? tp); rewrite ?zlen_set_nth, zlen_map in Hi; exact Hi.
    + apply in_flat_map in Hin. destruct Hin as (f & F1 & F2).
      assert (K : f = Absent t \/ exists g, In g fs /\ f = fill tp idx (Absent t) g).
      { apply zget_of_in in F1. destruct F1 as (i & F1).
        destruct (cleared_field tp idx HI t nm p fs i f F1) as [->|(g & G1 & ->)]; [auto|]. right. exists g. split; [eapply zget_in; eauto|reflexivity]. }
      destruct K as [->|(g & G1 & ->)]; [destruct F2|]. apply (go g G1 (same_sub _ _ _ _ H G1) nm' p' fs' F2).
  - intros nm' p' fs' Hin. cbn [fill tables] in Hin. apply in_flat_map in Hin. destruct Hin as (f & F1 & F2).
    apply in_map_iff in F1. destruct F1 as (g & <- & G1). apply (go g G1 (same_elem _ _ _ _ H G1) nm' p' fs' F2).
Qed.

End Same.

(** ** Where the numbers are *)

Section Frames.
Variable m : image.
Variable s : schema.
Variables (tp idx : Z) (t : ty).
Hypothesis HI : 0 <= idx.
Local Notation clear := (fill tp idx (Absent t)).

Definition somewhere (u : val) : Prop :=
  (exists name p, stored_table m s name p u) \/ exists p pv ty e, stored_field m s p pv ty e u.

Lemma somewhere_field : forall nm p fs i f, somewhere (Tab nm p fs) -> zget fs i = Some f -> somewhere f.
Proof.
  intros nm p fs i f H Hf.
  assert (G : exists name q, stored_table m s name q (Tab nm p fs)).
  { destruct H as [H|(p' & pv & ty & e & H)]; [exact H|]. inversion H; subst; eauto. }
  destruct G as (name & q & G). inversion G as [? ? so es l tys ? Hs T Hso SF]; subst.
  destruct (fields_of m s _ _ _ _ _ SF) as (_ & _ & N). destruct (N i f Hf) as (t' & e & pv & _ & _ & N3 & _). right. eauto.
Qed.

Lemma somewhere_elem : forall nm p es i f, somewhere (Tabs nm p es) -> zget es i = Some f -> somewhere f.
Proof.
  intros nm p es i f H Hf. destruct H as [(name & q & H)|(p' & pv & ty & e & H)]; [inversion H|].
  assert (G : exists q tn, stored_elems m s q tn es).
  { inversion H; subst; eauto; match goal with X : stored_table _ _ _ _ (Tabs _ _ _) |- _ => inversion X end. }
  destruct G as (q & tn & G). destruct (elems_of m s q tn es G i f Hf) as (u & _ & U). left. eauto.
Qed.

Lemma frame_parts : forall u, somewhere u ->
  (forall nm gs, In (Tab nm tp gs) (tables u) -> exists w, zget gs idx = Some w /\ frame m w = []) ->
  forall a k, In (a, k) (frame m u) -> exists c0 k0, In (c0, k0) (parts m (clear u)) /\ c0 <= a /\ a + k <= c0 + k0.
Proof.
  intros u. induction u as [ty|q w'|q ms|q k' w'|q k' ms|nm p gs go|nm p vs go] using val_deep; intros HW HU a0 k0 H; cbn [frame] in H; try (destruct H; fail).
  - destruct H as [E|[]]. injection E as <- <-. exists (q - 4), (4 + k' * w'). cbn [fill parts]. split; [left; reflexivity|].
    destruct HW as [(? & ? & HW)|(p' & pv & ty & e & HW)]; [inversion HW|].
    inversion HW; subst; try (match goal with X : stored_table _ _ _ _ (Scalars _ _ _) |- _ => inversion X end; fail).
    match goal with V : vector_from _ _ _ _ |- _ => pose proof (proj1 (proj2 V)) end. match goal with |- context [zwidth ?x] => pose proof (zwidth_pos x) end. nia.
  - destruct H as [E|[]]. injection E as <- <-. exists (q - 4), (4 + k' * struct_size ms). cbn [fill parts]. split; [left; reflexivity|].
    destruct HW as [(? & ? & HW)|(p' & pv & ty & e & HW)]; [inversion HW|].
    inversion HW; subst; try (match goal with X : stored_table _ _ _ _ (Structs _ _ _) |- _ => inversion X end; fail).
    match goal with V : vector_from _ _ _ _ |- _ => pose proof (proj1 (proj2 V)) end. pose proof (struct_size_nonneg ms). nia.
  - assert (LN : forall l : list val, zlen (if p =? tp then set_nth idx (Absent t) l else l) = zlen l) by (intros; destruct (p =? tp); rewrite ?zlen_set_nth; reflexivity).
    cbn [fill parts]. rewrite LN, zlen_map. pose proof (zlen_nonneg gs).
    destruct H as [E|[E|[E|H]]].
    + injection E as <- <-. exists p, 4. split; [left; reflexivity|]. lia.
    + injection E as <- <-. exists (vtable_of m p), (4 + 2 * zlen gs). split; [right; left; reflexivity|]. lia.
    + injection E as <- <-. exists (vtable_of m p), (4 + 2 * zlen gs). split; [right; left; reflexivity|]. lia.
    + apply in_app_or in H. destruct H as [H|H].
      * apply in_map_iff in H. destruct H as (i & E & Hi). pose proof (f_equal fst E) as Ea. pose proof (f_equal snd E) as Ek. cbn [fst snd] in Ea, Ek. apply in_seq in Hi. exists (vtable_of m p), (4 + 2 * zlen gs).
        split; [right; left; reflexivity|]. unfold zlen. lia.
      * apply in_flat_map in H. destruct H as (f & F1 & F2). pose proof F1 as FI. apply zget_of_in in FI. destruct FI as (i & FI).
        destruct (go f F1 (somewhere_field _ _ _ _ _ HW FI)) with (a := a0) (k := k0) as (c1 & k1 & C1 & C2); [|exact F2|].
        { intros nm' gs' H'. apply (HU nm' gs'). right. apply in_flat_map. eauto. }
        assert (K : In (clear f) (if p =? tp then set_nth idx (Absent t) (map clear gs) else map clear gs)).
        { destruct (Z.eqb_spec p tp) as [->|NE]; [|apply in_map; exact F1]. destruct (HU nm gs) as (w & W1 & W2); [left; reflexivity|].
          destruct (Z.eq_dec i idx) as [->|NI]; [assert (f = w) by congruence; subst w; rewrite W2 in F2; destruct F2|].
          eapply zget_in with (i := i). rewrite zget_set_nth by exact HI. replace (i =? idx) with false by lia. apply zget_map_some. exact FI. }
        exists c1, k1. split; [|exact C2]. right. right. apply in_flat_map. exists (clear f). auto.
  - cbn [fill parts]. destruct H as [E|H]; [injection E as <- <-; exists (p - 4), 4; split; [left; reflexivity|lia]|].
    apply in_flat_map in H. destruct H as (f & F1 & F2). pose proof F1 as FI. apply zget_of_in in FI. destruct FI as (i & FI).
    destruct (go f F1 (somewhere_elem _ _ _ _ _ HW FI)) with (a := a0) (k := k0) as (c1 & k1 & C1 & C2); [|exact F2|].
    { intros nm' gs' H'. apply (HU nm' gs'). apply in_flat_map. eauto. }
    exists c1, k1. split; [|exact C2]. right. apply in_flat_map. exists (clear f). split; [apply in_map; exact F1|exact C1].
Qed.

(** Another field keeps its place. *)
Lemma field_parts : forall u, (forall nm gs, In (Tab nm tp gs) (tables u) -> exists w, zget gs idx = Some w /\ tables w = []) ->
  forall nm q fs j f c, In (Tab nm q fs) (tables u) -> zget fs j = Some f -> (q, j) <> (tp, idx) -> In c (parts m f) -> tables f = [] -> In c (parts m (clear u)).
Proof.
  intros u. induction u as [ty|q0 w'|q0 ms|q0 k' w'|q0 k' ms|nm0 p gs go|nm0 p vs go] using val_deep; intros HU nm q fs j f c Hin Hj NE HC HT; cbn [tables] in Hin; try (destruct Hin; fail).
  - destruct Hin as [E|Hin].
    + injection E as -> -> ->. cbn [fill parts]. right. right. apply in_flat_map. exists (clear f). split.
      * destruct (Z.eqb_spec q tp) as [->|NQ]; [|apply in_map; eapply zget_in; exact Hj].
        eapply zget_in with (i := j). rewrite zget_set_nth by exact HI. assert (j <> idx) by congruence. replace (j =? idx) with false by lia. apply zget_map_some. exact Hj.
      * rewrite fill_same; [exact HC|exact HI|]. rewrite HT. intros nm' gs' [].
    + apply in_flat_map in Hin. destruct Hin as (g & F1 & F2). pose proof F1 as FI. apply zget_of_in in FI. destruct FI as (i & FI).
      assert (G : In c (parts m (clear g))).
      { eapply (go g F1); eauto. intros nm' gs' H'. apply (HU nm' gs'). right. apply in_flat_map. eauto. }
      cbn [fill parts]. right. right. apply in_flat_map. exists (clear g). split; [|exact G].
      destruct (Z.eqb_spec p tp) as [->|NP]; [|apply in_map; exact F1]. destruct (HU nm0 gs) as (w & W1 & W2); [left; reflexivity|].
      destruct (Z.eq_dec i idx) as [->|NI]; [assert (g = w) by congruence; subst w; rewrite W2 in F2; destruct F2|].
      eapply zget_in with (i := i). rewrite zget_set_nth by exact HI. replace (i =? idx) with false by lia. apply zget_map_some. exact FI.
  - apply in_flat_map in Hin. destruct Hin as (g & F1 & F2).
    assert (G : In c (parts m (clear g))).
    { eapply (go g F1); eauto. intros nm' gs' H'. apply (HU nm' gs'). apply in_flat_map. eauto. }
    cbn [fill parts]. right. apply in_flat_map. exists (clear g). split; [apply in_map; exact F1|exact G].
Qed.

End Frames.

(** ** One update *)

Lemma held_after : forall b a k dst sl pre, held b a k -> disjoint a k dst (gs_len sl) ->
  (pre = nil \/ dst < gs_len (b_bytes b) /\ exists t, pre = [mkDiff dst t] /\ sl_data t = zskip dst (sl_data (b_bytes b))) -> 0 <= dst -> 0 <= gs_len sl -> 
  held (set_diffs b ((pre ++ b_diffs b) ++ [mkDiff dst sl])) a k.
Proof.
  intros b a k dst sl pre H HD HP H0 HL. unfold disjoint in HD.
  assert (BN : Forall (beside a k) [mkDiff dst sl]).
  { constructor; [|constructor]. unfold beside, d_len. cbn [d_off d_sl]. lia. }
  destruct H as [(l1 & d & l2 & E & D1 & D2 & F)|[HB F]]; unfold held; cbn [set_diffs b_diffs b_bytes].
  - left. exists (pre ++ l1), d, (l2 ++ [mkDiff dst sl]). rewrite E. split; [rewrite <- !app_assoc; reflexivity|]. split; [exact D1|]. split; [exact D2|].
    apply Forall_app. auto.
  - destruct HP as [->|(P1 & t & -> & P2)].
    + right. split; [exact HB|]. apply Forall_app. auto.
    + assert (LT : d_len (mkDiff dst t) = gs_len (b_bytes b) - dst).
      { unfold d_len, gs_len. cbn [d_sl]. rewrite P2, zlen_zskip. unfold gs_len in *. lia. }
      destruct HD as [HD|HD].
      * right. split; [exact HB|]. rewrite <- app_assoc. cbn [app]. constructor; [unfold beside; cbn [d_off]; lia|]. apply Forall_app. auto.
      * left. exists nil, (mkDiff dst t), (b_diffs b ++ [mkDiff dst sl]). cbn [app d_off]. split; [reflexivity|]. split; [lia|]. split; [lia|].
        apply Forall_app. auto.
Qed.

Lemma intact_inside : forall b m v w, intact b m v -> In w (tables v) -> intact b m w.
Proof.
  intros b m v w. induction v as [ty|q w'|q ms|q k' w'|q k' ms|nm p gs go|nm p vs go] using val_deep; intros HI Hw; cbn [tables] in Hw; try (destruct Hw; fail).
  - destruct Hw as [<-|Hw]; [exact HI|]. apply in_flat_map in Hw. destruct Hw as (g & G1 & G2). apply (go g G1); [|exact G2].
    apply zget_of_in in G1. destruct G1 as (i & G1). eapply fine_field; eauto.
  - apply in_flat_map in Hw. destruct Hw as (g & G1 & G2). apply (go g G1); [|exact G2].
    destruct HI as [I1 I2]. split.
    + intros a k H. apply I1. cbn [frame]. right. apply in_flat_map. eauto.
    + intros a t H. apply zget_of_in in G1. destruct G1 as (i & G1). apply (I2 a t). rewrite links_tabs. eapply in_concat_numbered; [exact G1|]. right. exact H.
Qed.

Section Edit.
Variable n : names.
Variable s : schema.
Hypothesis HD : describes n s.

Lemma put_one : forall b m name p v z e, in_memory b -> shows b m ->
  stored_table m s name p v -> intact b m v -> editable n s m v e ->
  let c := new_node n (Some (e_pos e, z)) no_vinfo (e_table e) in
  let m' := img_write m (val_pos (e_old e)) (e_bytes e) in
  exists b', (forall fuel, (1 <= fuel)%nat -> put_field n fuel b c (e_idx e) (e_base e) (e_node e) = Ok (Put_ok b' c)) /\ in_memory b' /\ shows b' m' /\
    stored_table m' s name p v /\ intact b' m' v /\ same_tables m m' v /\
    held b' (val_pos (e_old e)) (zlen (e_bytes e)) /\
    (forall a k, held b a k -> disjoint a k (val_pos (e_old e)) (zlen (e_bytes e)) -> held b' a k).
Proof.
  intros b m name p v z e HB HM H HI HE c m'. destruct e as [tn tp idx t w fb f x].
  destruct HE as [HE1 Ha Hg Hx DP DL]. cbn [e_table e_pos e_idx e_type e_old e_base e_node e_bytes] in *.
  destruct HE1 as (fs & tys & OT & HS & Ht & HNU & Hw).
  pose proof (zget_some_range _ _ _ Ht) as RI.
  destruct (inline_given n s HD tn tys tp z idx t fb f x HS Ht Hg) as (fp & fz & CN & DV & G1 & G2 & G3 & G4 & G5 & G6). fold c in G1, G2, G3, G4, G5.
  pose proof OT as [OT1 OT2].
  destruct (proj1 (tables_stored m s v) name p H _ OT1) as (nm & q & gs & E & HT). injection E as <- <- <-.
  assert (INV : exists so es l, table_at m tp so es l /\ 0 <= so /\ stored_fields m s tp None tys es fs).
  { inversion HT as [? ? so es l tys' ? Hs' T Hso SF]; subst. rewrite HS in Hs'. injection Hs' as <-. exists so, es, l. auto. }
  destruct INV as (so & es & l & T & Hso & SF).
  destruct (fields_of m s tp None tys es fs SF) as (L1 & L2 & N). destruct (N idx w Hw) as (t' & e & pv & N1 & N2 & N3 & _).
  assert (t' = t) by congruence. subst t'.
  assert (FW : val_pos w = tp + e /\ 4 <= e /\ tables w = [] /\ start w = None /\ occupied m (tp + e) (zlen x) /\
    forall m' pv', occupied m' (tp + e) (zlen x) -> stored_field m' s tp pv' t e w).
  { destruct t; try contradiction; inversion N3; subst; cbn [is_absent] in Ha; try discriminate; rewrite G6; repeat (split; [auto; fail|]); intros; constructor; auto. }
  destruct FW as (W1 & W2 & W3 & W4 & W5 & W6). assert (EM : m' = img_write m (tp + e) x) by (unfold m'; rewrite W1; reflexivity). clearbody m'. rewrite W1 in *.
  assert (UN : forall nm gs, In (Tab nm tp gs) (tables v) -> nm = tn /\ gs = fs).
  { intros nm gs HG. specialize (OT2 _ HG eq_refl). split; congruence. }
  assert (CLR : forall nm q gs, In (Tab nm q gs) (tables v) ->
    In (q, 4) (parts m (fill tp idx (Absent t) v)) /\ In (vtable_of m q, 4 + 2 * zlen gs) (parts m (fill tp idx (Absent t) v))).
  { apply (clear_tables m tp idx ltac:(lia) t v). intros nm gs HG. destruct (UN nm gs HG) as [-> ->]. eauto. }
  (* the table through the journal *)
  assert (SI : intact b m (Tab tn tp fs)).
  { exact (intact_inside b m v _ HI OT1). }
  pose proof (table_seen b m HB HM tn tp fs so es l T Hso L2 SI) as TS.
  destruct (seen_access b tp so es l TS Hso) as (_ & _ & CA). destruct (CA idx e N2) as (C1 & C2 & _).
  assert (ZX : 1 <= zlen x) by (destruct x as [|y x]; [contradiction|]; rewrite zlen_cons; pose proof (zlen_nonneg x); lia).
  pose proof (ta_vpos _ _ _ _ _ T) as TV.
  destruct (copy_any b fb fp x (tp + e) DV ZX ltac:(lia)) as (sl & pre & CP1 & CP2 & CP3).
  assert (ZSL : gs_len sl = zlen x) by (unfold gs_len; rewrite CP2; reflexivity).
  set (b' := set_diffs b ((pre ++ b_diffs b) ++ [mkDiff (tp + e) sl])) in *.
  assert (CT : forall i, content b' i = img_write (content b) (tp + e) x i).
  { intros i. unfold content at 1, b'. cbn [set_diffs b_diffs b_bytes]. rewrite over_app, over_one. cbn [d_off]. unfold d_data. cbn [d_sl]. rewrite CP2.
    apply img_write_ext. destruct CP3 as [->|(D1 & tt & -> & D2)]; [reflexivity|]. cbn [app]. rewrite over_front by (auto; lia). reflexivity. }
  assert (MB' : in_memory b').
  { destruct HB as [HB1 HB2]. split; [exact HB1|]. unfold b'. cbn [set_diffs b_diffs]. apply Forall_app. split; [|repeat constructor; cbn [d_off]; lia].
    apply Forall_app. split; [|exact HB2]. destruct CP3 as [->|(D1 & tt & -> & D2)]; repeat constructor; cbn [d_off]; lia. }
  assert (OUT : forall i, i < tp + e \/ tp + e + zlen x <= i -> m' i = m i).
  { intros i Hi. rewrite EM. unfold img_write. replace ((tp + e <=? i) && (i <? tp + e + zlen x)) with false by lia. reflexivity. }
  assert (INS : forall i, 0 <= i < zlen x -> m' (tp + e + i) = zget x i).
  { intros i Hi. rewrite EM. unfold img_write. replace ((tp + e <=? tp + e + i) && (tp + e + i <? tp + e + zlen x)) with true by lia. f_equal. lia. }
  assert (ST : same_tables m m' v).
  { intros nm q gs Hin. destruct (CLR nm q gs Hin) as [P1 P2]. apply DP in P1. apply DP in P2. unfold disjoint in P1, P2.
    assert (EV : vtable_of m' q = vtable_of m q).
    { unfold vtable_of. f_equal. apply num_ext. intros i Hi. apply OUT. lia. }
    split; [exact EV|]. intros i Hi. unfold slot_of. rewrite EV. f_equal. apply num_ext. intros j Hj. apply OUT. lia. }
  assert (KEEP : forall a k, held b a k -> disjoint a k (tp + e) (zlen x) -> held b' a k).
  { intros a k HH HDJ. apply held_after; auto; try lia. rewrite ZSL. exact HDJ. }
  exists b'. split; [|split; [exact MB'|split; [|split; [|split; [|split; [exact ST|split; [|exact KEEP]]]]]]].
  - intros fuel Hfu. unfold put_field. rewrite G1, G2. cbn [negb]. unfold c at 1. rewrite new_node_node. rewrite G3, G4. unfold put_inline.
    rewrite (G5 fuel Hfu). cbn [bind]. rewrite CN. rewrite (seen_preload b tp so es l TS Hso). cbn [bind].
    rewrite C2. cbn [bind]. replace (e =? 0) with false by lia. cbn [negb]. rewrite C1. cbn [bind]. rewrite CP1. reflexivity.
  - intros i Hi. rewrite (peek_content b' i MB' Hi), CT. rewrite EM. f_equal. apply img_write_ext. apply shown; auto.
  - destruct (in_place m s name p v tn tp fs tys idx t so es l e w m' (tp + e) (zlen x) H OT HS Ht HNU T Hso N2) as [I1 _]; auto.
    + intros a u Hau. apply (DL a u). eapply clear_links; [|exact Hau]. lia.
    + intros pv'. apply W6. intros j Hj. rewrite (INS j Hj). destruct (zget_some x j Hj) as (y & Y). eauto.
    + rewrite fill_same in I1; [exact I1|lia|]. intros nm gs HG. destruct (UN nm gs HG) as [-> ->]. exact Hw.
  - destruct HI as [I1 I2]. split.
    + rewrite (same_frame m m' v ST). intros a k Hak. apply KEEP; [apply I1, Hak|].
      (* a number of the frame lies in a part *)
      assert (FP : exists c0 k0, In (c0, k0) (parts m (fill tp idx (Absent t) v)) /\ c0 <= a /\ a + k <= c0 + k0).
      { apply (frame_parts m s tp idx t ltac:(lia) v); [left; eauto| |exact Hak]. intros nm gs HG. destruct (UN nm gs HG) as [-> ->].
        exists w. split; [exact Hw|]. destruct t; try contradiction; inversion N3; subst; reflexivity. }
      destruct FP as (c0 & k0 & F1 & F2 & F3). specialize (DP c0 k0 F1). unfold disjoint in *. lia.
    + rewrite (same_links m m' v ST). intros a u Hau. apply KEEP; [apply (I2 a u), Hau|]. apply (DL a u). exact Hau.
  - left. exists (pre ++ b_diffs b), (mkDiff (tp + e) sl), nil. unfold b'. cbn [set_diffs b_diffs d_off]. split; [reflexivity|].
    unfold d_len. cbn [d_sl]. rewrite ZSL. split; [lia|]. split; [lia|constructor].
Qed.

(** ** Several updates *)

Definition call_of (e : edit) : call := (e_table e, e_pos e, e_idx e, e_base e, e_node e).

Lemma edit_same : forall m m' v e, same_tables m m' v -> editable n s m v e -> editable n s m' v e.
Proof.
  intros m m' v e H [E1 E2 E3 E4 E5 E6]. constructor; auto.
  - intros a k Hak. apply E5. rewrite <- (same_parts m m'); [exact Hak|]. apply same_fill; [|exact H].
    destruct E1 as (fs & tys & _ & _ & Z1 & _). apply zget_some_range in Z1. lia.
  - intros a u Hau. apply (E6 a u). rewrite <- (same_links m m' v H). exact Hau.
Qed.

Lemma edit_apart : forall m v name p e e', stored_table m s name p v -> editable n s m v e -> editable n s m v e' ->
  (e_pos e, e_idx e) <> (e_pos e', e_idx e') -> disjoint (val_pos (e_old e)) (zlen (e_bytes e)) (val_pos (e_old e')) (zlen (e_bytes e')).
Proof.
  intros m v name p e e' H HE HE' NE. pose proof (ed_parts _ _ _ _ _ HE') as DP'.
  assert (INL : forall e, editable n s m v e -> tables (e_old e) = [] /\ In (val_pos (e_old e), zlen (e_bytes e)) (parts m (e_old e))).
  { clear - H HD. intros e [(fs & tys & [OT1 _] & HS & Ht & _ & Hw) Ha Hg Hx _ _].
    destruct (inline_given n s HD _ tys (e_pos e) (-1) _ _ _ _ _ HS Ht Hg) as (fp & fz & _ & _ & _ & _ & _ & _ & _ & G6).
    destruct (proj1 (tables_stored m s v) name p H _ OT1) as (nm & q & gs & E & HT). injection E as <- <- <-.
    inversion HT as [? ? so es l tys' ? Hs' T Hso SF]; subst. rewrite HS in Hs'. injection Hs' as <-.
    destruct (fields_of m s _ None tys es fs SF) as (_ & _ & N). destruct (N _ _ Hw) as (t' & e0 & pv & N1 & _ & N3 & _).
    assert (t' = e_type e) by congruence. subst t'. rewrite ?G6.
    destruct (e_type e); try contradiction; inversion N3 as [? ? ? ? A|? ? ? ? ? ? A|? ? ? ? ? ? ? A| | | | | | |]; subst;
      match goal with X : _ = e_old e |- _ => rewrite <- X in * end; try discriminate; cbn; rewrite G6; auto. }
  destruct (INL e HE) as [T1 T2]. destruct (INL e' HE') as [T1' T2'].
  apply DP'. destruct HE as [(fs & tys & [OT1 _] & HS & Ht & _ & Hw) _ _ _ _ _].
  destruct HE' as [(fs' & tys' & [OT1' OT2'] & HS' & Ht' & _ & Hw') _ _ _ _ _].
  apply (field_parts m (e_pos e') (e_idx e') (e_type e')) with (nm := e_table e) (q := e_pos e) (fs := fs) (j := e_idx e) (f := e_old e); auto.
  - apply zget_some_range in Ht'. lia.
  - intros nm gs HG. specialize (OT2' _ HG eq_refl). injection OT2' as -> ->. eauto.
Qed.

Lemma edit_place : forall m v name p e, stored_table m s name p v -> editable n s m v e -> 0 <= val_pos (e_old e).
Proof.
  intros m v name p e H [(fs & tys & [OT1 _] & HS & Ht & _ & Hw) Ha Hg Hx _ _].
  destruct (inline_given n s HD _ tys (e_pos e) (-1) _ _ _ _ _ HS Ht Hg) as (fp & fz & _ & _ & _ & _ & _ & _ & _ & G6).
  destruct (proj1 (tables_stored m s v) name p H _ OT1) as (nm & q & gs & E & HT). injection E as <- <- <-.
  inversion HT as [? ? so es l tys' ? Hs' T Hso SF]; subst. rewrite HS in Hs'. injection Hs' as <-.
  destruct (fields_of m s _ None tys es fs SF) as (_ & _ & N). destruct (N _ _ Hw) as (t' & e0 & pv & N1 & _ & N3 & _).
  assert (t' = e_type e) by congruence. subst t'. pose proof (ta_vpos _ _ _ _ _ T).
  destruct (e_type e); try contradiction; inversion N3 as [? ? ? ? A|? ? ? ? ? ? A|? ? ? ? ? ? ? A| | | | | | |]; subst;
    match goal with X : _ = e_old e |- _ => rewrite <- X in * end; try discriminate; cbn; lia.
Qed.

Lemma put_several : forall es b m fuel name p v, in_memory b -> shows b m ->
  stored_table m s name p v -> intact b m v -> Forall (editable n s m v) es -> (1 <= fuel)%nat ->
  exists b', put_all n fuel b (map call_of es) = Ok b' /\ in_memory b' /\ shows b' (written m es) /\
    stored_table (written m es) s name p v /\ intact b' (written m es) v /\
    (forall a k, held b a k -> Forall (fun e => disjoint a k (val_pos (e_old e)) (zlen (e_bytes e))) es -> held b' a k) /\
    forall es1 e es2, es = es1 ++ e :: es2 -> Forall (fun e' => (e_pos e, e_idx e) <> (e_pos e', e_idx e')) es2 ->
      held b' (val_pos (e_old e)) (zlen (e_bytes e)) /\ bytes_at (written m es) (val_pos (e_old e)) (e_bytes e).
Proof.
  intros es. induction es as [|e es IH]; intros b m fuel name p v HB HM H HI HE Hfu.
  - exists b. cbn [map put_all written fold_left]. repeat (split; [assumption || reflexivity|]). split; [auto|].
    intros es1 e es2 E. destruct es1; discriminate.
  - inversion HE as [|? ? E1 E2]; subst.
    destruct (put_one b m name p v (-1) e HB HM H HI E1) as (b1 & P1 & P2 & P3 & P4 & P5 & P6 & P7 & P8).
    set (m1 := img_write m (val_pos (e_old e)) (e_bytes e)) in *.
    assert (E3 : Forall (editable n s m1 v) es) by (eapply Forall_impl; [|exact E2]; intros; eapply edit_same; eauto).
    destruct (IH b1 m1 fuel name p v P2 P3 P4 P5 E3 Hfu) as (b' & Q1 & Q2 & Q3 & Q4 & Q5 & Q6 & Q7).
    exists b'. cbn [map put_all call_of]. unfold call_of at 1. rewrite (P1 fuel Hfu). cbn [bind]. split; [exact Q1|]. split; [exact Q2|].
    change (written m (e :: es)) with (written m1 es). split; [exact Q3|]. split; [exact Q4|]. split; [exact Q5|]. split.
    { intros a k HA HF. inversion HF; subst. apply Q6; auto. }
    intros es1 e' es2 E HN. destruct es1 as [|x es1]; injection E as -> ->; [|apply (Q7 es1 e' es2 eq_refl HN)].
    assert (AP : Forall (fun e0 => disjoint (val_pos (e_old e')) (zlen (e_bytes e')) (val_pos (e_old e0)) (zlen (e_bytes e0))) es2).
    { apply Forall_forall. intros e0 H0. rewrite Forall_forall in E2, HN. exact (edit_apart m v name p e' e0 H E1 (E2 e0 H0) (HN e0 H0)). }
    split; [apply Q6; assumption|].
    assert (B0 : bytes_at m1 (val_pos (e_old e')) (e_bytes e')).
    { intros i Hi. unfold m1, img_write. replace ((_ <=? _) && (_ <? _)) with true by lia. f_equal. lia. }
    clearbody m1. clear - AP B0. revert m1 B0. induction es2 as [|e0 es2 IH]; intros m1 B0; [exact B0|]. inversion AP; subst. apply IH; [assumption|].
    intros i Hi. unfold img_write. unfold disjoint in *. replace ((_ <=? _) && (_ <? _)) with false by lia. apply B0. exact Hi.
Qed.

Lemma held_delivers : forall b m p x, in_memory b -> shows b m -> 0 <= p -> x <> [] -> bytes_at m p x -> held b p (zlen x) -> delivers b p x.
Proof.
  intros b m p x HB HM Hp Hx HA HH.
  assert (ZX : 1 <= zlen x) by (destruct x as [|y x]; [contradiction|]; rewrite zlen_cons; pose proof (zlen_nonneg x); lia).
  destruct (whole_read b p (zlen x) (zlen x) HB Hp ZX ltac:(lia) HH) as (sl & E & L & G).
  exists sl. split; [exact E|]. split; [exact L|]. apply zget_ext. intros i.
  destruct (Z_lt_ge_dec i 0) as [|I1]; [rewrite !zget_neg by lia; reflexivity|].
  destruct (Z_lt_ge_dec i (zlen x)) as [I2|I2].
  - rewrite zget_zfirst by lia. rewrite (G i ltac:(lia)), (shown b m HB HM) by lia. replace (i <? zlen x) with true by lia. apply HA. lia.
  - rewrite zget_zfirst. replace (i <? zlen x) with false by lia. rewrite zget_ge by lia. reflexivity.
Qed.

End Edit.
