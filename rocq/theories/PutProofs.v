(** A stored value in which one field of one table was set. *)
From Coq Require Import ZArith List Bool Lia String.
From Coq Require Import Strings.Byte.
From Verif Require Import GoLib BaseModel GoLemmas BaseSpec TableModel TableSpec TableProofs NameModel NameSpec.
From Verif Require Import WalkModel WalkSpec WalkProofs WalkProofs2 WalkProofs3 WalkProofs5 EqualSpec.
From Verif Require Import InsModel InsSpec InsProofs InsProofs2 InsProofs4 InsProofs5 InsProofs7 InsProofs11 PutSpec.
From Verif Require BuildProofs7.
Import ListNotations.
Open Scope list_scope.
Open Scope Z_scope.

(** ** Lists *)

Lemma set_nth_neg : forall A (x : A) l i, i < 0 -> set_nth i x l = l.
Proof.
  induction l as [|y l IH]; intros i H; [reflexivity|]. cbn [set_nth]. replace (i =? 0) with false by lia.
  f_equal. apply IH. lia.
Qed.

Lemma zget_set_nth : forall A (x : A) l i j, 0 <= i ->
  zget (set_nth i x l) j = if j =? i then (if i <? zlen l then Some x else None) else zget l j.
Proof.
  induction l as [|y l IH]; intros i j H.
  - cbn [set_nth]. rewrite zget_nil. change (zlen (@nil A)) with 0. replace (i <? 0) with false by lia. destruct (j =? i); reflexivity.
  - cbn [set_nth]. rewrite !zget_cons, zlen_cons. pose proof (zlen_nonneg l). destruct (j =? 0) eqn:J.
    + destruct (i =? 0) eqn:E.
      * replace (j =? i) with true by lia. replace (i <? 1 + zlen l) with true by lia. reflexivity.
      * replace (j =? i) with false by lia. reflexivity.
    + destruct (i =? 0) eqn:E.
      * replace (j =? i) with false by lia. rewrite set_nth_neg by lia. reflexivity.
      * rewrite IH by lia. replace (j - 1 =? i - 1) with (j =? i) by lia. replace (i - 1 <? zlen l) with (i <? 1 + zlen l) by lia. reflexivity.
Qed.

Lemma zlen_set_nth : forall A (x : A) l i, zlen (set_nth i x l) = zlen l.
Proof. induction l as [|y l IH]; intros i; [reflexivity|]. cbn [set_nth]. rewrite !zlen_cons, IH. reflexivity. Qed.

Lemma map_set_nth : forall A B (g : A -> B) x l i, map g (set_nth i x l) = set_nth i (g x) (map g l).
Proof.
  induction l as [|y l IH]; intros i; [reflexivity|]. cbn [set_nth map]. rewrite IH. destruct (i =? 0); reflexivity.
Qed.

Lemma zget_map_some : forall A B (g : A -> B) l i x, zget l i = Some x -> zget (map g l) i = Some (g x).
Proof. intros A B g l i x H. rewrite zget_map, H. reflexivity. Qed.

Lemma zlen_map : forall A B (g : A -> B) l, zlen (map g l) = zlen l.
Proof. intros. unfold zlen. rewrite map_length. reflexivity. Qed.

Lemma elems_intro : forall m s tn vs slot,
  (forall i v, zget vs i = Some v -> exists q, points_to m (slot + 4 * i) q /\ stored_table m s tn q v) ->
  stored_elems m s slot tn vs.
Proof.
  intros m s tn vs. induction vs as [|v vs IH]; intros slot H; [constructor|].
  destruct (H 0 v eq_refl) as (q & H1 & H2). replace (slot + 4 * 0) with slot in H1 by lia.
  apply Se_cons with (q := q); auto. apply IH. intros i w Hw. pose proof (zget_some_range _ _ _ Hw) as R.
  replace (slot + 4 + 4 * i) with (slot + 4 * (i + 1)) by lia. apply H. rewrite zget_cons.
  replace (i + 1 =? 0) with false by lia. replace (i + 1 - 1) with i by lia. exact Hw.
Qed.

(** ** Fields and elements in an image *)

Lemma fields_of : forall m s p prev tys es fs, stored_fields m s p prev tys es fs ->
  zlen tys = zlen fs /\ zlen es = zlen fs /\
  forall i v, zget fs i = Some v -> exists t e pv,
    zget tys i = Some t /\ zget es i = Some e /\ stored_field m s p pv t e v /\
    (i = 0 -> pv = prev) /\ (0 < i -> exists v', zget fs (i - 1) = Some v' /\ pv = Some v').
Proof.
  intros m s p prev tys es fs H. induction H as [|p prev t tys e es v vs H1 H2 IH].
  - split; [reflexivity|]. split; [reflexivity|]. intros i v Hi. rewrite zget_nil in Hi. discriminate.
  - destruct IH as (L1 & L2 & IH).
    split; [rewrite !zlen_cons; lia|]. split; [rewrite !zlen_cons; lia|].
    intros i w Hi. rewrite zget_cons in Hi. destruct (i =? 0) eqn:E.
    + injection Hi as <-. assert (i = 0) by lia. subst i. exists t, e, prev.
      repeat (split; [rewrite ?zget_cons; auto|]). lia.
    + apply zget_some_range in Hi as R. destruct (IH (i - 1) w Hi) as (t' & e' & pv & A1 & A2 & A3 & A4 & A5).
      exists t', e', pv. rewrite !zget_cons, E. split; [auto|]. split; [auto|]. split; [auto|]. split; [lia|].
      intros Hp. destruct (Z.eq_dec i 1) as [->|].
      * exists v. split; [reflexivity|]. apply A4. lia.
      * destruct (A5 ltac:(lia)) as (v' & B1 & B2). exists v'. split; auto.
        replace (i - 1 =? 0) with false by lia. exact B1.
Qed.

Lemma elems_of : forall m s slot tn vs, stored_elems m s slot tn vs ->
  forall i v, zget vs i = Some v ->
    exists t, points_to m (slot + 4 * i) t /\ stored_table m s tn t v.
Proof.
  intros m s slot tn vs H. induction H as [|slot tn q v vs H1 H2 H3 IH]; intros i w Hi.
  - rewrite zget_nil in Hi. discriminate.
  - rewrite zget_cons in Hi. destruct (i =? 0) eqn:E.
    + injection Hi as <-. exists q. replace (slot + 4 * i) with slot by lia. auto.
    + destruct (IH (i - 1) w Hi) as (t & T1 & T2). exists t. split; auto.
      replace (slot + 4 * i) with (slot + 4 + 4 * (i - 1)) by lia. exact T1.
Qed.

(** ** Filled values *)

Lemma fill_start : forall tp idx x v, start (fill tp idx x v) = start v.
Proof. intros tp idx x v. destruct v; reflexivity. Qed.

Lemma fill_absent : forall tp idx x v, is_absent (fill tp idx x v) = is_absent v.
Proof. intros tp idx x v. destruct v; reflexivity. Qed.

Lemma fill_pos : forall tp idx x v, val_pos (fill tp idx x v) = val_pos v.
Proof. intros tp idx x v. destruct v; reflexivity. Qed.

Lemma fill_same : forall tp idx x v, 0 <= idx ->
  (forall name fs, In (Tab name tp fs) (tables v) -> zget fs idx = Some x) -> fill tp idx x v = v.
Proof.
  intros tp idx x v HI. induction v as [t|p w|p ms|p k w|p k ms|name p fs go|name p es go] using val_deep; intros H; try reflexivity; cbn [fill].
  - assert (E : map (fill tp idx x) fs = fs).
    { rewrite <- (map_id fs) at 2. apply map_ext_in. intros f Hf. apply go; [exact Hf|]. intros nm gs HG. apply (H nm gs).
      cbn [tables]. right. apply in_flat_map. eauto. }
    rewrite E. destruct (Z.eqb_spec p tp) as [->|]; [|reflexivity]. f_equal. specialize (H name fs (or_introl eq_refl)).
    clear E go. revert fs idx HI H. induction fs as [|f fs IH]; intros i Hi H; [reflexivity|]. cbn [set_nth]. rewrite zget_cons in H.
    destruct (i =? 0) eqn:E; [injection H as ->; rewrite set_nth_neg by lia; reflexivity|]. rewrite IH; auto. lia.
  - f_equal. rewrite <- (map_id es) at 2. apply map_ext_in. intros f Hf. apply go; [exact Hf|]. intros nm gs HG. apply (H nm gs).
    cbn [tables]. apply in_flat_map. eauto.
Qed.

Section Put.
Variable m : image.
Variable m' : image.
Variable s : schema.
Variables pos size : Z.
Hypothesis HS : 0 <= size.
Variables PS LS : list (Z * Z).
Local Notation sh := (shift pos size).
Hypothesis COPY : forall x k, In (x, k) PS -> forall j, 0 <= j < k -> m' (sh x + j) = m (x + j).
Hypothesis LINK : forall a t, In (a, t) LS -> a + 4 <= t -> holds_uint m a 4 (t - a) -> holds_uint m' (sh a) 4 (sh t - sh a).
Variables tp idx : Z.
Hypothesis HTP : tp < pos.
Hypothesis HI : 0 <= idx.

(** The data is the same. *)
Lemma alike_put : forall v, incl (besides m tp v) PS -> same_value m m' v (moved pos size v).
Proof.
  assert (SM : forall q l, In (q - 4, 4 + l) PS -> same_bytes m m' q (sh (q - 4) + 4) l).
  { intros q l H j Hj. rewrite <- Z.add_assoc, (COPY _ _ H) by lia. f_equal. lia. }
  intros v. induction v as [t|p w|p ms|p k w|p k ms|name p fs go|name p es go] using val_deep; intros H; cbn [moved besides] in *.
  - constructor.
  - constructor. intros j Hj. rewrite (COPY p w); [reflexivity| |exact Hj]. apply H. left. reflexivity.
  - constructor. intros j Hj. rewrite (COPY p (struct_size ms)); [reflexivity| |exact Hj]. apply H. left. reflexivity.
  - constructor; [reflexivity|]. apply SM. apply H. left. reflexivity.
  - constructor; [reflexivity|]. apply SM. apply H. left. reflexivity.
  - constructor. assert (H' : forall f, In f fs -> incl (besides m tp f) PS).
    { intros f Hf a Ha. apply H. right. apply in_or_app. right. apply in_flat_map. eauto. }
    clear H. induction fs as [|f fs IH]; cbn [map]; constructor; [apply go; [left; reflexivity|apply H'; left; reflexivity]|].
    apply IH; intros; [apply go|apply H']; try assumption; right; assumption.
  - assert (H' : forall f, In f es -> incl (besides m tp f) PS).
    { intros f Hf a Ha. apply H. right. apply in_flat_map. eauto. }
    constructor; [symmetry; apply zlen_map|]. rewrite firstn_all2 by (rewrite map_length; lia).
    clear H. induction es as [|f fs IH]; cbn [map]; constructor; [apply go; [left; reflexivity|apply H'; left; reflexivity]|].
    apply IH; intros; [apply go|apply H']; try assumption; right; assumption.
Qed.

Variable x : val.
Variable gone : ty.
Local Notation clear := (fill tp idx (Absent gone)).
Local Notation mv := (fun v => fill tp idx x (moved pos size v)).

Definition kept (v : val) : Prop := incl (besides m tp v) PS /\ incl (links m v) LS /\ tied m pos v.

Definition field_kept (p e : Z) (f : val) : Prop :=
  kept (clear f) /\ (forall t, start f = Some t -> In (p + e, t) LS) /\ (is_absent f = false -> (p < pos <-> p + e < pos)).

Lemma field_put : forall p prev prev' t e v, stored_field m s p prev t e v ->
  (is_union t = true -> prev' = option_map mv prev /\
     match prev with Some pv => incl (besides m tp (clear pv)) PS | None => True end) ->
  field_kept p e v ->
  (forall name q, stored_table m s name q v -> stored_table m' s name (sh q) (mv v)) ->
  (forall tn q es w, v = Tabs tn q es -> In w es -> forall q', stored_table m s tn q' w -> stored_table m' s tn (sh q') (mv w)) ->
  stored_field m' s (sh p) prev' t e (mv v).
Proof.
  intros p prev prev' t e v H HU (HK & F2 & F3) IHt IHe.
  assert (E : is_absent v = false -> sh (p + e) = sh p + e).
  { intros A. rewrite (shift_tied m m' pos size HS PS LS COPY LINK p (p + e)) by (apply F3; exact A). lia. }
  destruct HK as (C1 & C2 & C3).
  destruct H as [p prev t U|p prev t e He HO|p prev sn ms e He HO|p prev t e q k He HV HO|p prev sn ms e q k He HV HO|p prev tn e q v He HP HT|p prev tn e q vs He HV HT|p us e y k tn q v He HX Hk HP HT|p us y HX|p us t Ht];
    cbn [fill moved] in *; try (specialize (E eq_refl)).
  - constructor. exact U.
  - rewrite E. constructor; [exact He|]. assert (I : In (p + e, zwidth t) PS) by (apply C1; left; reflexivity). rewrite <- E.
    pose proof (copied_occupied m m' pos size PS LS COPY LINK _ _ I 0 (zwidth t)) as K. rewrite !Z.add_0_r in K. apply K; auto; lia.
  - rewrite E. constructor; [exact He|]. assert (I : In (p + e, struct_size ms) PS) by (apply C1; left; reflexivity). rewrite <- E.
    pose proof (copied_occupied m m' pos size PS LS COPY LINK _ _ I 0 (struct_size ms)) as K. rewrite !Z.add_0_r in K. apply K; auto; lia.
  - assert (N : 0 <= k * zwidth t) by (pose proof (zwidth_pos t); pose proof (proj1 (proj2 HV)); nia).
    assert (I : In (q - 4, 4 + k * zwidth t) PS) by (apply C1; left; reflexivity).
    destruct (vec_moved m m' pos size HS PS LS COPY LINK (p + e) q k (k * zwidth t) HV (F2 _ eq_refl) I N HO) as (V1 & V2 & V3). rewrite E in V1.
    constructor; auto.
  - assert (N : 0 <= k * struct_size ms) by (pose proof (struct_size_nonneg ms); pose proof (proj1 (proj2 HV)); nia).
    assert (I : In (q - 4, 4 + k * struct_size ms) PS) by (apply C1; left; reflexivity).
    destruct (vec_moved m m' pos size HS PS LS COPY LINK (p + e) q k (k * struct_size ms) HV (F2 _ eq_refl) I N HO) as (V1 & V2 & V3). rewrite E in V1.
    constructor; auto.
  - assert (EQ : start v = Some q /\ is_absent v = false) by (inversion HT; subst; split; reflexivity). destruct EQ as [EQ EA].
    apply Sv_table with (q := sh q); auto. rewrite <- (E EA). apply (link_moved m m' pos size HS PS LS COPY LINK); auto.
  - assert (I : In (q - 4, 4 + 0) PS) by (apply C1; left; reflexivity).
    assert (HO : occupied m q 0) by (intros j Hj; lia).
    destruct (vec_moved m m' pos size HS PS LS COPY LINK (p + e) q (zlen vs) 0 HV (F2 _ eq_refl) I (Z.le_refl 0) HO) as (V1 & V2 & V3). rewrite E in V1.
    constructor; [exact He|rewrite !zlen_map; exact V1|].
    apply elems_intro. intros i w Hw. rewrite !zget_map in Hw. destruct (zget vs i) as [w0|] eqn:W0; [|discriminate]. cbn [option_map] in Hw. injection Hw as <-.
    destruct (elems_of m s q tn vs HT i w0 W0) as (q' & P1 & P2). exists (sh q').
    assert (VP : val_pos w0 = q') by (inversion P2; subst; reflexivity).
    assert (CW : zget (map clear vs) i = Some (clear w0)) by (apply zget_map_some; exact W0).
    rewrite links_tabs in C2. unfold tied in C3. rewrite ties_tabs in C3.
    assert (IL : In (q + 4 * i, q') LS).
    { apply C2. eapply in_concat_numbered; [exact CW|]. left. rewrite fill_pos, VP. reflexivity. }
    assert (SL : sh (q + 4 * i) = sh (q - 4) + 4 + 4 * i).
    { rewrite (shift_tied m m' pos size HS PS LS COPY LINK (q - 4) (q + 4 * i)); [lia|]. apply C3. eapply in_concat_numbered; [exact CW|]. left. reflexivity. }
    split; [rewrite <- SL; apply (link_moved m m' pos size HS PS LS COPY LINK); auto|].
    eapply IHe; [reflexivity|eapply zget_in; exact W0|exact P2].
  - assert (EQ : start v = Some q /\ is_absent v = false) by (inversion HT; subst; split; reflexivity). destruct EQ as [EQ EA].
    destruct (HU eq_refl) as [-> HPv]. cbn [option_map fill moved] in *. apply Sv_union with (k := k) (tn := tn) (q := sh q); auto.
    + assert (I : In (y, 1) PS) by (apply HPv; left; reflexivity).
      pose proof (copied m m' pos size PS LS COPY LINK _ _ I 0 1 (k + 1)) as K. rewrite !Z.add_0_r in K. apply K; auto; lia.
    + rewrite <- (E EA). apply (link_moved m m' pos size HS PS LS COPY LINK); auto.
  - destruct (HU eq_refl) as [-> HPv]. cbn [option_map fill moved] in *. apply Sv_no_union.
    assert (I : In (y, 1) PS) by (apply HPv; left; reflexivity).
    pose proof (copied m m' pos size PS LS COPY LINK _ _ I 0 1 0) as K. rewrite !Z.add_0_r in K. apply K; auto; lia.
  - destruct (HU eq_refl) as [-> HPv]. cbn [option_map fill moved] in *. apply Sv_untyped_union. exact Ht.
Qed.

(** ** The table itself *)

Variables (tn : string) (tys : list ty) (t : ty) (soff : Z) (es : list Z) (tl tl' e' : Z).
Hypothesis HN : s tn = Some tys.
Hypothesis HT : zget tys idx = Some t.
Hypothesis HNU : types_no_union tys idx.
Hypothesis HSO : 0 <= soff.
Hypothesis T0 : table_at m tp soff es tl.
Hypothesis T1 : table_at m' tp soff (set_nth idx e' es) tl'.
Hypothesis HX : forall pv, stored_field m' s tp pv t e' x.

Lemma shift_own : forall p, (sh p =? tp) = (p =? tp).
Proof. intros p. unfold shift. destruct (p <? pos) eqn:C; lia. Qed.

Lemma table_at_same : forall p so1 so2 es1 es2 l1 l2, table_at m p so1 es1 l1 -> table_at m p so2 es2 l2 -> 0 <= so1 -> 0 <= so2 ->
  zlen es1 = zlen es2 -> so1 = so2 /\ es1 = es2.
Proof.
  intros p so1 so2 es1 es2 l1 l2 A B H1 H2 L.
  assert (so1 = so2) by (pose proof (table_vtable _ _ _ _ _ A H1); pose proof (table_vtable _ _ _ _ _ B H2); lia). subst so2. split; [reflexivity|].
  apply zget_ext. intros i. destruct (zget es1 i) as [x1|] eqn:E1.
  - pose proof (zget_some_range _ _ _ E1) as R. destruct (zget es2 i) as [x2|] eqn:E2.
    + f_equal. rewrite <- (num_holds _ _ _ _ (ta_entry _ _ _ _ _ A i x1 E1)). exact (num_holds _ _ _ _ (ta_entry _ _ _ _ _ B i x2 E2)).
    + apply zget_none_range in E2. lia.
  - destruct (zget es2 i) as [x2|] eqn:E2; [|reflexivity]. pose proof (zget_some_range _ _ _ E2) as R. apply zget_none_range in E1. lia.
Qed.

Lemma stored_put_both : forall v, kept (clear v) -> (forall nm fs, In (Tab nm tp fs) (tables v) -> nm = tn) ->
  (forall name p, stored_table m s name p v -> stored_table m' s name (sh p) (mv v)) /\
  (forall tn' q vs w, v = Tabs tn' q vs -> In w vs -> forall q', stored_table m s tn' q' w -> stored_table m' s tn' (sh q') (mv w)).
Proof.
  intros v. induction v as [ty|q w|q ms|q k w|q k ms|nm p fs go|nm p vs go] using val_deep; intros HK HU;
    try (split; [intros name z H; exfalso; inversion H; fail|intros; discriminate]).
  2:{ split; [intros name z H; exfalso; inversion H|]. intros tn' q vs' w E Hw. injection E as <- <- <-.
      apply go; [exact Hw| |intros nm' fs' Hin; apply (HU nm' fs'); apply in_flat_map; eauto].
      destruct HK as (C1 & C2 & C3). cbn [fill] in C1, C2, C3. cbn [besides] in C1. rewrite links_tabs in C2. unfold tied in C3. rewrite ties_tabs in C3.
      apply zget_of_in in Hw. destruct Hw as (i & Hi). assert (Hc := zget_map_some _ _ clear _ _ _ Hi). split; [|split].
      - intros z Hz. apply C1. right. apply in_flat_map. exists (clear w). split; [eapply zget_in; exact Hc|exact Hz].
      - intros z Hz. apply C2. eapply in_concat_numbered; [exact Hc|]. right. exact Hz.
      - intros a c Hac. apply C3. eapply in_concat_numbered; [exact Hc|]. right. exact Hac. }
  split; [|intros; discriminate]. intros name p0 H.
  assert (INV : nm = name /\ p0 = p /\ exists so1 es1 l1 tys1, s name = Some tys1 /\ table_at m p so1 es1 l1 /\ 0 <= so1 /\ stored_fields m s p None tys1 es1 fs)
    by (inversion H; subst; repeat split; do 4 eexists; eauto).
  destruct INV as (-> & -> & so1 & es1 & l1 & tys1 & Hs & T & Hso & SF). clear H.
  destruct (fields_of m s p None tys1 es1 fs SF) as (L1 & L2 & N).
  assert (UF : forall f, In f fs -> forall nm fs', In (Tab nm tp fs') (tables f) -> nm = tn).
  { intros f Hf nm fs' Hin. apply (HU nm fs'). right. apply in_flat_map. eauto. }
  assert (EV : vtable_of m p = p - so1) by (eapply table_vtable; eauto).
  set (fsc := if p =? tp then set_nth idx (Absent gone) (map clear fs) else map clear fs).
  assert (EC : clear (Tab name p fs) = Tab name p fsc) by reflexivity. rewrite EC in HK.
  assert (CG : forall i f, zget fs i = Some f -> (p =? tp) && (i =? idx) = false -> zget fsc i = Some (clear f)).
  { intros i f Hf Hne. unfold fsc. destruct (p =? tp).
    - rewrite zget_set_nth by exact HI. cbn [andb] in Hne. rewrite Hne. apply zget_map_some. exact Hf.
    - apply zget_map_some. exact Hf. }
  assert (ZC : zlen fsc = zlen fs) by (unfold fsc; destruct (p =? tp); rewrite ?zlen_set_nth, zlen_map; reflexivity).
  destruct HK as (C1 & C2 & C3). cbn [besides] in C1. rewrite links_tab in C2. unfold tied in C3. rewrite ties_tab in C3.
  assert (FK : forall i f e, zget fs i = Some f -> zget es1 i = Some e -> (p =? tp) && (i =? idx) = false -> field_kept p e f).
  { intros i f e Hf He Hne. specialize (CG i f Hf Hne). pose proof (table_slot m p so1 es1 l1 i e T Hso He) as SL. split; [split; [|split]|split].
    - intros z Hz. apply C1. right. apply in_or_app. right. apply in_flat_map. exists (clear f). split; [eapply zget_in; exact CG|exact Hz].
    - intros z Hz. apply C2. eapply in_concat_numbered; [exact CG|]. apply in_or_app. right. exact Hz.
    - intros a c Hac. apply C3. right. eapply in_concat_numbered; [exact CG|]. cbn beta. destruct (is_absent (clear f)); [exact Hac|right; exact Hac].
    - intros z Hz. apply C2. eapply in_concat_numbered; [exact CG|]. apply in_or_app. left. rewrite fill_start, Hz, SL. left. reflexivity.
    - intros Ha. apply C3. right. eapply in_concat_numbered; [exact CG|]. cbn beta. rewrite fill_absent, Ha, SL. left. reflexivity. }
  assert (FP : forall i f ty e pv pv', zget fs i = Some f -> zget es1 i = Some e -> stored_field m s p pv ty e f -> (p =? tp) && (i =? idx) = false ->
     (is_union ty = true -> pv' = option_map mv pv /\ match pv with Some w => incl (besides m tp (clear w)) PS | None => True end) ->
     stored_field m' s (sh p) pv' ty e (mv f)).
  { intros i f ty e pv pv' Hf He Hfi Hne HUn. pose proof (zget_in _ _ _ _ Hf) as Fin.
    assert (Kf := FK i f e Hf He Hne). destruct (go f Fin (proj1 Kf) (UF f Fin)) as [G1 G2].
    apply (field_put p pv pv' ty e f Hfi HUn Kf); auto. }
  assert (PV : forall i v, zget fs i = Some v -> (p =? tp) && (i =? idx) = false -> incl (besides m tp (clear v)) PS).
  { intros i v Hv Hne z Hz. apply C1. right. apply in_or_app. right. apply in_flat_map. exists (clear v). split; [eapply zget_in; exact (CG i v Hv Hne)|exact Hz]. }
  cbn [moved fill]. rewrite shift_own, map_map. destruct (Z.eqb_spec p tp) as [->|NE].
  - assert (name = tn) by (apply (HU name fs); left; reflexivity). subst name. rewrite HN in Hs. injection Hs as <-.
    pose proof (zget_some_range _ _ _ HT) as RI.
    destruct (table_at_same tp so1 soff es1 es l1 tl T T0 Hso HSO) as (-> & ->).
    { assert (V1 := num_holds _ _ _ _ (ta_vlen _ _ _ _ _ T)). pose proof (num_holds _ _ _ _ (ta_vlen _ _ _ _ _ T0)) as V2.
      pose proof (table_vtable _ _ _ _ _ T0 HSO) as EV'. assert (so1 = soff) by lia. subst so1. lia. }
    assert (SE : sh tp = tp) by (unfold shift; replace (tp <? pos) with true by lia; reflexivity).
    rewrite SE. apply St_table with (soff := soff) (es := set_nth idx e' es) (tl := tl') (tys := tys); auto.
    apply BuildProofs7.fields_intro; rewrite ?zlen_set_nth, ?zlen_map; try lia.
    intros i ty e v Ht He Hv. rewrite zget_set_nth in He, Hv by exact HI. rewrite zlen_map in Hv. destruct (i =? idx) eqn:EI.
    + assert (i = idx) by lia. subst i. replace (idx <? zlen es) with true in He by lia. replace (idx <? zlen fs) with true in Hv by lia.
      assert (ty = t) by congruence. assert (e = e') by congruence. assert (v = x) by congruence. subst. apply HX.
    + rewrite zget_map in Hv. destruct (zget fs i) as [f|] eqn:Hf; [|discriminate]. cbn [option_map] in Hv. injection Hv as <-.
      destruct (N i f Hf) as (ty' & e1 & pv & N1 & N2 & N3 & N4 & N5). assert (ty' = ty) by congruence. assert (e1 = e) by congruence. subst ty' e1.
      pose proof (zget_some_range _ _ _ Hf) as RF.
      rewrite SE in FP. apply (FP i f ty e pv); auto. intros UN. destruct (i =? 0) eqn:I0.
      * rewrite (N4 ltac:(lia)). split; [reflexivity|exact I].
      * destruct (N5 ltac:(lia)) as (v' & V1 & ->). assert (NI : i - 1 =? idx = false).
        { destruct (Z.eqb_spec (i - 1) idx) as [Q|]; [|reflexivity]. exfalso. destruct ty; try discriminate. eapply HNU. replace (idx + 1) with i by lia. exact Ht. }
        split; [|apply (PV (i - 1)); auto]. rewrite zget_set_nth, NI by exact HI. rewrite zget_map, V1. reflexivity.
  - assert (I1 : In (p, 4) PS) by (apply C1; left; reflexivity).
    assert (I2 : In (p - so1, 4 + 2 * zlen fs) PS).
    { apply C1. right. replace (p =? tp) with false by lia. apply in_or_app. left. left. rewrite EV, ZC. reflexivity. }
    assert (E : sh (p - so1) = sh p - so1).
    { rewrite (shift_tied m m' pos size HS PS LS COPY LINK p (p - so1)) by (rewrite <- EV; apply C3; left; reflexivity). lia. }
    apply St_table with (soff := so1) (es := es1) (tl := l1) (tys := tys1); auto.
    + destruct T as [Ta Tb Tc Td Te Tf]. pose proof (shift_ge m m' pos size HS PS LS COPY LINK p). pose proof (shift_ge m m' pos size HS PS LS COPY LINK (p - so1)).
      pose proof (zlen_nonneg es1) as LN. constructor; try rewrite <- E.
      * pose proof (copied m m' pos size PS LS COPY LINK _ _ I1 0 4 (so1 mod 2 ^ 32)) as K. rewrite !Z.add_0_r in K. apply K; auto; lia.
      * exact Tb.
      * lia.
      * pose proof (copied m m' pos size PS LS COPY LINK _ _ I2 0 2 (4 + 2 * zlen es1)) as K. rewrite !Z.add_0_r in K. apply K; auto; lia.
      * apply (copied m m' pos size PS LS COPY LINK _ _ I2 2 2 l1); auto; lia.
      * intros i e He. pose proof (zget_some_range _ _ _ He) as R. rewrite <- !Z.add_assoc.
        apply (copied m m' pos size PS LS COPY LINK _ _ I2 (4 + 2 * i) 2 e); [lia|lia|]. rewrite Z.add_assoc. apply Tf. exact He.
    + apply BuildProofs7.fields_intro; rewrite ?zlen_map; try lia.
      intros i ty e v Ht He Hv. rewrite zget_map in Hv. destruct (zget fs i) as [f|] eqn:Hf; [|discriminate]. cbn [option_map] in Hv. injection Hv as <-.
      destruct (N i f Hf) as (ty' & e1 & pv & N1 & N2 & N3 & N4 & N5). assert (ty' = ty) by congruence. assert (e1 = e) by congruence. subst ty' e1.
      pose proof (zget_some_range _ _ _ Hf) as RF. apply (FP i f ty e pv); auto.
      intros UN. destruct (i =? 0) eqn:I0.
      * rewrite (N4 ltac:(lia)). split; [reflexivity|exact I].
      * destruct (N5 ltac:(lia)) as (v' & V1 & ->). split; [|apply (PV (i - 1)); auto]. rewrite zget_map, V1. reflexivity.
Qed.

Lemma stored_put : forall v, kept (clear v) -> (forall nm fs, In (Tab nm tp fs) (tables v) -> nm = tn) ->
  forall name p, stored_table m s name p v -> stored_table m' s name (sh p) (mv v).
Proof. intros v H1 H2. exact (proj1 (stored_put_both v H1 H2)). Qed.
End Put.
