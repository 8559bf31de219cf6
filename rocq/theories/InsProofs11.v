(** A value whose bytes were shifted and whose references were adjusted is the
    same value. *)
From Coq Require Import ZArith List Bool Lia String.
From Coq Require Import Strings.Byte.
From Verif Require Import GoLib BaseModel GoLemmas BaseSpec TableModel TableSpec TableProofs NameModel NameSpec.
From Verif Require Import WalkModel WalkSpec WalkProofs WalkProofs2 WalkProofs3 WalkProofs5 EqualSpec.
From Verif Require Import InsModel InsSpec InsProofs InsProofs2 InsProofs4 InsProofs5 InsProofs7.
Import ListNotations.
Open Scope list_scope.
Open Scope Z_scope.

Lemma fields_zlen : forall m s p prev tys es fs, stored_fields m s p prev tys es fs -> zlen fs = zlen es.
Proof. intros m s p prev tys es fs H. induction H; [reflexivity|]. rewrite !zlen_cons. lia. Qed.

Section Copied.
Variables m m' : image.
Variable s : schema.
Variables pos size : Z.
Hypothesis HS : 0 <= size.
Variables PS LS : list (Z * Z).
Local Notation sh := (shift pos size).
Hypothesis COPY : forall x k, In (x, k) PS -> forall j, 0 <= j < k -> m' (sh x + j) = m (x + j).
Hypothesis LINK : forall a t, In (a, t) LS -> a + 4 <= t -> holds_uint m a 4 (t - a) -> holds_uint m' (sh a) 4 (sh t - sh a).

Definition tied (v : val) : Prop := forall a c, In (a, c) (ties m v) -> (a < pos <-> c < pos).
Definition covered (v : val) : Prop := incl (parts m v) PS /\ incl (links m v) LS /\ tied v.

Lemma shift_tied : forall a c, (a < pos <-> c < pos) -> sh c = sh a + (c - a).
Proof. intros a c H. unfold shift. destruct (a <? pos) eqn:A, (c <? pos) eqn:C; lia. Qed.

Lemma shift_ge : forall a, a <= sh a.
Proof. intros a. unfold shift. destruct (a <? pos); lia. Qed.

Lemma link_moved : forall a t, In (a, t) LS -> points_to m a t -> points_to m' (sh a) (sh t).
Proof.
  intros a t HI [H1 H2]. split; [|apply LINK; auto]. unfold shift. destruct (a <? pos) eqn:A, (t <? pos) eqn:C; lia.
Qed.

(** Part of a part. *)
Lemma copied : forall x k, In (x, k) PS -> forall o l v, 0 <= o -> o + Z.of_nat l <= k ->
  holds_uint m (x + o) l v -> holds_uint m' (sh x + o) l v.
Proof.
  intros x k HI o l v O K [H1 H2]. split; [exact H1|]. intros j Hj.
  rewrite <- Z.add_assoc, (COPY x k HI) by lia. rewrite Z.add_assoc. apply H2. exact Hj.
Qed.

Lemma copied_occupied : forall x k, In (x, k) PS -> forall o l, 0 <= o -> o + l <= k ->
  occupied m (x + o) l -> occupied m' (sh x + o) l.
Proof.
  intros x k HI o l O K H j Hj. rewrite <- Z.add_assoc, (COPY x k HI) by lia. rewrite Z.add_assoc. apply H. exact Hj.
Qed.

Lemma copied_same : forall x k, In (x, k) PS -> forall o l, 0 <= o -> o + l <= k -> same_bytes m m' (x + o) (sh x + o) l.
Proof.
  intros x k HI o l O K j Hj. rewrite <- !Z.add_assoc, (COPY x k HI) by lia. reflexivity.
Qed.

Definition field_ok (p e : Z) (f : val) : Prop :=
  covered f /\ (forall t, start f = Some t -> In (p + e, t) LS) /\ (is_absent f = false -> (p < pos <-> p + e < pos)).

Definition prev_ok (prev : option val) : Prop := match prev with Some v => incl (parts m v) PS | None => True end.

Local Notation mv := (moved pos size).
Local Notation same v := (same_value m m' v (mv v)).

Lemma vec_moved : forall a q k l, vector_from m a q k -> In (a, q - 4) LS -> In (q - 4, 4 + l) PS -> 0 <= l -> occupied m q l ->
  vector_from m' (sh a) (sh (q - 4) + 4) k /\ occupied m' (sh (q - 4) + 4) l /\ same_bytes m m' q (sh (q - 4) + 4) l.
Proof.
  intros a q k l [H1 H2] L I N HO. split; [split|split].
  - replace (sh (q - 4) + 4 - 4) with (sh (q - 4)) by lia. apply link_moved; auto.
  - replace (sh (q - 4) + 4 - 4) with (sh (q - 4)) by lia.
    pose proof (copied _ _ I 0 4 k) as K. rewrite !Z.add_0_r in K. apply K; auto; lia.
  - apply (copied_occupied _ _ I 4 l); [lia|lia|]. replace (q - 4 + 4) with q by lia. exact HO.
  - pose proof (copied_same _ _ I 4 l) as K. replace (q - 4 + 4) with q in K by lia. apply K; lia.
Qed.

Lemma stored_moved :
  (forall name p v, stored_table m s name p v -> covered v -> stored_table m' s name (sh p) (mv v) /\ same v) /\
  (forall p prev tys es fs, stored_fields m s p prev tys es fs -> prev_ok prev ->
     (forall i e f, zget es i = Some e -> zget fs i = Some f -> field_ok p e f) ->
     stored_fields m' s (sh p) (option_map mv prev) tys es (map mv fs) /\ Forall2 (alike m m' eq) fs (map mv fs)) /\
  (forall p prev t e v, stored_field m s p prev t e v -> prev_ok prev -> field_ok p e v ->
     stored_field m' s (sh p) (option_map mv prev) t e (mv v) /\ same v) /\
  (forall slot tn vs, stored_elems m s slot tn vs -> forall d,
     (forall i v, zget vs i = Some v -> covered v /\ In (slot + 4 * i, val_pos v) LS /\ sh (slot + 4 * i) = slot + 4 * i + d) ->
     stored_elems m' s (slot + d) tn (map mv vs) /\ Forall2 (alike m m' eq) vs (map mv vs)).
Proof.
  apply stored_mind.
  - intros name p soff es tl tys fs Hs T Hso HF IH (C1 & C2 & C3).
    assert (EV : vtable_of m p = p - soff) by (eapply table_vtable; eauto).
    assert (LE : zlen fs = zlen es) by (eapply fields_zlen; eauto).
    cbn [parts] in C1. rewrite EV in C1. rewrite links_tab in C2. unfold tied in C3. rewrite ties_tab, EV in C3.
    assert (I1 : In (p, 4) PS) by (apply C1; left; reflexivity).
    assert (I2 : In (p - soff, 4 + 2 * zlen fs) PS) by (apply C1; right; left; reflexivity).
    assert (E : sh (p - soff) = sh p - soff).
    { rewrite (shift_tied p (p - soff)) by (apply C3; left; reflexivity). lia. }
    destruct IH as [A1 A2].
    + exact I.
    + intros i e f He Hf. pose proof (table_slot m p soff es tl i e T Hso He) as SL. split; [split; [|split]|split].
      * intros x Hx. apply C1. right. right. apply in_flat_map. exists f. split; [eapply zget_in; eauto|exact Hx].
      * intros x Hx. apply C2. eapply in_concat_numbered; [exact Hf|]. apply in_or_app. right. exact Hx.
      * intros a c Hac. apply C3. right. eapply in_concat_numbered; [exact Hf|]. cbn beta. destruct (is_absent f); [exact Hac|right; exact Hac].
      * intros t Ht. apply C2. eapply in_concat_numbered; [exact Hf|]. apply in_or_app. left. rewrite Ht, SL. left. reflexivity.
      * intros Ha. apply C3. right. eapply in_concat_numbered; [exact Hf|]. cbn beta. rewrite Ha, SL. left. reflexivity.
    + split; cbn [moved]; [|constructor; exact A2]. apply St_table with (soff := soff) (es := es) (tl := tl) (tys := tys); auto.
      destruct T as [T1 T2 T3 T4 T5 T6]. pose proof (shift_ge p). pose proof (shift_ge (p - soff)).
      pose proof (zlen_nonneg es) as LN. constructor; try rewrite <- E.
      * pose proof (copied _ _ I1 0 4 (soff mod 2 ^ 32)) as K. rewrite !Z.add_0_r in K. apply K; auto; lia.
      * exact T2.
      * lia.
      * pose proof (copied _ _ I2 0 2 (4 + 2 * zlen es)) as K. rewrite !Z.add_0_r in K. apply K; auto; lia.
      * apply (copied _ _ I2 2 2 tl); auto; lia.
      * intros i e He. pose proof (zget_some_range _ _ _ He) as R. rewrite <- !Z.add_assoc.
        apply (copied _ _ I2 (4 + 2 * i) 2 e); [lia|lia|]. rewrite Z.add_assoc. apply T6. exact He.
  - intros. split; constructor.
  - intros p prev t tys e es v vs H1 IH1 H2 IH2 PO FO.
    assert (F0 : field_ok p e v) by (apply (FO 0); reflexivity).
    destruct (IH1 PO F0) as [A1 A2]. destruct IH2 as [B1 B2].
    + exact (proj1 (proj1 F0)).
    + intros i e' f' He Hf. pose proof (zget_some_range _ _ _ He) as R. apply (FO (i + 1)).
      * rewrite zget_cons. replace (i + 1 =? 0) with false by lia. replace (i + 1 - 1) with i by lia. exact He.
      * rewrite zget_cons. replace (i + 1 =? 0) with false by lia. replace (i + 1 - 1) with i by lia. exact Hf.
    + split; constructor; auto.
  - intros p prev t HU _ _. split; constructor. exact HU.
  - intros p prev t e He HO _ ((C1 & C2 & C3) & F2 & F3). assert (E : sh (p + e) = sh p + e) by (rewrite (shift_tied p (p + e)) by (apply F3; reflexivity); lia).
    assert (I : In (p + e, zwidth t) PS) by (apply C1; left; reflexivity).
    pose proof (copied_occupied _ _ I 0 (zwidth t)) as K1. pose proof (copied_same _ _ I 0 (zwidth t)) as K2.
    rewrite !Z.add_0_r in *.
    split; cbn [moved]; [|constructor; apply K2; lia]. rewrite E in *. constructor; [exact He|]. apply K1; auto; lia.
  - intros p prev sn ms e He HO _ ((C1 & C2 & C3) & F2 & F3). assert (E : sh (p + e) = sh p + e) by (rewrite (shift_tied p (p + e)) by (apply F3; reflexivity); lia).
    assert (I : In (p + e, struct_size ms) PS) by (apply C1; left; reflexivity).
    pose proof (copied_occupied _ _ I 0 (struct_size ms)) as K1. pose proof (copied_same _ _ I 0 (struct_size ms)) as K2.
    rewrite !Z.add_0_r in *.
    split; cbn [moved]; [|constructor; apply K2; lia]. rewrite E in *. constructor; [exact He|]. apply K1; auto; lia.
  - intros p prev t e q k He HV HO _ ((C1 & C2 & C3) & F2 & F3). assert (E : sh (p + e) = sh p + e) by (rewrite (shift_tied p (p + e)) by (apply F3; reflexivity); lia).
    assert (N : 0 <= k * zwidth t) by (pose proof (zwidth_pos t); pose proof (proj1 (proj2 HV)); nia).
    assert (I : In (q - 4, 4 + k * zwidth t) PS) by (apply C1; left; reflexivity).
    destruct (vec_moved (p + e) q k (k * zwidth t) HV (F2 _ eq_refl) I N HO) as (V1 & V2 & V3). rewrite E in V1.
    cbn [moved]. split; constructor; auto.
  - intros p prev sn ms e q k He HV HO _ ((C1 & C2 & C3) & F2 & F3). assert (E : sh (p + e) = sh p + e) by (rewrite (shift_tied p (p + e)) by (apply F3; reflexivity); lia).
    assert (N : 0 <= k * struct_size ms) by (pose proof (struct_size_nonneg ms); pose proof (proj1 (proj2 HV)); nia).
    assert (I : In (q - 4, 4 + k * struct_size ms) PS) by (apply C1; left; reflexivity).
    destruct (vec_moved (p + e) q k (k * struct_size ms) HV (F2 _ eq_refl) I N HO) as (V1 & V2 & V3). rewrite E in V1.
    cbn [moved]. split; constructor; auto.
  - intros p prev tn e q v He HP HT IH _ (C & F2 & F3). destruct (IH C) as [A1 A2].
    assert (EQ : start v = Some q /\ is_absent v = false) by (inversion HT; subst; split; reflexivity). destruct EQ as [EQ EA].
    assert (E : sh (p + e) = sh p + e) by (rewrite (shift_tied p (p + e)) by (apply F3; exact EA); lia).
    split; [|exact A2]. apply Sv_table with (q := sh q); auto. rewrite <- E. apply link_moved; auto.
  - intros p prev tn e q vs He HV HT IH _ ((C1 & C2 & C3) & F2 & F3). assert (E : sh (p + e) = sh p + e) by (rewrite (shift_tied p (p + e)) by (apply F3; reflexivity); lia).
    cbn [parts] in C1. rewrite links_tabs in C2. unfold tied in C3. rewrite ties_tabs in C3.
    assert (I : In (q - 4, 4 + 0) PS) by (apply C1; left; reflexivity).
    assert (HO : occupied m q 0) by (intros j Hj; lia).
    destruct (vec_moved (p + e) q (zlen vs) 0 HV (F2 _ eq_refl) I (Z.le_refl 0) HO) as (V1 & V2 & V3). rewrite E in V1.
    destruct (IH (sh (q - 4) + 4 - q)) as [A1 A2].
    + intros i v Hv. split; [split; [|split]|split].
      * intros x Hx. apply C1. right. apply in_flat_map. exists v. split; [eapply zget_in; eauto|exact Hx].
      * intros x Hx. apply C2. eapply in_concat_numbered; [exact Hv|]. right. exact Hx.
      * intros a c Hac. apply C3. eapply in_concat_numbered; [exact Hv|]. right. exact Hac.
      * apply C2. eapply in_concat_numbered; [exact Hv|]. left. reflexivity.
      * rewrite (shift_tied (q - 4) (q + 4 * i)); [lia|]. apply C3. eapply in_concat_numbered; [exact Hv|]. left. reflexivity.
    + assert (ZL : zlen (map mv vs) = zlen vs) by (unfold zlen; rewrite map_length; reflexivity).
      replace (q + (sh (q - 4) + 4 - q)) with (sh (q - 4) + 4) in A1 by lia. cbn [moved]. split.
      * constructor; auto. rewrite ZL. exact V1.
      * constructor; [symmetry; exact ZL|]. rewrite firstn_all2 by (rewrite map_length; lia). exact A2.
  - intros p us e x k tn q v He HX HU HP HT IH PO (C & F2 & F3). destruct (IH C) as [A1 A2].
    assert (EQ : start v = Some q /\ is_absent v = false) by (inversion HT; subst; split; reflexivity). destruct EQ as [EQ EA].
    assert (E : sh (p + e) = sh p + e) by (rewrite (shift_tied p (p + e)) by (apply F3; exact EA); lia).
    split; [|exact A2]. cbn [option_map moved]. apply Sv_union with (k := k) (tn := tn) (q := sh q); auto.
    + assert (I : In (x, 1) PS) by (apply PO; left; reflexivity).
      pose proof (copied _ _ I 0 1 (k + 1)) as K. rewrite !Z.add_0_r in K. apply K; auto; lia.
    + rewrite <- E. apply link_moved; auto.
  - intros p us x HX PO _. split; [|constructor]. cbn [option_map moved]. apply Sv_no_union.
    assert (I : In (x, 1) PS) by (apply PO; left; reflexivity).
    pose proof (copied _ _ I 0 1 0) as K. rewrite !Z.add_0_r in K. apply K; auto; lia.
  - intros p us t Ht _ _. split; [|constructor]. apply Sv_untyped_union. exact Ht.
  - intros slot tn d _. split; constructor.
  - intros slot tn q v vs HP HT IH1 HE IH2 d HA.
    destruct (HA 0 v eq_refl) as (C & L & D0). replace (slot + 4 * 0) with slot in * by lia.
    assert (EQ : val_pos v = q) by (inversion HT; subst; reflexivity). rewrite EQ in L.
    destruct (IH1 C) as [A1 A2]. destruct (IH2 d) as [B1 B2].
    + intros i w Hw. pose proof (zget_some_range _ _ _ Hw) as R.
      replace (slot + 4 + 4 * i) with (slot + 4 * (i + 1)) by lia. apply HA.
      rewrite zget_cons. replace (i + 1 =? 0) with false by lia. replace (i + 1 - 1) with i by lia. exact Hw.
    + cbn [map]. split; [|constructor; [exact A2|exact B2]]. apply Se_cons with (q := sh q); auto.
      * rewrite <- D0. apply link_moved; auto.
      * replace (slot + d + 4) with (slot + 4 + d) by lia. exact B1.
Qed.
End Copied.
