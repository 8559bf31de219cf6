(** What is left of a built table by [Flatten] and by [WithHeader]. *)
From Coq Require Import ZArith List Bool Lia String.
From Coq Require Import Strings.Byte.
From Verif Require Import GoLib BaseModel GoLemmas BaseSpec BaseProofs BaseProofs2 BaseProofs3.
From Verif Require Import TableModel TableSpec TableProofs TableProofs2 NameModel NameSpec.
From Verif Require Import WalkModel WalkSpec WalkProofs WalkProofs2 WalkProofs3 WalkProofs4.
From Verif Require Import EqualSpec BuildModel BuildSpec BuildProofs BuildProofs2 BuildProofs3 BuildProofs4 BuildProofs5 BuildProofs6 BuildProofs7.
Import ListNotations.
Open Scope list_scope.
Open Scope Z_scope.

(** ** Sameness of values is transitive *)

Lemma same_bytes_trans : forall m1 m2 m3 p q r k, same_bytes m1 m2 p q k -> same_bytes m2 m3 q r k ->
  same_bytes m1 m3 p r k.
Proof. intros m1 m2 m3 p q r k H1 H2 i Hi. rewrite H1 by exact Hi. apply H2. exact Hi. Qed.

Lemma same_trans : forall m1 m2 m3 v1 v2 v3, same_value m1 m2 v1 v2 -> same_value m2 m3 v2 v3 ->
  same_value m1 m3 v1 v3.
Proof.
  intros m1 m2 m3. fix go 1. intros v1 v2 v3 H1 H2.
  destruct v1; inversion H1; subst; inversion H2; subst.
  - constructor.
  - constructor. eapply same_bytes_trans; eauto.
  - constructor. eapply same_bytes_trans; eauto.
  - constructor; [congruence|]. eapply same_bytes_trans; eauto.
  - constructor; [congruence|]. eapply same_bytes_trans; eauto.
  - constructor. match goal with A : Forall2 _ fs ?gs, B : Forall2 _ ?gs ?hs |- _ =>
      clear H1 H2; revert gs hs A B end.
    induction fs as [|f fs IH]; intros gs hs A B.
    + inversion A; subst. inversion B; subst. constructor.
    + inversion A; subst. inversion B; subst. constructor; [eapply go; eassumption|eapply IH; eassumption].
  - match goal with A : Forall2 _ es (firstn _ ?gs), B : Forall2 _ ?gs0 (firstn _ ?hs), C : zlen _ = zlen _, D : zlen _ = zlen _ |- _ =>
      rename A into A0; rename B into B0; rename C into C0; rename D into D0 end.
    assert (X : List.length es = List.length gs) by (unfold zlen in *; lia).
    assert (Y : List.length gs = List.length gs0) by (unfold zlen in *; lia).
    rewrite X, firstn_all in A0. rewrite Y, firstn_all in B0.
    constructor; [congruence|]. rewrite X, Y, firstn_all.
    clear H1 H2 C0 D0 X Y. revert gs gs0 A0 B0.
    induction es as [|f fs IH]; intros gs hs A B.
    + inversion A; subst. inversion B; subst. constructor.
    + inversion A; subst. inversion B; subst. constructor; [eapply go; eassumption|eapply IH; eassumption].
Qed.

Lemma assigned_shift : forall m m' d t e w, as_assigned m t e w -> same_value m' m (shift d w) w ->
  as_assigned m' t e (shift d w).
Proof.
  intros m m' d t [|p|m0 v0] w HA HS; cbn [as_assigned] in *.
  - subst w. reflexivity.
  - destruct HA as [H1 H2]. destruct t as [t|sn ms| | | | |]; try contradiction; destruct H2 as [L [q ->]];
      cbn [shift val_pos] in *; inversion HS; subst; (split; [|split; [exact L|eauto]]);
      match goal with A : same_bytes _ _ _ _ _ |- _ => rename A into A0 end; intros k Hk;
      rewrite (A0 k) by lia; apply H1; lia.
  - eapply same_trans; eauto.
Qed.

Lemma flatten_keeps : forall b b', in_memory b -> base_flatten b = Ok b' ->
  flat b' /\ zlen (sl_data (b_bytes b')) = len_buf b /\
  forall q x, content b q = Some x -> 0 <= q -> img_bytes (sl_data (b_bytes b')) q = Some x.
Proof.
  intros b b' Hb E. destruct (flatten_spec b Hb) as (l & E' & EL & EG).
  assert (b' = mkBase (gs_of l) nil nil (b_check b) (b_seek b)) by congruence. subst b'.
  split; [split; reflexivity|]. split; [exact EL|]. intros q x Hq H0.
  cbn [b_bytes gs_of sl_data]. unfold img_bytes. rewrite EG. unfold img_fill. rewrite Hq.
  destruct (Z_lt_dec q (len_buf b)) as [Hl|Hl].
  - replace ((0 <=? q) && (q <? len_buf b)) with true by lia. reflexivity.
  - rewrite content_ge_len in Hq by (auto; lia). discriminate.
Qed.

Lemma content_last : forall b q, in_memory b -> content b q <> None -> q < len_buf b.
Proof.
  intros b q Hb Hq. destruct (Z_lt_dec q (len_buf b)) as [|N]; [auto|]. exfalso. apply Hq.
  apply content_ge_len; [exact Hb|lia].
Qed.

Section Table.
Variable n : names.
Variable s : schema.
Variable name : string.
Variable tys : list ty.
Hypothesis HD : describes n s.
Hypothesis HS : s name = Some tys.
Hypothesis HB : buildable tys.

Notation ks := (kinds (new_node n None no_vinfo name)).
Notation tp := (TableProofs2.tpos ks).

Lemma table_built : forall l st, history n s name tys start l st -> typed_unions tys st ->
  exists k b b' fs, let p := 4 + 2 * zlen tys in
    (forall fuel, (k <= fuel)%nat ->
       build_table n fuel name l = Ok (Some (b, new_node n (Some (p, -1)) no_vinfo name))) /\
    base_flatten b = Ok b' /\ flat b' /\ zlen fs = zlen tys /\
    reach (Tab name p fs) <= zlen (sl_data (b_bytes b')) /\
    stored_table (window (img_bytes (sl_data (b_bytes b'))) 0 (reach (Tab name p fs))) s name p (Tab name p fs) /\
    forall i t w, zget tys i = Some t -> zget fs i = Some w ->
      as_assigned (img_bytes (sl_data (b_bytes b'))) t (st i) w.
Proof.
  intros l st HH HU. destruct (build_steps n s name tys HD HS HB l st HH) as (k & b & vt & tl & vals & K & I).
  pose proof (tp_eq n s name tys HD HS) as TPE. rewrite TPE in K.
  destruct (stored_final n s name tys HD HS HB b vt tl vals st I HU) as (fs & LF & LA & FI). rewrite TPE in *.
  pose proof (g_mem _ _ _ _ _ _ (bs_g _ _ _ _ _ _ _ _ _ I)) as HM.
  destruct (flatten_spec b HM) as (l' & E & _). destruct (flatten_keeps b _ HM E) as (F1 & F2 & F3).
  exists k, b. eexists. exists fs. cbv zeta. split; [exact K|]. split; [exact E|]. split; [exact F1|]. split; [exact LF|].
  split; [rewrite F2; pose proof (content_last b _ HM LA); lia|]. split.
  - apply FI. intros q x Hq Hx. unfold window.
    replace ((0 <=? q) && (q <? reach (Tab name (4 + 2 * zlen tys) fs))) with true by lia. apply F3; [exact Hx|lia].
  - apply FI. intros q x Hq Hx. apply F3; [exact Hx|lia].
Qed.

(** A built table can be assigned to a field of another one. *)
Lemma built_gives : forall b fs, let p := 4 + 2 * zlen tys in let m := img_bytes (sl_data (b_bytes b)) in
  flat b -> reach (Tab name p fs) <= zlen (sl_data (b_bytes b)) ->
  stored_table (window m 0 (reach (Tab name p fs))) s name p (Tab name p fs) -> measured (Tab name p fs) ->
  lone_table n s b (new_node n (Some (p, -1)) no_vinfo name) name m (Tab name p fs).
Proof.
  intros b fs p m HF HR HT HM. exists p, (-1), tys. unfold p in *. rewrite Z.sub_diag.
  do 5 (split; [auto; lia|]). split; [exact HR|]. split; [exact HT|]. split; [exact HM|]. left. lia.
Qed.

Lemma header_added : forall l st, history n s name tys start l st -> typed_unions tys st ->
  exists k b b1 b' fs, let p := 4 + 2 * zlen tys in
    (forall fuel, (k <= fuel)%nat ->
       build_table n fuel name l = Ok (Some (b, new_node n (Some (p, -1)) no_vinfo name))) /\
    with_header b p = Ok (b1, p + 8) /\ base_flatten b1 = Ok b' /\ flat b' /\ zlen fs = zlen tys /\
    reach (Tab name (p + 8) fs) <= zlen (sl_data (b_bytes b')) /\
    holds_uint (img_bytes (sl_data (b_bytes b'))) 0 4 (p + 8) /\
    stored_table (img_bytes (sl_data (b_bytes b'))) s name (p + 8) (Tab name (p + 8) fs) /\
    forall i t w, zget tys i = Some t -> zget fs i = Some w ->
      as_assigned (img_bytes (sl_data (b_bytes b'))) t (st i) w.
Proof.
  intros l st HH HU. destruct (build_steps n s name tys HD HS HB l st HH) as (k & b & vt & tl & vals & K & I).
  pose proof (tp_eq n s name tys HD HS) as TPE. rewrite TPE in K.
  destruct (stored_final n s name tys HD HS HB b vt tl vals st I HU) as (fs & LF & LA & FI).
  pose proof (bs_g _ _ _ _ _ _ _ _ _ I) as G. pose proof (g_mem _ _ _ _ _ _ G) as HM.
  pose proof (grid_in_root ks (map field_size tys) (sizes_pos tys HB) (ref_size n s name tys HD HS) b vt tl vals G) as IR.
  rewrite TPE in *. set (p := 4 + 2 * zlen tys) in *.
  pose proof (zlen_nonneg tys) as ZT. destruct HB as (HP & _).
  set (h := le_encode 4 (u32 (p + 8)) ++ zeros 4) in *.
  assert (LH : zlen h = 8) by (unfold h; rewrite zlen_app, zlen_le_encode, zlen_zeros; lia).
  assert (HF : flat (new_base (gs_of h))) by (split; reflexivity).
  destruct (flat_source _ HF) as (S1 & S2 & S3).
  destruct (base_copy_spec b (new_base (gs_of h)) 0 8 0 8 HM S1 S2) as (b1 & n1 & E1 & M1 & DR & C1); try lia.
  { right. apply Forall_forall. intros d Hd. unfold straddles.
    destruct HM as [_ HM]. rewrite Forall_forall in HM. pose proof (HM d Hd). replace (d_off d <? 0) with false by lia. reflexivity. }
  assert (N8 : n1 = 8).
  { destruct DR as (D1 & D2 & [D3|D3]); [exact D3|]. destruct (Z.eq_dec n1 8) as [|Ne]; [auto|]. exfalso.
    rewrite S3 in D3. unfold img_bytes in D3. cbn [new_base b_bytes gs_of sl_data] in D3.
    destruct (zget_some h (0 + n1)) as [x Hx]; [lia|]. congruence. }
  subst n1.
  assert (C : forall q, 0 <= q -> content b1 (q + 8) = content b q).
  { intros q Hq. rewrite C1 by lia. replace ((0 <=? q + 8) && (q + 8 <? 0 + 8)) with false by lia.
    replace (q + 8 <? 0) with false by lia. f_equal. lia. }
  assert (CH : forall q, 0 <= q < 8 -> content b1 q = zget h q).
  { intros q Hq. rewrite C1 by lia. replace ((0 <=? q) && (q <? 0 + 8)) with true by lia.
    rewrite S3. unfold img_bytes. cbn [new_base b_bytes gs_of sl_data]. f_equal. lia. }
  destruct (flatten_spec b1 M1) as (l' & E & _). destruct (flatten_keeps b1 _ M1 E) as (F1 & F2 & F3).
  set (b' := mkBase (gs_of l') nil nil (b_check b1) (b_seek b1)) in *. set (m' := img_bytes (sl_data (b_bytes b'))) in *.
  set (R := reach (Tab name p fs)) in *. set (W := window (content b) 0 R).
  assert (RB1 : p + 4 <= R) by (unfold R; cbn [reach]; exact (proj1 (proj1 (fold_max_le (map reach fs) (p + 4) _) (Z.le_refl _)))).
  assert (HW : forall q x, W q = Some x -> 0 <= q + 8 /\ m' (q + 8) = Some x).
  { intros q x Hq. apply window_some in Hq as [R1 R2]. split; [lia|]. apply F3; [|lia]. rewrite C by lia. exact R2. }
  destruct (FI W) as [T A].
  { intros q x Hq Hx. unfold W, window. replace ((0 <=? q) && (q <? R)) with true by lia. exact Hx. }
  assert (P0 : forall q x, W q = Some x -> 0 <= q) by (intros q x Hq; apply window_some in Hq; lia).
  destruct (proj1 (stored_shift W m' W s 8 HW (fun _ _ H => H)) _ _ _ T) as [T1 T2].
  pose proof (proj1 (reach_shift W m' W s 8 HW (fun _ _ H => H) P0) _ _ _ T eq_refl) as RS. fold R in RS.
  exists k, b, b1, b', (map (shift 8) fs). cbv zeta. fold p. cbn [shift] in *.
  split; [exact K|]. split.
  { unfold with_header. rewrite IR. cbn [bind]. fold h. rewrite E1. reflexivity. }
  split; [exact E|]. split; [exact F1|]. split; [unfold zlen; rewrite map_length; exact LF|].
  split.
  { rewrite RS, F2. assert (X : content b1 (R - 1 + 8) <> None) by (rewrite C by lia; exact LA).
    apply (content_last b1 _ M1) in X. lia. }
  split.
  { assert (U : u32 (p + 8) = p + 8) by (unfold u32; apply Z.mod_small; change (2 ^ 32) with 4294967296; lia).
    apply holds_uint_encode; [|change (256 ^ Z.of_nat 4) with 4294967296; lia].
    intros j Hj. rewrite <- U. assert (Z0 : zget h j = zget (le_encode 4 (u32 (p + 8))) j).
    { unfold h. rewrite zget_app, zlen_le_encode. replace (j <? Z.of_nat 4) with true by lia. reflexivity. }
    rewrite <- Z0. destruct (zget_some h j) as [x Hx]; [lia|]. rewrite Hx. apply F3; [|lia].
    rewrite CH by lia. replace (0 + j) with j by lia. exact Hx. }
  split; [exact T1|].
  intros i t w Ht Hw. rewrite zget_map in Hw. destruct (zget fs i) as [w0|] eqn:E0; [|discriminate].
  cbn [option_map] in Hw. assert (w = shift 8 w0) by congruence. subst w.
  apply (assigned_shift W); [apply A with (i := i); auto|].
  inversion T2 as [| | | | |nm p1 q1 gs1 gs2 F|]; subst. fold m'. clearbody W m'. clear - F E0.
  revert i E0. induction fs as [|f fs IH]; intros i E0; [rewrite zget_nil in E0; discriminate|].
  cbn [map] in F. inversion F; subst. rewrite zget_cons in E0. destruct (i =? 0).
  - assert (f = w0) by congruence. subst f. assumption.
  - eapply IH; eauto.
Qed.

End Table.
