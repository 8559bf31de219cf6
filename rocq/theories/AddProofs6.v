(** Joining vectors of elements stored inline. *)
From Coq Require Import ZArith List Bool Lia.
From Coq Require Import Strings.Byte.
From Verif Require Import GoLib BaseModel GoLemmas BaseSpec BaseProofs BaseProofs2 BaseProofs3.
From Verif Require Import TableModel TableSpec TableProofs TableProofs2 ListModel ListSpec.
From Verif Require Import ListProofs ListProofs2 ListProofs3 ListProofs4 ListProofs5.
From Verif Require Import AddModel AddSpec AddProofs AddProofs2.
Import ListNotations.
Open Scope Z_scope.

Lemma vlen_total_npos : forall k l l1, vlen_total k l = Ok (Some l1) -> l_npos l1 = l_npos l.
Proof.
  intros k l l1 H. unfold vlen_total in H. destruct (_ || _).
  - destruct (info_slice k l) as [[[[p n] s]|]| |]; cbn [bind option_map] in H; try discriminate.
    assert (l1 = (if l_vlen (set_info l (p, n, s)) =? 0 then mkL (l_io (set_info l (p, n, s))) (l_npos (set_info l (p, n, s))) (l_pos (set_info l (p, n, s))) 0 0 else set_info l (p, n, s))) by congruence.
    subst l1. destruct (_ =? 0); reflexivity.
  - cbn [bind] in H. assert (l1 = if l_vlen l =? 0 then mkL (l_io l) (l_npos l) (l_pos l) 0 0 else l) by congruence.
    subst l1. destruct (_ =? 0); reflexivity.
Qed.

Lemma refresh_npos : forall k l l1, refresh k l = Ok (LOk l1) -> l_npos l1 = l_npos l.
Proof.
  intros k l l1 H. unfold refresh in H. destruct (info_slice k l) as [[[[p n] s]|]| |]; cbn [bind] in H; try discriminate.
  assert (l1 = set_info l (p, n, s)) by congruence. subst l1. reflexivity.
Qed.

Lemma set_struct_npos : forall k l i src sp size l', set_struct_at k l i src sp size = Ok (LOk l') -> l_npos l' = l_npos l.
Proof.
  intros k l i src sp size l' H. unfold set_struct_at in H. destruct (l_vlen l <? i); [discriminate|].
  destruct (vlen_total k l) as [[l1|]| |] eqn:E; cbn [bind] in H; try discriminate.
  apply vlen_total_npos in E. destruct (base_copy _ _ _ _ _ _) as [b| |]; cbn [bind] in H; try discriminate.
  match type of H with bind ?x _ = _ => destruct x as [b2| |] end; cbn [bind] in H; try discriminate.
  apply refresh_npos in H. rewrite H. exact E.
Qed.

Section Fixed.
Variables (k : ekind) (size : Z).
Hypothesis HS : fixed_size k = Some size.
Hypothesis Hsize : 1 <= size.

Lemma store_end : forall (vals : list (list byte)) p, store vals (zlen vals) p = vals ++ [p].
Proof. intros. unfold store. replace (zlen vals =? zlen vals) with true by lia. reflexivity. Qed.

Lemma add_loop : forall src ws ps l vals, finv size l vals -> l_npos l < 8 ->
  zlen ps = zlen ws -> (forall i p w, zget ps i = Some p -> zget ws i = Some w -> zlen w = size /\ delivers src p w) ->
  zlen vals + zlen ws < 4294967296 ->
  exists l', add_struct_loop k size l src ps = Ok (LOk l') /\ finv size l' (vals ++ ws) /\ l_npos l' < 8.
Proof.
  induction ws as [|w ws IH]; intros ps l vals I HN HL HD HM.
  - destruct ps as [|p ps]; [|rewrite zlen_cons, zlen_nil in HL; pose proof (zlen_nonneg ps); lia].
    exists l. rewrite app_nil_r. auto.
  - destruct ps as [|p ps]; [rewrite zlen_cons, zlen_nil in HL; pose proof (zlen_nonneg ws); lia|].
    rewrite !zlen_cons in *. cbn [add_struct_loop].
    rewrite (finv_count size l vals I). cbn [bind].
    destruct (HD 0 p w eq_refl eq_refl) as [LW DW]. pose proof (zlen_nonneg vals). pose proof (zlen_nonneg ws).
    destruct (finv_step k size HS Hsize l vals (zlen vals) src p w I ltac:(lia) DW LW ltac:(lia)) as (l1 & E & I1).
    rewrite E. cbn [bind]. rewrite store_end in I1.
    destruct (IH ps l1 (vals ++ [w]) I1) as (l2 & E2 & I2 & N2).
    + rewrite (set_struct_npos _ _ _ _ _ _ _ E). exact HN.
    + lia.
    + intros i q v Hq Hv. apply (HD (i + 1)).
      * rewrite zget_cons. pose proof (zget_some_range _ _ _ Hq). replace (i + 1 =? 0) with false by lia.
        rewrite <- Hq. f_equal. lia.
      * rewrite zget_cons. pose proof (zget_some_range _ _ _ Hv). replace (i + 1 =? 0) with false by lia.
        rewrite <- Hv. f_equal. lia.
    + rewrite zlen_app. change (zlen [w]) with 1. lia.
    + exists l2. split; [exact E2|]. rewrite <- app_assoc in I2. split; [exact I2|exact N2].
Qed.

Lemma fixed_root : forall l vals, finv size l vals -> l_npos l < 8 -> in_root (l_io l) (l_npos l) = Ok false.
Proof.
  intros l vals I HN. apply (in_root_outside (l_io l) (le_encode 4 (zlen vals))); auto.
  - apply (fi_mem _ _ _ I).
  - rewrite zlen_le_encode. lia.
  - apply (fi_count _ _ _ I).
Qed.

Lemma fixed_has : forall l vals, finv size l vals ->
  has_elements k l (map (fun i => 4 + i * size) (zseq (zlen vals))).
Proof.
  intros l vals I. pose proof (finv_count size l vals I) as HV. pose proof (zlen_nonneg vals).
  split; [rewrite HV, zlen_map, zlen_zseq by lia; reflexivity|].
  intros i e He. pose proof (zget_some_range _ _ _ He) as R. rewrite zlen_map, zlen_zseq in R by lia.
  rewrite zget_map, zget_zseq in He by lia. cbn [option_map] in He. assert (e = 4 + i * size) by congruence. subst e.
  rewrite (at_fixed k l _ size i HV HS R), (fi_pos _ _ _ I). reflexivity.
Qed.

Lemma fixed_add : forall l a vals ws, finv size l vals -> l_npos l < 8 -> finv size a ws -> ws <> nil ->
  zlen vals + zlen ws < 4294967296 ->
  exists l', list_add k false l a = Ok (AOk l' a) /\ finv size l' (vals ++ ws) /\ l_npos l' < 8.
Proof.
  intros l a vals ws I HN IA NW HM. unfold list_add. rewrite (fixed_root l vals I HN). cbn [bind].
  pose proof (finv_count size a ws IA) as HV. unfold list_first.
  assert (1 <= zlen ws). { destruct ws; [congruence|]. rewrite zlen_cons. pose proof (zlen_nonneg ws). lia. }
  rewrite (at_fixed k a _ size 0 HV HS ltac:(lia)). cbn [bind].
  destruct (queries k a _ (fun _ => true) (fixed_has a ws IA)) as (_ & _ & HA).
  { rewrite zlen_map, zlen_zseq by lia. apply (fi_vlen _ _ _ IA). }
  destruct (add_loop (l_io a) ws (map (fun i => 4 + i * size) (zseq (zlen ws))) l vals I HN) as (l' & E & I' & N').
  { rewrite zlen_map, zlen_zseq by lia. reflexivity. }
  { intros i p w Hp Hw. pose proof (zget_some_range _ _ _ Hw). rewrite zget_map, zget_zseq in Hp by lia.
    cbn [option_map] in Hp. assert (p = 4 + i * size) by congruence. subst p. apply (fi_cells _ _ _ IA i w Hw). }
  { exact HM. }
  exists l'. split; [|auto].
  destruct k as [m|m|ks]; cbn in HS; try discriminate; assert (m = size) by congruence; subst m;
    rewrite HA; cbn [bind]; rewrite E; reflexivity.
Qed.

Lemma fixed_add_empty : forall l a vals, finv size l vals -> l_npos l < 8 -> finv size a nil ->
  list_add k false l a = Ok AErr.
Proof.
  intros l a vals I HN IA. unfold list_add. rewrite (fixed_root l vals I HN). cbn [bind].
  pose proof (finv_count size a nil IA) as HV. unfold list_first.
  rewrite (at_outside k a _ 0 HV) by (right; change (zlen []) with 0; lia). reflexivity.
Qed.

Lemma built_fixed_inv : forall l vals, built_fixed k size l vals -> finv size l vals /\ l_npos l < 8.
Proof.
  induction 1 as [|l vals i src sp p l' _ [I N] Hi HD HL HM E|l vals a ws l' a' _ [I N] _ [I2 N2] HM E].
  - split; [apply finv_init|reflexivity].
  - destruct (finv_step k size HS Hsize l vals i src sp p I Hi HD HL HM) as (l2 & E2 & I2).
    assert (ES : set_at k l i src sp (-1) = Ok (LOk l2)).
    { unfold set_at. change (-1 <=? 0) with true. destruct k as [m|m|ks]; cbn in HS; try discriminate;
        assert (m = size) by congruence; subst m; exact E2. }
    rewrite E in ES. assert (l2 = l') by congruence. subst l2. split; [exact I2|].
    rewrite (set_struct_npos _ _ _ _ _ _ _ E2). exact N.
  - destruct ws as [|w ws].
    + rewrite (fixed_add_empty l a vals I N I2) in E. discriminate.
    + destruct (fixed_add l a vals (w :: ws) I N I2 ltac:(discriminate) HM) as (l2 & E2 & I3 & N3).
      rewrite E in E2. assert (l2 = l') by congruence. subst l2. auto.
Qed.

Lemma built_fixed_shows : forall l vals, built_fixed k size l vals ->
  list_vlen l = Ok (zlen vals) /\ forall i, read_elem k l i size = Ok (zget vals i).
Proof.
  intros l vals H. destruct (built_fixed_inv l vals H) as [I _]. split; [apply (finv_count size); exact I|].
  intros i. apply finv_read; auto.
Qed.

Lemma built_fixed_add : forall l a vals ws, built_fixed k size l vals -> built_fixed k size a ws -> ws <> nil ->
  zlen vals + zlen ws < 2 ^ 32 ->
  exists l', list_add k false l a = Ok (AOk l' a) /\ built_fixed k size l' (vals ++ ws) /\
    list_vlen l' = Ok (zlen vals + zlen ws) /\ forall i, read_elem k l' i size = Ok (zget (vals ++ ws) i).
Proof.
  intros l a vals ws H1 H2 NW HM. destruct (built_fixed_inv l vals H1) as [I1 N1], (built_fixed_inv a ws H2) as [I2 N2].
  destruct (fixed_add l a vals ws I1 N1 I2 NW HM) as (l' & E & I & N). exists l'. split; [exact E|].
  split; [eapply F_add; eauto|]. split; [rewrite <- zlen_app; apply (finv_count size); exact I|].
  intros i. apply finv_read; auto.
Qed.
End Fixed.
