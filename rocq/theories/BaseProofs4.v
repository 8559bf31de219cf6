(** Lemmas about histories: buffer length and sequential writes. *)
From Coq Require Import ZArith List Bool Lia.
From Coq Require Import ZifyBool ZifyNat.
From Coq Require Import Strings.Byte.
From Verif Require Import GoLib GoLemmas BaseModel BaseSpec BaseProofs BaseProofs2 BaseProofs3.
Import ListNotations.
Open Scope Z_scope.
Ltac Zify.zify_post_hook ::= Z.div_mod_to_equations.

Notation no_empty := (Forall (fun d => 0 < d_len d)).

Lemma zlen_pos : forall A (l : list A), l <> nil -> 0 < zlen l.
Proof. intros A [|x l] H; [congruence|]. rewrite zlen_cons. pose proof (zlen_nonneg l). lia. Qed.

Lemma base_d_no_empty : forall b off size nb b', in_memory b -> 0 <= off -> 0 < size ->
  gs_len nb = size -> no_empty (b_diffs b) -> base_d b off size nb = Ok b' -> no_empty (b_diffs b').
Proof.
  intros b off size nb b' Hb Ho Hs Hn HN E. unfold base_d in E.
  destruct (last_index (covers off) (b_diffs b)) as [sn|] eqn:L.
  - apply last_index_some in L as (l1 & d & l2 & EL & <- & C & _). apply covers_iff in C.
    rewrite EL in *. rewrite nth_error_mid in E.
    destruct (d_off d + d_len d <=? off + size) eqn:C1.
    + injection E as <-. cbn. apply Forall_app; split; auto. constructor; [unfold d_len; cbn; lia|constructor].
    + rewrite gs_from_ok in E by (unfold d_len in *; lia). cbn [bind] in E.
      unfold gs_upto in E. pose proof (gs_cap_ge (d_sl d)). rewrite gs_range_ok in E by (unfold d_len in *; lia).
      cbn [bind] in E. rewrite firstn_mid, skipn_mid_S in E. injection E as <-. cbn [set_diffs b_diffs].
      apply Forall_app in HN as [HN1 HN2]. inversion HN2 as [|? ? HN3 HN4]; subst.
      match goal with |- Forall _ (diffs_insert ?a ?n ?c ++ _) =>
        assert (X : no_empty (diffs_insert a n c)) end.
      { unfold diffs_insert. match goal with |- context [(?x <? ?y)%nat] => destruct (x <? y)%nat end.
        - apply Forall_app; split; auto. constructor; auto.
          unfold d_len, gs_len in *; cbn [d_sl sl_data]. rewrite zskip_0, zlen_zfirst, zlen_app.
          pose proof (zlen_nonneg (sl_spare (d_sl d))). lia.
        - match goal with |- context [?l1 ++ ?x :: ?l2] =>
            assert (Y : no_empty (l1 ++ x :: l2)) end.
          { apply Forall_app; split; auto. constructor; auto.
            unfold d_len, gs_len in *; cbn [d_sl sl_data]. rewrite zskip_0, zlen_zfirst, zlen_app.
            pose proof (zlen_nonneg (sl_spare (d_sl d))). lia. }
          apply Forall_app; split; [|apply Forall_app; split].
          + eapply incl_Forall; [|exact Y]. intros x Hx. rewrite <- (firstn_skipn (S (length l1))). apply in_app_iff. left; exact Hx.
          + constructor; [|constructor]. unfold d_len, gs_len in *; cbn [d_sl sl_data]. rewrite zlen_zskip. lia.
          + eapply incl_Forall; [|exact Y]. intros x Hx. rewrite <- (firstn_skipn (S (length l1))). apply in_app_iff. right; exact Hx. }
      apply Forall_app; split; auto.
  - destruct ((off <? gs_len (b_bytes b)) && (off + size <? gs_cap (b_bytes b))) eqn:C.
    + rewrite gs_range_ok in E by lia. cbn [bind] in E. injection E as <-. cbn.
      apply Forall_app; split; auto. constructor; [|constructor; [unfold d_len; cbn; lia|constructor]].
      unfold d_len, gs_len, gs_cap in *; cbn [d_sl sl_data]. rewrite zlen_zskip, zlen_zfirst, zlen_app. lia.
    + injection E as <-. cbn. apply Forall_app; split; auto. constructor; [unfold d_len; cbn; lia|constructor].
Qed.

Lemma run_wop_no_empty : forall b o b', in_memory b -> wop_ok o -> wop_nonempty o ->
  no_empty (b_diffs b) -> run_wop b o = Ok b' -> no_empty (b_diffs b').
Proof.
  intros b o b' Hb Hok Hne HN E. destruct o as [off p|p|off p]; cbn in Hok, Hne, E.
  - injection E as <-. cbn. apply Forall_app; split; auto. constructor; [apply zlen_pos; auto|constructor].
  - injection E as <-. cbn. apply Forall_app; split; auto. constructor; [apply zlen_pos; auto|constructor].
  - apply zlen_pos in Hne. unfold base_u in E.
    destruct (zlen p <? 0) eqn:E1; [lia|]. destruct (zlen p <? zlen p) eqn:E2; [lia|].
    eapply base_d_no_empty in E; eauto. rewrite gs_len_of, zlen_copy_at; rewrite zlen_zeros; lia.
Qed.

Lemma run_wop_in_memory : forall b o b', in_memory b -> wop_ok o -> 0 <= b_seek b ->
  run_wop b o = Ok b' -> in_memory b' /\ 0 <= b_seek b'.
Proof.
  intros b o b' Hb Hok Hk E.
  assert (F : Forall wop_ok [o]) by (constructor; auto).
  destruct (run_wops_spec [o] b Hb F Hk) as (b2 & R & I & _ & K & _). cbn [run_wops] in R.
  rewrite E in R. cbn in R. injection R as <-. split; [exact I|]. rewrite K.
  destruct o as [off p|p|off p]; cbn; auto. pose proof (zlen_nonneg p). lia.
Qed.

Lemma run_wops_no_empty : forall os b b', in_memory b -> 0 <= b_seek b ->
  Forall wop_ok os -> Forall wop_nonempty os ->
  no_empty (b_diffs b) -> run_wops b os = Ok b' -> no_empty (b_diffs b') /\ in_memory b'.
Proof.
  induction os as [|o os IH]; intros b b' Hb Hk Hok Hne HN E; cbn in E.
  - injection E as <-. auto.
  - inversion Hok as [|? ? O1 O2]; inversion Hne as [|? ? N1 N2]; subst. destruct (run_wop b o) as [b1| |] eqn:R; try discriminate.
    cbn in E. destruct (run_wop_in_memory _ _ _ Hb O1 Hk R) as [I1 K1].
    apply (IH b1 b' I1 K1 O2 N2); auto. exact (run_wop_no_empty b o b1 Hb O1 N1 HN R).
Qed.

Lemma img_len_ext : forall m m' n, (forall i, 0 <= i -> m i = m' i) -> img_len m n -> img_len m' n.
Proof.
  intros m m' n H (A & B & C). split; [auto|]. split.
  - intros i Hi. rewrite <- H by lia. auto.
  - destruct C as [C|C]; [auto|]. destruct (Z.eq_dec n 0); [auto|right]. rewrite <- H by lia. auto.
Qed.

Lemma history_len : forall init os b, Forall wop_ok os -> Forall wop_nonempty os ->
  run_wops (new_base init) os = Ok b ->
  img_len (spec_wops (img_bytes (sl_data init)) os) (len_buf b).
Proof.
  intros init os b Hok Hne E.
  destruct (run_wops_no_empty os (new_base init) b (in_memory_new init) ltac:(cbn; lia) Hok Hne
              (Forall_nil _) E) as [HN HI].
  destruct (history_shows init os Hok) as (b2 & E2 & HS). rewrite E in E2. injection E2 as <-.
  eapply img_len_ext; [|apply len_buf_least; auto].
  intros i Hi. apply (shows_unique b); auto using shows_content.
Qed.

(** ** Sequential writes *)

Lemma seq_writes_fold : forall ps l m, (forall i, m i = img_bytes l i) ->
  snd (fold_left spec_wop (map OpWrite ps) (m, zlen l)) = zlen (l ++ concat ps) /\
  forall i, fst (fold_left spec_wop (map OpWrite ps) (m, zlen l)) i = img_bytes (l ++ concat ps) i.
Proof.
  induction ps as [|p ps IH]; intros l m H; cbn [map fold_left concat].
  - rewrite app_nil_r. cbn. auto.
  - cbn [spec_wop]. rewrite <- zlen_app, app_assoc. apply IH.
    intros i. unfold img_write, img_bytes. rewrite zget_app. rewrite H. unfold img_bytes.
    pose proof (zlen_nonneg l). pose proof (zlen_nonneg p).
    destruct ((zlen l <=? i) && (i <? zlen l + zlen p)) eqn:C.
    + destruct (i <? zlen l) eqn:D; [lia|reflexivity].
    + destruct (i <? zlen l) eqn:D; [reflexivity|]. rewrite !zget_ge by lia. reflexivity.
Qed.

Lemma seq_writes : forall ps, exists b,
  run_wops (new_base (gs_of nil)) (map OpWrite ps) = Ok b /\
  shows b (img_bytes (concat ps)) /\ b_seek b = zlen (concat ps).
Proof.
  intros ps.
  assert (Hok : Forall wop_ok (map OpWrite ps)).
  { apply Forall_forall. intros x Hx. apply in_map_iff in Hx as (p & <- & _). exact I. }
  destruct (run_wops_spec (map OpWrite ps) (new_base (gs_of nil)) (in_memory_new _) Hok ltac:(cbn; lia))
    as (b & E & HI & _ & K & C).
  destruct (seq_writes_fold ps nil (content (new_base (gs_of nil))) (fun i => eq_refl)) as [F1 F2].
  change (b_seek (new_base (gs_of nil))) with (zlen (@nil byte)) in *.
  exists b. split; [exact E|]. split; [|rewrite K; exact F1].
  intros i Hi. rewrite peek_content by auto. f_equal. rewrite C. apply F2.
Qed.

Lemma run_wops_seek_len : forall ps b, in_memory b -> 0 <= b_seek b ->
  len_buf b = b_seek b ->
  exists b', run_wops b (map OpWrite ps) = Ok b' /\ in_memory b' /\
    len_buf b' = b_seek b + zlen (concat ps).
Proof.
  induction ps as [|p ps IH]; intros b Hb Hk HL; cbn [map run_wops concat].
  - exists b. split; [reflexivity|]. split; [auto|]. rewrite HL. cbn. lia.
  - cbn [run_wop bind]. pose proof (zlen_nonneg p).
    destruct (run_wop_in_memory b (OpWrite p) (fst (base_write b p)) Hb I Hk eq_refl) as [I1 K1].
    assert (X : b_seek (fst (base_write b p)) = b_seek b + zlen p) by reflexivity.
    assert (Y : len_buf (fst (base_write b p)) = b_seek b + zlen p).
    { unfold base_write. pose proof (len_buf_write_at b p (b_seek b) Hb) as W.
      unfold write_at in *; cbn [fst] in *. unfold len_buf in *; cbn [set_seek b_diffs b_rdiffs b_bytes] in *.
      rewrite W. lia. }
    destruct (IH (fst (base_write b p)) I1 K1 ltac:(lia)) as (b' & E & I' & L').
    exists b'. split; [exact E|]. split; [exact I'|]. rewrite L', X, zlen_app. lia.
Qed.

Lemma seq_writes_flat : forall ps, exists b b',
  run_wops (new_base (gs_of nil)) (map OpWrite ps) = Ok b /\ base_flatten b = Ok b' /\
  sl_data (b_bytes b') = concat ps /\ b_diffs b' = nil.
Proof.
  intros ps. destruct (run_wops_seek_len ps (new_base (gs_of nil)) (in_memory_new _) ltac:(cbn; lia) eq_refl)
    as (b & E & I & L). cbn [new_base b_seek] in L.
  destruct (seq_writes ps) as (b1 & E1 & S1 & _). rewrite E in E1. injection E1 as <-.
  destruct (flatten_spec b I) as (l & F1 & F2 & F3).
  exists b. eexists. split; [exact E|]. split; [exact F1|]. split; [|reflexivity].
  cbn [b_bytes gs_of sl_data]. apply zget_ext. intros i. rewrite F3. unfold img_fill.
  destruct ((0 <=? i) && (i <? len_buf b)) eqn:C.
  - rewrite (shows_unique b _ _ (shows_content b I) S1 i) by lia. unfold img_bytes.
    destruct (zget_some (concat ps) i) as [x ->]; [lia|reflexivity].
  - destruct (Z_lt_dec i 0); [rewrite zget_neg by lia|rewrite zget_ge by lia]; reflexivity.
Qed.
