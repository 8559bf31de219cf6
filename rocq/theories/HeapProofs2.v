(** The operations of BaseImpl on shared arrays are the operations by value. *)
From Coq Require Import ZArith List Bool Lia.
From Coq Require Import Strings.Byte.
From Verif Require Import GoLib GoLemmas BaseModel BaseSpec BaseProofs HeapModel HeapSpec HeapProofs.
Import ListNotations.
Open Scope Z_scope.

Lemma copy_at_nil : forall l a, 0 <= a <= zlen l -> copy_at l a [] = l.
Proof.
  intros l a H. apply zget_ext. intros i. rewrite zget_copy_at by auto.
  rewrite zlen_nil. zif; try reflexivity; lia.
Qed.

Lemma put_last : forall h l o n c p, 0 <= o <= zlen l ->
  h_put (h ++ [l]) (mkHsl (length h) o n c) p = h ++ [copy_at l o (zfirst n p)].
Proof.
  intros h l o n c p Ho. unfold h_put. cbn [a_len a_id a_off].
  assert (A : array (h ++ [l]) (mkHsl (length h) o n c) = l).
  { unfold array. cbn [a_id]. rewrite app_nth2, Nat.sub_diag by lia. reflexivity. }
  rewrite A. destruct (Z.eqb_spec (zlen (zfirst n p)) 0) as [E|E].
  - assert (Q : zfirst n p = []).
    { destruct (zfirst n p); [reflexivity|]. rewrite zlen_cons in E. pose proof (zlen_nonneg l0). lia. }
    rewrite Q, copy_at_nil by auto. reflexivity.
  - rewrite firstn_mid. rewrite skipn_mid_S. reflexivity.
Qed.

Lemma array_last : forall h l o n c, array (h ++ [l]) (mkHsl (length h) o n c) = l.
Proof.
  intros. unfold array. cbn [a_id]. rewrite app_nth2, Nat.sub_diag by lia. reflexivity.
Qed.

Lemma extends_last : forall h l, extends h (h ++ [l]).
Proof. intros. exists [l]. reflexivity. Qed.

(** A window over the whole of the last array. *)
Lemma view_last : forall h l, 0 <= zlen l ->
  wf_sl (h ++ [l]) (mkHsl (length h) 0 (zlen l) (zlen l)) /\
  view (h ++ [l]) (mkHsl (length h) 0 (zlen l) (zlen l)) = gs_of l.
Proof.
  intros h l H. destruct (h_new_spec h l (zlen l) (h ++ [l]) (mkHsl (length h) 0 (zlen l) (zlen l))) as (_ & W & V).
  - lia.
  - reflexivity.
  - split; [exact W|]. rewrite V. rewrite zfirst_all by lia.
    unfold gs_of. f_equal. apply zget_ext. intros i. rewrite zget_zskip by lia. rewrite zget_nil.
    destruct (Z.ltb_spec i 0); [reflexivity|]. apply zget_ge. lia.
Qed.

Lemma Forall_app2 : forall A (P : A -> Prop) l l', Forall P l -> Forall P l' -> Forall P (l ++ l').
Proof. intros. apply Forall_app. auto. Qed.

Lemma Forall_firstn : forall A (P : A -> Prop) n l, Forall P l -> Forall P (firstn n l).
Proof.
  intros A P n l H. rewrite Forall_forall in *. intros x Hx. apply H.
  rewrite <- (firstn_skipn n l). apply in_app_iff. auto.
Qed.

Lemma Forall_skipn : forall A (P : A -> Prop) n l, Forall P l -> Forall P (skipn n l).
Proof.
  intros A P n l H. rewrite Forall_forall in *. intros x Hx. apply H.
  rewrite <- (firstn_skipn n l). apply in_app_iff. auto.
Qed.

Lemma hinsert_view : forall h ds n ads,
  diffs_insert (map (view_diff h) ds) n (map (view_diff h) ads) = map (view_diff h) (hdiffs_insert ds n ads).
Proof.
  intros. unfold diffs_insert, hdiffs_insert. rewrite map_length.
  destruct (length ds <? n)%nat; [reflexivity|]. rewrite !map_app, firstn_map, skipn_map. reflexivity.
Qed.

Lemma hinsert_wf : forall (P : hdiff -> Prop) ds n ads, Forall P ds -> Forall P ads ->
  Forall P (hdiffs_insert ds n ads).
Proof.
  intros. unfold hdiffs_insert. destruct (length ds <? n)%nat; [auto|].
  apply Forall_app2; [apply Forall_firstn; auto|]. apply Forall_app2; [auto|apply Forall_skipn; auto].
Qed.

Lemma hb_d_view : forall h b off size nb, wf h b -> wf_sl h nb ->
  base_d (view_base h b) off size (view h nb) = res_map (view_base h) (hb_d b off size nb) /\
  (forall b', hb_d b off size nb = Ok b' -> wf h b').
Proof.
  intros h b off size nb W N. destruct W as (W1 & W2 & W3).
  assert (SET : forall ds, Forall (fun d => wf_sl h (hd_sl d)) ds -> wf h (hset_diffs b ds)).
  { intros ds F. split; [exact W1|]. split; [exact F|exact W3]. }
  assert (NB : wf_sl h (hd_sl (mkHdiff off nb))) by exact N.
  unfold base_d, hb_d. cbn [view_base b_diffs b_bytes].
  pose proof W2 as W2'. rewrite Forall_forall in W2'.
  rewrite (last_index_map _ _ (view_diff h) (covers off) (hcovers off)).
  2:{ intros d Hd. unfold covers, hcovers. rewrite d_len_view by auto. reflexivity. }
  rewrite view_len, view_cap by auto.
  destruct (last_index (hcovers off) (hb_diffs b)) as [n|] eqn:L.
  - rewrite nth_error_map. destruct (nth_error (hb_diffs b) n) as [d|] eqn:E; cbn [option_map].
    2:{ split; [reflexivity|]. intros; discriminate. }
    pose proof (W2' d (nth_error_In _ _ E)) as Wd.
    rewrite d_len_view by auto. cbn [view_diff d_off d_sl].
    destruct (hd_off d + a_len (hd_sl d) <=? off + size).
    + cbn [res_map]. split.
      * unfold view_base, set_diffs, hset_diffs. cbn. rewrite map_app. reflexivity.
      * intros b' H. injection H as <-. apply SET. apply Forall_app2; auto.
    + rewrite bind_from by auto.
      destruct (hs_from (hd_sl d) (off - hd_off d + size)) as [t| |] eqn:F; cbn [bind res_map];
        try (split; [reflexivity|intros; discriminate]).
      unfold gs_upto, hs_upto. rewrite bind_range by auto.
      destruct (hs_range (hd_sl d) 0 (off + size - hd_off d)) as [u| |] eqn:G; cbn [bind res_map];
        try (split; [reflexivity|intros; discriminate]).
      assert (Wt : wf_sl h t) by exact (hs_from_wf _ _ _ _ Wd F).
      assert (Wu : wf_sl h u) by exact (hs_range_wf _ _ _ _ _ Wd G).
      split.
      * unfold view_base, set_diffs, hset_diffs. cbn [hb_bytes hb_rdiffs hb_diffs hb_check hb_seek b_bytes b_rdiffs b_check b_seek].
        do 2 f_equal. rewrite map_app, <- hinsert_view. cbn [map]. f_equal.
        rewrite map_app, firstn_map. cbn [map]. rewrite skipn_map. reflexivity.
      * intros b' H. injection H as <-. apply SET. apply Forall_app2; [|auto].
        apply hinsert_wf; [|constructor; [exact Wt|constructor]].
        apply Forall_app2; [apply Forall_firstn; auto|].
        constructor; [exact Wu|apply (Forall_skipn _ _ (S n)); auto].
  - destruct ((off <? a_len (hb_bytes b)) && (off + size <? a_cap (hb_bytes b))).
    + rewrite bind_range by auto.
      destruct (hs_range (hb_bytes b) off (off + size)) as [u| |] eqn:G; cbn [bind res_map];
        try (split; [reflexivity|intros; discriminate]).
      split.
      * unfold view_base, set_diffs, hset_diffs. cbn. rewrite map_app. reflexivity.
      * intros b' H. injection H as <-. apply SET. apply Forall_app2; [auto|].
        constructor; [exact (hs_range_wf _ _ _ _ _ W1 G)|auto].
    + cbn [res_map]. split.
      * unfold view_base, set_diffs, hset_diffs. cbn. rewrite map_app. reflexivity.
      * intros b' H. injection H as <-. apply SET. apply Forall_app2; auto.
Qed.

(** [view_base] only looks at the arrays of the windows. *)
Lemma hb_u_view : forall h b off size p, wf h b ->
  match hb_u h b off size p with
  | Ok (h', b') => base_u (view_base h b) off size p = Ok (view_base h' b') /\ extends h h' /\ wf h' b'
  | Panic => base_u (view_base h b) off size p = Panic
  | OutOfFuel => False
  end.
Proof.
  intros h b off size p W. unfold hb_u, base_u.
  destruct (Z.ltb_spec size 0); [reflexivity|].
  destruct (Z.ltb_spec size (zlen p)); [reflexivity|].
  unfold h_new. assert (ZZ : zlen (zeros size) = size) by (rewrite zlen_zeros; lia). rewrite ZZ.
  set (s := mkHsl (length h) 0 size size).
  set (l := copy_at (zeros size) 0 p).
  assert (LL : zlen l = size) by (unfold l; rewrite zlen_copy_at; lia).
  assert (PUT : h_put (h ++ [zeros size]) s p = h ++ [l]).
  { unfold s. rewrite put_last by lia. rewrite zfirst_all by lia. reflexivity. }
  assert (VS : wf_sl (h ++ [l]) s /\ view (h ++ [l]) s = gs_of l).
  { pose proof (view_last h l ltac:(lia)) as VL. rewrite LL in VL. exact VL. }
  destruct VS as [WS VS].
  destruct (view_base_extends h (h ++ [l]) b (extends_last h l) W) as [VB WB].
  destruct (hb_d_view (h ++ [l]) b off size s WB WS) as [D1 D2].
  rewrite VS, VB in D1. rewrite D1.
  destruct (hb_d b off size s) as [b'| |] eqn:E; cbn [bind res_map].
  - rewrite PUT. split; [reflexivity|]. split; [apply extends_last|]. auto.
  - reflexivity.
  - unfold hb_d in E. destruct (last_index (hcovers off) (hb_diffs b)).
    + destruct (nth_error (hb_diffs b) n); [|discriminate].
      destruct (hd_off h0 + a_len (hd_sl h0) <=? off + size); [discriminate|].
      unfold hs_from, hs_upto, hs_range in E.
      destruct ((0 <=? off - hd_off h0 + size) && (off - hd_off h0 + size <=? a_len (hd_sl h0))); [|discriminate].
      cbn [bind] in E.
      destruct ((0 <=? 0) && (0 <=? off + size - hd_off h0) && (off + size - hd_off h0 <=? a_cap (hd_sl h0))); discriminate.
    + destruct ((off <? a_len (hb_bytes b)) && (off + size <? a_cap (hb_bytes b))); [|discriminate].
      unfold hs_range in E.
      destruct ((0 <=? off) && (off <=? off + size) && (off + size <=? a_cap (hb_bytes b))); discriminate.
Qed.

Lemma hb_write_at_view : forall h b p off h' b', wf h b -> hb_write_at h b p off = (h', b') ->
  fst (write_at (view_base h b) p off) = view_base h' b' /\ extends h h' /\ wf h' b'.
Proof.
  intros h b p off h' b' W E. unfold hb_write_at, h_new in E. injection E as <- <-.
  destruct (view_last h p (zlen_nonneg p)) as [WS VS].
  destruct (view_base_extends h (h ++ [p]) b (extends_last h p) W) as [VB WB].
  split; [|split; [apply extends_last|]].
  - unfold write_at. cbn [fst]. rewrite <- VB.
    unfold view_base, set_diffs, hset_diffs.
    cbn [hb_bytes hb_rdiffs hb_diffs hb_check hb_seek b_bytes b_rdiffs b_diffs b_check b_seek].
    rewrite map_app. cbn [map].
    assert (VD : view_diff (h ++ [p]) (mkHdiff off (mkHsl (length h) 0 (zlen p) (zlen p))) = mkDiff off (gs_of p)).
    { unfold view_diff. cbn [hd_off hd_sl]. rewrite VS. reflexivity. }
    rewrite VD. reflexivity.
  - destruct WB as (B1 & B2 & B3). split; [exact B1|]. split; [|exact B3].
    cbn. apply Forall_app2; [auto|]. constructor; [exact WS|constructor].
Qed.

(** *** Flatten *)
Lemma hlen_buf_view : forall h b, wf h b -> len_buf (view_base h b) = hlen_buf b.
Proof.
  intros h b (W1 & W2 & W3). unfold len_buf, hlen_buf. cbn [view_base b_diffs b_rdiffs b_bytes].
  rewrite view_len by auto.
  assert (F : forall ds, Forall (fun d => wf_sl h (hd_sl d)) ds -> forall m,
    fold_left (fun m d => Z.max m (d_off d + d_len d)) (map (view_diff h) ds) m =
    fold_left (fun m d => Z.max m (hd_off d + a_len (hd_sl d))) ds m).
  { intros ds H. induction H as [|d ds Wd H IH]; intros m; [reflexivity|]. cbn [map fold_left].
    rewrite IH, d_len_view by auto. reflexivity. }
  rewrite !F by auto. reflexivity.
Qed.

Lemma hlen_buf_nonneg : forall h b, wf h b -> 0 <= hlen_buf b.
Proof.
  intros h b ((_ & W & _) & _ & _). unfold hlen_buf.
  assert (F : forall ds m, 0 <= m -> 0 <= fold_left (fun m d => Z.max m (hd_off d + a_len (hd_sl d))) ds m).
  { induction ds; intros m Hm; [exact Hm|]. cbn [fold_left]. apply IHds. lia. }
  apply F, F. lia.
Qed.

Lemma hflatten_view : forall h ds l, Forall (fun d => wf_sl h (hd_sl d)) ds ->
  fold_left (hflatten_step (mkHsl (length h) 0 (zlen l) (zlen l))) ds (Ok (h ++ [l])) =
  res_map (fun l' => h ++ [l']) (fold_left flatten_step (map (view_diff h) ds) (Ok l)) /\
  (forall l', fold_left flatten_step (map (view_diff h) ds) (Ok l) = Ok l' -> zlen l' = zlen l).
Proof.
  intros h ds l F. revert l. induction F as [|d ds W F IH]; intros l.
  { split; [reflexivity|]. intros l' E. injection E as <-. reflexivity. }
  cbn [map fold_left]. unfold hflatten_step at 2. unfold flatten_step at 2 4. cbn [bind view_diff d_off d_data].
  unfold hs_from at 1. cbn [a_len a_id a_off a_cap].
  destruct (wf_extends h (h ++ [l]) (hd_sl d) (extends_last h l) W) as [_ V].
  destruct ((0 <=? hd_off d) && (hd_off d <=? zlen l)) eqn:X; cbn [bind].
  - rewrite V, put_last by lia.
    assert (Q : copy_at l (0 + hd_off d) (zfirst (zlen l - hd_off d) (sl_data (view h (hd_sl d)))) =
                copy_at l (hd_off d) (sl_data (view h (hd_sl d)))).
    { apply zget_ext. intros i. rewrite !zget_copy_at by lia. rewrite zget_zfirst, zlen_zfirst.
      pose proof (zlen_nonneg (sl_data (view h (hd_sl d)))).
      zif; try lia; try reflexivity; f_equal; lia. }
    rewrite Q. change (d_data (mkDiff (hd_off d) (view h (hd_sl d)))) with (sl_data (view h (hd_sl d))).
    set (l1 := copy_at l (hd_off d) (sl_data (view h (hd_sl d)))).
    assert (L1 : zlen l1 = zlen l) by (unfold l1; apply zlen_copy_at; lia).
    rewrite <- L1. apply IH.
  - assert (P1 : forall s ds, fold_left (hflatten_step s) ds Panic = Panic).
    { intros s0. induction ds0; [reflexivity|]. cbn. auto. }
    assert (P2 : forall ds, fold_left flatten_step ds Panic = Panic).
    { induction ds0; [reflexivity|]. cbn. auto. }
    rewrite P1, P2. split; [reflexivity|]. intros; discriminate.
Qed.

Lemma flatten_no_fuel : forall ds acc, acc <> OutOfFuel -> fold_left flatten_step ds acc <> OutOfFuel.
Proof.
  induction ds as [|d ds IH]; intros acc H; [exact H|]. cbn [fold_left]. apply IH.
  unfold flatten_step. destruct acc; cbn [bind]; try congruence.
  destruct ((0 <=? d_off d) && (d_off d <=? zlen a)); congruence.
Qed.

Lemma hb_flatten_view : forall h b, wf h b ->
  match hb_flatten h b with
  | Ok (h', b') => base_flatten (view_base h b) = Ok (view_base h' b') /\ extends h h' /\ wf h' b'
  | Panic => base_flatten (view_base h b) = Panic
  | OutOfFuel => False
  end.
Proof.
  intros h b W. unfold hb_flatten, base_flatten. rewrite (hlen_buf_view h b W).
  pose proof (hlen_buf_nonneg h b W) as HN. unfold h_new. cbv beta iota zeta.
  set (n := hlen_buf b) in *.
  assert (ZZ : zlen (zeros n) = n) by (rewrite zlen_zeros; lia). rewrite ZZ.
  pose proof W as (W1 & W2 & W3).
  destruct (wf_extends h (h ++ [zeros n]) (hb_bytes b) (extends_last h (zeros n)) W1) as [_ V]. rewrite V.
  cbn [view_base b_bytes b_diffs b_rdiffs b_check b_seek].
  set (l := copy_at (zeros n) 0 (sl_data (view h (hb_bytes b)))).
  assert (PUT : h_put (h ++ [zeros n]) (mkHsl (length h) 0 n n) (sl_data (view h (hb_bytes b))) = h ++ [l]).
  { rewrite put_last by lia. unfold l. f_equal. f_equal. apply zget_ext. intros i.
    rewrite !zget_copy_at by lia. rewrite zget_zfirst, zlen_zfirst, ZZ.
    pose proof (zlen_nonneg (sl_data (view h (hb_bytes b)))).
    zif; try lia; try reflexivity; f_equal; lia. }
  assert (LL : zlen l = n) by (unfold l; rewrite zlen_copy_at; lia).
  destruct (hflatten_view h (hb_diffs b) l W2) as [F1 F2]. rewrite LL in F1.
  pose proof (flatten_no_fuel (map (view_diff h) (hb_diffs b)) (Ok l) ltac:(discriminate)) as NF.
  rewrite PUT. unfold heap in *. rewrite F1.
  destruct (fold_left flatten_step (map (view_diff h) (hb_diffs b)) (Ok l)) as [l'| |] eqn:E; cbn [bind res_map].
  - specialize (F2 l' eq_refl). rewrite LL in F2.
    destruct (view_last h l' ltac:(lia)) as [WS VS]. rewrite F2 in WS, VS.
    destruct (view_diff_extends h (h ++ [l']) (hb_rdiffs b) (extends_last h l') W3) as [V5 V6].
    split; [|split; [apply extends_last|]].
    + unfold view_base. cbn [hb_bytes hb_rdiffs hb_diffs hb_check hb_seek map]. rewrite VS, V5. reflexivity.
    + split; [exact WS|]. split; [constructor|exact V6].
  - reflexivity.
  - congruence.
Qed.

(** *** insertSpace *)
Lemma hins_split_view : forall h pos l acc,
  Forall (fun x => wf_sl h (hd_sl (snd x))) l ->
  (forall ds, acc = Ok ds -> Forall (fun d => wf_sl h (hd_sl d)) ds) ->
  fold_left (ins_split pos) (map (fun x => (fst x, view_diff h (snd x))) l) (res_map (map (view_diff h)) acc) =
  res_map (map (view_diff h)) (fold_left (hins_split pos) l acc) /\
  (forall ds, fold_left (hins_split pos) l acc = Ok ds -> Forall (fun d => wf_sl h (hd_sl d)) ds) /\
  (acc <> OutOfFuel -> fold_left (hins_split pos) l acc <> OutOfFuel).
Proof.
  intros h pos l acc F. revert acc. induction F as [|[i d] l W F IH]; intros acc HA.
  { split; [reflexivity|]. split; auto. }
  cbn [map fold_left fst snd] in *.
  assert (STEP : ins_split pos (res_map (map (view_diff h)) acc) (i, view_diff h d) =
    res_map (map (view_diff h)) (hins_split pos acc (i, d)) /\
    (forall ds, hins_split pos acc (i, d) = Ok ds -> Forall (fun d => wf_sl h (hd_sl d)) ds) /\
    (acc <> OutOfFuel -> hins_split pos acc (i, d) <> OutOfFuel)).
  { unfold ins_split, hins_split. destruct acc as [ds| |]; cbn [res_map bind];
      try (split; [reflexivity|split; [intros; discriminate|congruence]]).
    unfold include, hinclude. rewrite d_len_view by auto. cbn [view_diff d_off d_sl].
    destruct ((hd_off d <? pos) && ((hd_off d <=? pos) && (pos <=? hd_off d + a_len (hd_sl d) - 1))).
    - rewrite bind_upto3 by auto.
      destruct (hs_upto3 (hd_sl d) (pos - hd_off d) (pos - hd_off d)) as [x| |] eqn:E; cbn [bind res_map];
        try (split; [reflexivity|split; [intros; discriminate|]]); try congruence.
      2:{ unfold hs_upto3 in E. destruct (_ && _) in E; discriminate. }
      rewrite bind_from by auto.
      destruct (hs_from (hd_sl d) (pos - hd_off d)) as [t| |] eqn:G; cbn [bind res_map];
        try (split; [reflexivity|split; [intros; discriminate|]]); try congruence.
      2:{ unfold hs_from in G. destruct (_ && _) in G; discriminate. }
      split; [|split; [|congruence]].
      + f_equal. rewrite <- hinsert_view. reflexivity.
      + intros ds' H. injection H as <-. apply hinsert_wf; [apply HA; reflexivity|].
        constructor; [exact (hs_upto3_wf _ _ _ _ _ W E)|].
        constructor; [exact (hs_from_wf _ _ _ _ W G)|constructor].
    - split; [reflexivity|]. split; [|congruence]. intros ds' H. injection H as <-. apply HA. reflexivity. }
  destruct STEP as (S1 & S2 & S3). rewrite S1.
  destruct (IH (hins_split pos acc (i, d)) S2) as (I1 & I2 & I3).
  split; [exact I1|]. split; [exact I2|]. auto.
Qed.

Lemma combine_map_snd : forall A B C (f : B -> C) (l : list A) (m : list B),
  combine l (map f m) = map (fun x => (fst x, f (snd x))) (combine l m).
Proof.
  induction l as [|a l IH]; intros [|x m]; try reflexivity. cbn. rewrite IH. reflexivity.
Qed.

Lemma hb_insert_view : forall h b pos size c, wf h b ->
  match hb_insert_space h b pos size c with
  | Ok (h', b') => insert_space (view_base h b) pos size c = Ok (view_base h' b') /\ extends h h' /\ wf h' b'
  | Panic => insert_space (view_base h b) pos size c = Panic
  | OutOfFuel => False
  end.
Proof.
  intros h b pos size c W. pose proof W as (W1 & W2 & W3). unfold hb_insert_space, insert_space.
  cbn [view_base b_diffs b_bytes b_check].
  rewrite map_length, combine_map_snd.
  destruct (hins_split_view h pos (combine (seq 0 (length (hb_diffs b))) (hb_diffs b)) (Ok (hb_diffs b))) as (E1 & E2 & E3).
  { rewrite Forall_forall in *. intros [i d] Hd. apply in_combine_r in Hd. apply W2. exact Hd. }
  { intros ds H. injection H as <-. exact W2. }
  cbn [res_map] in E1. rewrite E1.
  destruct (fold_left (hins_split pos) (combine (seq 0 (length (hb_diffs b))) (hb_diffs b)) (Ok (hb_diffs b))) as [nds| |];
    cbn [res_map bind]; [|reflexivity|apply E3; [discriminate|reflexivity]].
  specialize (E2 nds eq_refl).
  assert (SH : map (ins_shift pos size) (map (view_diff h) nds) = map (view_diff h) (map (hins_shift pos size) nds)).
  { rewrite !map_map. apply map_ext. intros d. unfold ins_shift, hins_shift. cbn [view_diff d_off d_sl].
    destruct (pos <=? hd_off d); reflexivity. }
  rewrite SH.
  assert (WN : Forall (fun d => wf_sl h (hd_sl d)) (map (hins_shift pos size) nds)).
  { rewrite Forall_forall in *. intros d Hd. apply in_map_iff in Hd. destruct Hd as (e & <- & He).
    unfold hins_shift. destruct (pos <=? hd_off e); cbn [hd_sl]; auto. }
  set (nd := map (hins_shift pos size) nds) in *.
  rewrite view_len by auto.
  assert (PART : exists r, (if pos <? a_len (hb_bytes b)
      then do t <- hs_from (hb_bytes b) pos;
           do x <- hs_upto3 (hb_bytes b) pos pos;
           Ok (x, hdiffs_insert nd 0 [mkHdiff (pos + size) t])
      else Ok (hb_bytes b, nd)) = r /\
      (if pos <? a_len (hb_bytes b)
      then do t <- gs_from (view h (hb_bytes b)) pos;
           do h0 <- gs_upto3 (view h (hb_bytes b)) pos pos;
           Ok (h0, diffs_insert (map (view_diff h) nd) 0 [mkDiff (pos + size) t])
      else Ok (view h (hb_bytes b), map (view_diff h) nd)) =
      res_map (fun x => (view h (fst x), map (view_diff h) (snd x))) r /\
      r <> OutOfFuel /\
      (forall x, r = Ok x -> wf_sl h (fst x) /\ Forall (fun d => wf_sl h (hd_sl d)) (snd x))).
  { eexists. split; [reflexivity|]. destruct (pos <? a_len (hb_bytes b)).
    - rewrite bind_from by auto. destruct (hs_from (hb_bytes b) pos) as [t| |] eqn:G; cbn [bind res_map];
        [|split; [reflexivity|split; [discriminate|intros; discriminate]]
         |unfold hs_from in G; destruct (_ && _) in G; discriminate].
      rewrite bind_upto3 by auto. destruct (hs_upto3 (hb_bytes b) pos pos) as [x| |] eqn:U; cbn [bind res_map];
        [|split; [reflexivity|split; [discriminate|intros; discriminate]]
         |unfold hs_upto3 in U; destruct (_ && _) in U; discriminate].
      cbn [fst snd]. split; [rewrite <- hinsert_view; reflexivity|]. split; [discriminate|].
      intros y H. injection H as <-. cbn [fst snd]. split; [exact (hs_upto3_wf _ _ _ _ _ W1 U)|].
      apply hinsert_wf; [exact WN|]. constructor; [exact (hs_from_wf _ _ _ _ W1 G)|constructor].
    - cbn [res_map fst snd]. split; [reflexivity|]. split; [discriminate|].
      intros y H. injection H as <-. auto. }
  destruct PART as (r & R1 & R2 & R3 & R4). rewrite R1, R2.
  destruct r as [[bs ds]| |]; cbn [res_map bind fst snd]; [|reflexivity|congruence].
  destruct (R4 (bs, ds) eq_refl) as [Wb Wd]. cbn [fst snd] in Wb, Wd.
  destruct c.
  - destruct (Z.ltb_spec size 0); [reflexivity|]. unfold h_new. cbn [bind].
    assert (ZZ : zlen (zeros size) = size) by (rewrite zlen_zeros; lia). rewrite ZZ.
    destruct (view_last h (zeros size) ltac:(lia)) as [WS VS]. rewrite ZZ in WS, VS.
    pose proof (extends_last h (zeros size)) as EX.
    destruct (wf_extends _ _ _ EX Wb) as [Wb' Vb']. destruct (view_diff_extends _ _ _ EX Wd) as [Vd' Wd'].
    split; [|split; [exact EX|]].
    + unfold view_base. cbn [hb_bytes hb_rdiffs hb_diffs hb_check hb_seek map].
      rewrite map_app, Vb', Vd'. cbn [map].
      assert (VD : view_diff (h ++ [zeros size]) (mkHdiff pos (mkHsl (length h) 0 size size)) = mkDiff pos (gs_of (zeros size))).
      { unfold view_diff. cbn [hd_off hd_sl]. rewrite VS. reflexivity. }
      rewrite VD. reflexivity.
    + split; [exact Wb'|]. split; [|constructor]. cbn [hb_diffs]. apply Forall_app2; [exact Wd'|].
      constructor; [exact WS|constructor].
  - cbn [bind]. split; [reflexivity|]. split; [apply extends_refl|].
    split; [exact Wb|]. split; [exact Wd|constructor].
Qed.

(** *** All of them *)
Lemma default_op_view : forall h b o, wf h b -> default_op o ->
  match run_hop h b o with
  | Ok (h', b') => value_op (view_base h b) o = Ok (view_base h' b') /\ extends h h' /\ wf h' b'
  | Panic => value_op (view_base h b) o = Panic
  | OutOfFuel => False
  end.
Proof.
  intros h b o W D. destruct o; cbn [run_hop value_op]; cbn in D; try contradiction.
  - destruct (hb_write_at h b p off) as [h' b'] eqn:E.
    destruct (hb_write_at_view h b p off h' b' W E) as (A & B & C). rewrite A. auto.
  - apply hb_u_view. exact W.
  - apply hb_flatten_view. exact W.
  - apply hb_insert_view. exact W.
Qed.
