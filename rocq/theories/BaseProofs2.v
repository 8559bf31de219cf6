(** Lemmas about Flatten, LenBuf, Dedup and MergeDiffs. *)
From Coq Require Import ZArith List Bool Lia.
From Coq Require Import ZifyBool ZifyNat.
From Coq Require Import Strings.Byte.
From Verif Require Import GoLib GoLemmas BaseModel BaseSpec BaseProofs.
Import ListNotations.
Open Scope Z_scope.
Ltac Zify.zify_post_hook ::= Z.div_mod_to_equations.

(** ** LenBuf *)

Definition max_end (ds : list diff) (m : Z) : Z :=
  fold_left (fun m d => Z.max m (d_off d + d_len d)) ds m.

Lemma max_end_ge : forall ds m, m <= max_end ds m.
Proof.
  unfold max_end. induction ds; intros; cbn [fold_left]; [lia|].
  specialize (IHds (Z.max m (d_off a + d_len a))). lia.
Qed.

Lemma max_end_in : forall ds m d, In d ds -> d_off d + d_len d <= max_end ds m.
Proof.
  unfold max_end. induction ds; intros m d HI; [destruct HI|destruct HI as [<-|H]]; cbn [fold_left].
  - pose proof (max_end_ge ds (Z.max m (d_off a + d_len a))). unfold max_end in *. lia.
  - auto.
Qed.

Lemma max_end_attained : forall ds m,
  max_end ds m = m \/ exists d, In d ds /\ max_end ds m = d_off d + d_len d.
Proof.
  unfold max_end. induction ds; intros m; cbn [fold_left]; [auto|].
  destruct (IHds (Z.max m (d_off a + d_len a))) as [E|(d & I & E)].
  - rewrite E. destruct (Z.max_dec m (d_off a + d_len a)) as [->| ->]; [auto|].
    right. exists a. cbn; auto.
  - right. exists d. cbn; auto.
Qed.

Lemma max_end_le : forall ds m x, m <= x -> (forall d, In d ds -> d_off d + d_len d <= x) ->
  max_end ds m <= x.
Proof.
  intros ds m x H1 H2. destruct (max_end_attained ds m) as [->|(d & I & ->)]; auto.
Qed.

Lemma max_end_app : forall ds1 ds2 m, max_end (ds1 ++ ds2) m = max_end ds2 (max_end ds1 m).
Proof. intros; unfold max_end; apply fold_left_app. Qed.

Lemma len_buf_mem : forall b, in_memory b -> len_buf b = max_end (b_diffs b) (gs_len (b_bytes b)).
Proof. intros b [H _]. unfold len_buf. rewrite H. reflexivity. Qed.

Lemma len_buf_nonneg : forall b, in_memory b -> 0 <= len_buf b.
Proof.
  intros b H. rewrite len_buf_mem by auto.
  pose proof (max_end_ge (b_diffs b) (gs_len (b_bytes b))). pose proof (gs_len_nonneg (b_bytes b)). lia.
Qed.

Lemma content_ge_len : forall b i, in_memory b -> len_buf b <= i -> content b i = None.
Proof.
  intros b i Hb Hi. rewrite len_buf_mem in Hi by auto.
  apply content_none_ge.
  - apply find_last_none_iff. intros d Hd. pose proof (max_end_in _ (gs_len (b_bytes b)) _ Hd).
    unfold covers. lia.
  - pose proof (max_end_ge (b_diffs b) (gs_len (b_bytes b))). lia.
Qed.

Lemma over_defined_mono : forall ds m i, m i <> None -> over ds m i <> None.
Proof.
  intros; unfold over. destruct (find_last (covers i) ds) eqn:F; [|auto].
  destruct (find_last_some _ _ _ _ F) as [_ C]. destruct (covers_get _ _ C). congruence.
Qed.

Lemma over_defined_in : forall ds m i d, In d ds -> covers i d = true -> over ds m i <> None.
Proof.
  intros ds m i d I C; unfold over. destruct (find_last (covers i) ds) eqn:F.
  - destruct (find_last_some _ _ _ _ F) as [_ C']. destruct (covers_get _ _ C'). congruence.
  - pose proof (find_last_none _ _ _ _ F I). congruence.
Qed.

Lemma len_buf_least : forall b, in_memory b -> Forall (fun d => 0 < d_len d) (b_diffs b) ->
  img_len (content b) (len_buf b).
Proof.
  intros b Hb HN. split; [apply len_buf_nonneg; auto|]. split; [intros; apply content_ge_len; auto|].
  rewrite len_buf_mem by auto.
  destruct (max_end_attained (b_diffs b) (gs_len (b_bytes b))) as [->|(d & I & ->)].
  - destruct (Z.eq_dec (gs_len (b_bytes b)) 0) as [->|N]; [auto|right].
    apply over_defined_mono. unfold img_bytes, gs_len in *.
    pose proof (zlen_nonneg (sl_data (b_bytes b))).
    destruct (zget_some (sl_data (b_bytes b)) (zlen (sl_data (b_bytes b)) - 1)); [lia|congruence].
  - right. apply (over_defined_in _ _ _ d I). rewrite Forall_forall in HN. specialize (HN d I).
    unfold covers. lia.
Qed.

Lemma img_len_unique : forall m n n', img_len m n -> img_len m n' -> n = n'.
Proof.
  intros m n n' (A & B & C) (A' & B' & C').
  destruct (Z.lt_trichotomy n n') as [L|[E|L]]; [|exact E|].
  - destruct C' as [->|C']; [lia|]. elim C'. apply B. lia.
  - destruct C as [->|C]; [lia|]. elim C. apply B'. lia.
Qed.

Lemma len_buf_write_at : forall b p off, in_memory b -> 
  len_buf (fst (write_at b p off)) = Z.max (len_buf b) (off + zlen p).
Proof.
  intros b p off [HR _]. unfold len_buf, write_at; cbn [fst set_diffs b_diffs b_rdiffs b_bytes].
  rewrite fold_left_app. reflexivity.
Qed.

(** ** Flatten *)

Lemma flatten_fold : forall ds l L m,
  zlen l = L -> Forall (fun d => 0 <= d_off d /\ d_off d + d_len d <= L) ds ->
  (forall i, zget l i = img_fill m L i) ->
  exists l', fold_left flatten_step ds (Ok l) = Ok l' /\ zlen l' = L /\
    forall i, zget l' i = img_fill (over ds m) L i.
Proof.
  induction ds as [|d ds IH]; intros l L m HL HF Hl; cbn [fold_left].
  - exists l. repeat split; auto.
  - inversion HF as [|? ? [Hd1 Hd2] HF']; subst. pose proof (d_len_nonneg d).
    unfold flatten_step at 2; cbn [bind].
    replace ((0 <=? d_off d) && (d_off d <=? zlen l)) with true by lia.
    destruct (IH (copy_at l (d_off d) (d_data d)) (zlen l) (img_write m (d_off d) (d_data d)))
      as (l' & E & EL & EG).
    + apply zlen_copy_at; lia.
    + exact HF'.
    + intros i. rewrite zget_copy_at by lia. rewrite Hl. unfold img_fill, img_write.
      unfold d_len, gs_len in *. fold (d_data d) in *.
      destruct ((d_off d <=? i) && (i <? d_off d + zlen (d_data d))) eqn:C; cbn [andb].
      * replace (i <? zlen l) with true by lia. replace (0 <=? i) with true by lia. cbn [andb].
        destruct (zget_some (d_data d) (i - d_off d)) as [x ->]; [lia|reflexivity].
      * reflexivity.
    + exists l'. split; [exact E|]. split; [exact EL|]. intros i. rewrite EG.
      unfold img_fill. rewrite over_cons. reflexivity.
Qed.

Lemma flatten_spec : forall b, in_memory b ->
  exists l, base_flatten b = Ok (mkBase (gs_of l) nil nil (b_check b) (b_seek b)) /\
    zlen l = len_buf b /\ forall i, zget l i = img_fill (content b) (len_buf b) i.
Proof.
  intros b Hb. pose proof Hb as [HR HF]. unfold base_flatten. rewrite HR.
  pose proof (len_buf_nonneg b Hb) as HL.
  pose proof (len_buf_mem b Hb) as EL.
  pose proof (max_end_ge (b_diffs b) (gs_len (b_bytes b))) as HG. rewrite <- EL in HG.
  destruct (flatten_fold (b_diffs b) (copy_at (zeros (len_buf b)) 0 (sl_data (b_bytes b)))
              (len_buf b) (img_bytes (sl_data (b_bytes b)))) as (l & E & E2 & E3).
  - rewrite zlen_copy_at; rewrite zlen_zeros; lia.
  - rewrite Forall_forall in *. intros d Hd. split; [auto|].
    rewrite EL. apply max_end_in; auto.
  - intros i. rewrite zget_copy_at by (rewrite zlen_zeros; lia).
    rewrite zlen_zeros, zget_zeros. unfold img_fill, img_bytes. unfold gs_len in *.
    replace (i - 0) with i by lia.
    destruct ((0 <=? i) && (i <? 0 + zlen (sl_data (b_bytes b))) && (i <? Z.max 0 (len_buf b))) eqn:C.
    + replace ((0 <=? i) && (i <? len_buf b)) with true by lia.
      destruct (zget_some (sl_data (b_bytes b)) i) as [x ->]; [lia|reflexivity].
    + destruct ((0 <=? i) && (i <? len_buf b)) eqn:C2; [|reflexivity].
      rewrite zget_ge by lia. reflexivity.
  - rewrite E. cbn [bind]. exists l. repeat split; auto.
Qed.

Lemma flat_in_memory : forall l c k, in_memory (mkBase (gs_of l) nil nil c k).
Proof. intros; split; constructor. Qed.

Lemma img_fill_ext : forall m m' L i, (0 <= i -> m i = m' i) -> img_fill m L i = img_fill m' L i.
Proof.
  intros; unfold img_fill. destruct ((0 <=? i) && (i <? L)) eqn:C; [|reflexivity].
  rewrite H by lia. reflexivity.
Qed.

Lemma flatten_props : forall b, in_memory b ->
  exists b', base_flatten b = Ok b' /\ in_memory b' /\ b_diffs b' = nil /\
    len_buf b' = len_buf b /\ b_seek b' = b_seek b /\
    forall m, shows b m -> shows b' (img_fill m (len_buf b)).
Proof.
  intros b Hb. destruct (flatten_spec b Hb) as (l & E & EL & EG).
  eexists; split; [exact E|]. split; [apply flat_in_memory|]. split; [reflexivity|].
  split; [exact EL|]. split; [reflexivity|].
  intros m Hm i Hi. rewrite peek_content by (auto using flat_in_memory).
  f_equal. unfold content, over; cbn. unfold img_bytes. rewrite EG.
  apply img_fill_ext. intros. apply (shows_unique b); auto. apply shows_content; auto.
Qed.

(** Reads of a buffer with an empty journal. *)
Lemma flat_read : forall l c k off req, 0 <= off < zlen l -> 0 <= req ->
  base_r (mkBase (gs_of l) nil nil c k) off req = Ok (Some (gs_of (zskip off l))).
Proof.
  intros. unfold base_r, writer_r; cbn [b_diffs b_bytes].
  change (last_index (covers off) nil) with (@None nat). cbv iota.
  unfold gs_len at 1; cbn [gs_of sl_data]. destruct (zlen l <? off) eqn:E; [lia|].
  rewrite gs_from_ok by (unfold gs_len; cbn; lia). cbn [bind opt_len].
  unfold gs_len; cbn [sl_data]. rewrite zlen_zskip.
  cbn [gs_of sl_data sl_spare].
  destruct (Z.max 0 (zlen l - Z.max 0 off) =? 0) eqn:E2; [lia|]. reflexivity.
Qed.

Lemma flatten_exact : forall b m, in_memory b -> shows b m ->
  exists b', base_flatten b = Ok b' /\ base_flatten b' = Ok b' /\
    forall off req, 0 <= off < len_buf b -> 0 <= req ->
      exists s, base_r b' off req = Ok (Some s) /\ gs_len s = len_buf b - off /\
        slice_of_image (img_fill m (len_buf b)) off (sl_data s).
Proof.
  intros b m Hb Hm. destruct (flatten_spec b Hb) as (l & E & EL & EG).
  eexists; split; [exact E|]. split.
  - pose proof (zlen_nonneg l).
    unfold base_flatten; cbn [b_diffs b_rdiffs b_bytes len_buf fold_left b_check b_seek gs_of sl_data].
    unfold len_buf; cbn [b_diffs b_rdiffs fold_left b_bytes].
    cbn [bind]. unfold gs_len; cbn [gs_of sl_data]. rewrite copy_at_full; [reflexivity|].
    rewrite zlen_zeros. change (sl_data (gs_of l)) with l. lia.
  - intros off req Ho Hr. rewrite flat_read by lia. eexists; split; [reflexivity|].
    unfold gs_len; cbn [gs_of sl_data]. rewrite zlen_zskip. split; [lia|].
    intros k Hk. rewrite zlen_zskip in Hk. rewrite zget_zskip by lia.
    destruct (k <? 0) eqn:K; [lia|]. rewrite EG. apply img_fill_ext.
    intros. apply (shows_unique b); auto. apply shows_content; auto.
Qed.

(** ** Dedup *)

Lemma delete_idx_from_shift : forall A (p : nat -> bool) (l : list A) i,
  delete_idx_from p l (S i) = delete_idx_from (fun k => p (S k)) l i.
Proof. induction l; intros; cbn; [reflexivity|]. rewrite IHl. destruct (p (S i)); reflexivity. Qed.

Lemma delete_idx_cons : forall A (p : nat -> bool) (x : A) l,
  delete_idx p (x :: l) = if p 0%nat then delete_idx (fun k => p (S k)) l
                          else x :: delete_idx (fun k => p (S k)) l.
Proof.
  intros; unfold delete_idx; cbn [delete_idx_from].
  rewrite delete_idx_from_shift. reflexivity.
Qed.

Lemma delete_idx_In : forall A (l : list A) p x, In x (delete_idx p l) ->
  exists k, nth_error l k = Some x /\ p k = false.
Proof.
  induction l as [|a l IH]; intros p x; [intros []|].
  rewrite delete_idx_cons. destruct (p 0%nat) eqn:P.
  - intros H. destruct (IH _ _ H) as (k & K1 & K2). exists (S k). auto.
  - intros [<-|H]; [exists 0%nat; auto|]. destruct (IH _ _ H) as (k & K1 & K2). exists (S k). auto.
Qed.

Lemma delete_idx_keep : forall A (l : list A) p k x,
  nth_error l k = Some x -> p k = false -> In x (delete_idx p l).
Proof.
  induction l as [|a l IH]; intros p [|k] x N P; cbn in N; try discriminate; rewrite delete_idx_cons.
  - injection N as ->. rewrite P. left; reflexivity.
  - specialize (IH (fun k => p (S k)) k x N P). destruct (p 0%nat); [exact IH|right; exact IH].
Qed.

(** A last-match search is unaffected when the match it finds is kept. *)
Lemma find_last_delete : forall A (q : A -> bool) (l : list A) p,
  (forall k x, nth_error l k = Some x -> q x = true ->
     (forall j y, (k < j)%nat -> nth_error l j = Some y -> q y = false) -> p k = false) ->
  find_last q (delete_idx p l) = find_last q l.
Proof.
  induction l as [|a l IH]; intros p H; [reflexivity|].
  rewrite delete_idx_cons. cbn [find_last].
  assert (IH' : find_last q (delete_idx (fun k => p (S k)) l) = find_last q l).
  { apply IH. intros k x N Q L. apply (H (S k) x); auto.
    intros [|j] y J Ny; [lia|]. apply (L j); auto; lia. }
  destruct (p 0%nat) eqn:P; cbn [find_last]; rewrite IH'; [|reflexivity].
  destruct (find_last q l) eqn:F; [reflexivity|].
  destruct (q a) eqn:Q; [|reflexivity].
  exfalso. assert (X : p 0%nat = false); [|congruence].
  apply (H 0%nat a); [reflexivity|exact Q|].
  intros [|j] y J Ny; [lia|]. cbn in Ny. apply (find_last_none _ _ _ _ F). eapply nth_error_In; eauto.
Qed.

Lemma nth_error_seq0 : forall n k, (k < n)%nat -> nth_error (seq 0 n) k = Some k.
Proof.
  intros n k H. rewrite (nth_error_nth' _ 0%nat) by (rewrite seq_length; auto).
  rewrite seq_nth by auto. reflexivity.
Qed.

Lemma nth_error_combine : forall A B (l : list A) (l' : list B) k x y,
  nth_error (combine l l') k = Some (x, y) <-> nth_error l k = Some x /\ nth_error l' k = Some y.
Proof.
  induction l as [|a l IH]; intros [|b l'] [|k] x y; cbn; split; try (intros; discriminate);
    try (intros [? ?]; discriminate).
  - intros H; injection H as -> ->; auto.
  - intros [H1 H2]; congruence.
  - apply IH.
  - apply IH.
Qed.

Lemma dedup_pred_iff : forall ds i, dedup_pred ds i = true <->
  exists di j dj, nth_error ds i = Some di /\ (i < j)%nat /\ nth_error ds j = Some dj /\
    d_off dj <= d_off di /\ d_off di + d_len di <= d_off dj + d_len dj.
Proof.
  intros ds i. unfold dedup_pred.
  destruct (nth_error ds i) as [di|] eqn:Ni; [|split; [discriminate|]; intros (? & ? & ? & H & _); discriminate].
  match goal with |- context [last_index _ ?l] => set (bl := l) end.
  assert (Hb : forall k, nth_error bl k = Some true <->
     (i < k)%nat /\ exists dj, nth_error ds k = Some dj /\ d_off dj <= d_off di /\
       d_off di + d_len di <= d_off dj + d_len dj).
  { intros k. unfold bl. rewrite nth_error_map.
    destruct (nth_error (combine (seq 0 (length ds)) ds) k) as [[j dj]|] eqn:C; cbn [option_map].
    - apply nth_error_combine in C as [C1 C2].
      assert (Hk : (k < length ds)%nat) by (apply nth_error_Some; congruence).
      rewrite nth_error_seq0 in C1 by auto. injection C1 as <-.
      split.
      + intros H; injection H as H. split; [lia|]. exists dj. split; [auto|lia].
      + intros (H1 & dj' & H2 & H3 & H4). rewrite C2 in H2. injection H2 as <-. f_equal. lia.
    - split; [discriminate|]. intros (H1 & dj & H2 & _).
      assert (Hk : (k < length ds)%nat) by (apply nth_error_Some; congruence).
      exfalso. assert (nth_error (combine (seq 0 (length ds)) ds) k = Some (k, dj)).
      { apply nth_error_combine. split; [apply nth_error_seq0; auto|auto]. }
      congruence. }
  pose proof (last_index_find_last bool (fun x => x) bl) as L.
  destruct (last_index (fun x => x) bl) as [n|] eqn:E.
  - destruct L as [L1 L2]. destruct (find_last (fun x => x) bl) as [v|] eqn:F; [|congruence].
    destruct (find_last_some _ _ _ _ F) as [_ Fv]. subst v.
    apply Hb in L1. destruct L1 as (H1 & dj & H2 & H3 & H4).
    split; [|intros _; lia]. intros _. exists di, n, dj. auto.
  - split; [discriminate|]. intros (di' & j & dj & H1 & H2 & H3 & H4 & H5).
    injection H1 as <-.
    assert (nth_error bl j = Some true) by (apply Hb; split; [auto|exists dj; auto]).
    apply nth_error_In in H. pose proof (find_last_none _ _ _ _ L H). discriminate.
Qed.

Lemma dedup_content : forall b i, content (base_dedup b) i = content b i.
Proof.
  intros b i. unfold content, base_dedup, over; cbn [set_diffs b_diffs b_bytes].
  rewrite find_last_delete; [reflexivity|].
  intros k x N Q L. apply not_true_is_false. intros D.
  apply dedup_pred_iff in D as (di & j & dj & H1 & H2 & H3 & H4 & H5).
  rewrite N in H1; injection H1 as <-.
  specialize (L j dj H2 H3). unfold covers in *. lia.
Qed.

Lemma in_memory_dedup : forall b, in_memory b -> in_memory (base_dedup b).
Proof.
  intros b [H1 H2]; split; [exact H1|]. cbn. rewrite Forall_forall in *. intros d Hd.
  destruct (delete_idx_In _ _ _ _ Hd) as (k & N & _). apply nth_error_In in N. auto.
Qed.

(** Every entry is contained in one that is kept. *)
Lemma dedup_cover : forall ds n i di, (length ds - i <= n)%nat -> nth_error ds i = Some di ->
  exists dk, In dk (delete_idx (dedup_pred ds) ds) /\
    d_off dk <= d_off di /\ d_off di + d_len di <= d_off dk + d_len dk.
Proof.
  induction n; intros i di Hn N.
  - assert (i < length ds)%nat by (apply nth_error_Some; congruence). lia.
  - destruct (dedup_pred ds i) eqn:D.
    + apply dedup_pred_iff in D as (di' & j & dj & H1 & H2 & H3 & H4 & H5).
      rewrite N in H1; injection H1 as <-.
      assert (i < length ds)%nat by (apply nth_error_Some; congruence).
      destruct (IHn j dj) as (dk & K1 & K2 & K3); [lia|auto|].
      exists dk. split; [auto|lia].
    + exists di. split; [eapply delete_idx_keep; eauto|lia].
Qed.

Lemma dedup_len : forall b, in_memory b -> len_buf (base_dedup b) = len_buf b.
Proof.
  intros b Hb. rewrite !len_buf_mem by (auto using in_memory_dedup).
  cbn [base_dedup set_diffs b_diffs b_bytes]. apply Z.le_antisymm.
  - apply max_end_le; [apply max_end_ge|]. intros d Hd.
    destruct (delete_idx_In _ _ _ _ Hd) as (k & N & _). apply nth_error_In in N.
    apply max_end_in; auto.
  - apply max_end_le; [apply max_end_ge|]. intros d Hd.
    apply In_nth_error in Hd as [i Ni].
    destruct (dedup_cover (b_diffs b) _ i d (le_n _) Ni) as (dk & K1 & K2 & K3).
    pose proof (max_end_in _ (gs_len (b_bytes b)) _ K1). lia.
Qed.

(** ** MergeDiffs *)

Lemma merge_stable_none : forall d s, merge_stable d s = None <-> ~ touching d s.
Proof.
  intros; unfold merge_stable, touching.
  destruct (d_off d + d_len d <? d_off s) eqn:E1; [split; [lia|reflexivity]|].
  destruct (d_off s + d_len s <? d_off d) eqn:E2; [split; [lia|reflexivity]|].
  split; [discriminate|lia].
Qed.

Lemma merge_stable_some : forall d s d', merge_stable d s = Some d' ->
  touching d s /\ d_off d' = Z.min (d_off d) (d_off s) /\
  d_off d' + d_len d' = Z.max (d_off d + d_len d) (d_off s + d_len s) /\
  forall m i, over [d'] m i = over [d; s] m i.
Proof.
  intros d s d' H. unfold merge_stable in H. unfold touching.
  destruct (d_off d + d_len d <? d_off s) eqn:E1; [discriminate|].
  destruct (d_off s + d_len s <? d_off d) eqn:E2; [discriminate|].
  injection H as <-. cbn [d_off].
  pose proof (d_len_nonneg d). pose proof (d_len_nonneg s).
  set (off := Z.min (d_off d) (d_off s)). set (loff := Z.max (d_off d + d_len d) (d_off s + d_len s)).
  assert (L0 : zlen (zeros (loff - off)) = loff - off) by (rewrite zlen_zeros; lia).
  assert (L1 : zlen (copy_at (zeros (loff - off)) (d_off d - off) (d_data d)) = loff - off).
  { rewrite zlen_copy_at; lia. }
  split; [lia|]. split; [reflexivity|].
  split.
  { unfold d_len at 1. cbn [d_sl]. rewrite gs_len_of, zlen_copy_at; lia. }
  intros m i. rewrite !over_cons, !over_nil. cbn [d_off]. unfold d_data at 1; cbn [d_sl gs_of sl_data].
  unfold img_write. rewrite zlen_copy_at by lia. rewrite L1.
  unfold d_len, gs_len in *. fold (d_data d) in *. fold (d_data s) in *.
  destruct ((off <=? i) && (i <? off + (loff - off))) eqn:C.
  - rewrite zget_copy_at by lia. rewrite L1, zget_copy_at by lia. rewrite L0.
    destruct ((d_off s <=? i) && (i <? d_off s + zlen (d_data s))) eqn:Cs.
    + replace ((d_off s - off <=? i - off) && (i - off <? d_off s - off + zlen (d_data s)) && (i - off <? loff - off)) with true by lia.
      f_equal; lia.
    + replace ((d_off s - off <=? i - off) && (i - off <? d_off s - off + zlen (d_data s)) && (i - off <? loff - off)) with false by lia.
      destruct ((d_off d <=? i) && (i <? d_off d + zlen (d_data d))) eqn:Cd; [|lia].
      replace ((d_off d - off <=? i - off) && (i - off <? d_off d - off + zlen (d_data d)) && (i - off <? loff - off)) with true by lia.
      f_equal; lia.
  - destruct ((d_off s <=? i) && (i <? d_off s + zlen (d_data s))) eqn:Cs; [lia|].
    destruct ((d_off d <=? i) && (i <? d_off d + zlen (d_data d))) eqn:Cd; [lia|reflexivity].
Qed.

Lemma merge_into_length : forall later d d' rest m, merge_into d later = (d', rest, m) ->
  (length rest <= length later)%nat /\ (m = true -> (length rest < length later)%nat).
Proof.
  induction later as [|s later IH]; intros d d' rest m H; cbn in H.
  - injection H as <- <- <-. split; [lia|discriminate].
  - destruct (merge_stable d s) as [d1|].
    + destruct (merge_into d1 later) as [[d2 r2] m2] eqn:E. injection H as <- <- <-.
      apply IH in E as [E _]. cbn. lia.
    + destruct (merge_into d later) as [[d2 r2] m2] eqn:E. injection H as <- <- <-.
      apply IH in E as [E1 E2]. cbn. split; [lia|]. intros; specialize (E2 H); lia.
Qed.

Lemma merge_into_false : forall later d d' rest, merge_into d later = (d', rest, false) ->
  d' = d /\ rest = later /\ Forall (fun s => ~ touching d s) later.
Proof.
  induction later as [|s later IH]; intros d d' rest H; cbn in H.
  - injection H as <- <-. auto.
  - destruct (merge_stable d s) as [d1|] eqn:M.
    + destruct (merge_into d1 later) as [[d2 r2] m2] eqn:E. discriminate.
    + destruct (merge_into d later) as [[d2 r2] m2] eqn:E. injection H as <- <- ->.
      apply IH in E as (-> & -> & F). repeat split; auto. constructor; auto.
      apply merge_stable_none; auto.
Qed.

Lemma merge_pass_length : forall ds ds', merge_pass ds = Some ds' -> (length ds' < length ds)%nat.
Proof.
  induction ds as [|d ds IH]; intros ds' H; cbn in H; [discriminate|].
  destruct (merge_into d ds) as [[d1 r1] m1] eqn:E. destruct m1.
  - injection H as <-. apply merge_into_length in E as [_ E]. cbn. specialize (E eq_refl). lia.
  - destruct (merge_pass ds) as [l|]; [|discriminate]. injection H as <-.
    specialize (IH l eq_refl). cbn; lia.
Qed.

Lemma merge_pass_none : forall ds, merge_pass ds = None -> ForallOrdPairs (fun d s => ~ touching d s) ds.
Proof.
  induction ds as [|d ds IH]; intros H; cbn in H; [constructor|].
  destruct (merge_into d ds) as [[d1 r1] m1] eqn:E. destruct m1; [discriminate|].
  apply merge_into_false in E as (_ & _ & F).
  destruct (merge_pass ds); [discriminate|]. constructor; auto.
Qed.

Lemma merge_loop_ends : forall fuel ds, (length ds <= fuel)%nat ->
  exists ds', merge_loop fuel ds = Ok ds' /\ ForallOrdPairs (fun d s => ~ touching d s) ds'.
Proof.
  induction fuel; intros ds H.
  - destruct ds; [|cbn in H; lia]. exists nil. split; [reflexivity|constructor].
  - cbn [merge_loop]. destruct (merge_pass ds) as [ds1|] eqn:E.
    + pose proof (merge_pass_length _ _ E). apply IHfuel; lia.
    + exists ds. split; [reflexivity|]. apply merge_pass_none; auto.
Qed.

(** Entries that are apart can be exchanged. *)
Lemma over_swap : forall d s m i, apart d s -> over [d; s] m i = over [s; d] m i.
Proof.
  intros d s m i H. rewrite !over_cons, !over_nil. unfold img_write, apart in *.
  unfold d_len, gs_len in *. fold (d_data d) in *. fold (d_data s) in *.
  destruct ((d_off d <=? i) && (i <? d_off d + zlen (d_data d))) eqn:C1;
  destruct ((d_off s <=? i) && (i <? d_off s + zlen (d_data s))) eqn:C2; try reflexivity. lia.
Qed.

Lemma over_move_front : forall s l m i, Forall (fun x => apart x s) l ->
  over (l ++ [s]) m i = over (s :: l) m i.
Proof.
  induction l as [|a l IH]; intros m i H; [reflexivity|].
  inversion H; subst. cbn [app]. rewrite over_cons, IH by auto.
  rewrite (over_cons s (a :: l)), (over_cons a l).
  change (s :: l) with ([s] ++ l). rewrite over_app.
  unfold over at 1 3. destruct (find_last (covers i) l); [reflexivity|].
  rewrite over_one. pose proof (over_swap a s m i H2) as X. rewrite !over_cons, !over_nil in X. exact X.
Qed.

Definition all_apart (ds : list diff) : Prop := ForallOrdPairs apart ds.

Lemma apart_sym : forall d s, apart d s -> apart s d.
Proof. unfold apart; intros; lia. Qed.

Lemma apart_merge : forall d s d' x, merge_stable d s = Some d' ->
  apart d x -> apart s x -> 0 < d_len x -> apart d' x.
Proof.
  intros d s d' x M A B P. apply merge_stable_some in M as (T & E1 & E2 & _).
  pose proof (d_len_nonneg d). pose proof (d_len_nonneg s).
  unfold apart, touching in *. lia.
Qed.

(** A merged journal entry keeps the content when the merged entries are apart
    from everything they jump over. *)
Lemma merge_into_content : forall later d d' rest mg,
  merge_into d later = (d', rest, mg) ->
  Forall (fun x => 0 < d_len x) later -> Forall (apart d) later -> all_apart later ->
  (forall m i, over (d' :: rest) m i = over (d :: later) m i) /\
  (forall x, Forall (apart x) (d :: later) -> 0 < d_len x -> Forall (apart x) (d' :: rest)) /\
  (forall x, In x rest -> In x later) /\ Forall (apart d') rest /\ all_apart rest /\
  Forall (fun x => 0 < d_len x) rest /\ (d_len d <= d_len d').
Proof.
  induction later as [|s later IH]; intros d d' rest mg H HP HA HL; cbn in H.
  - injection H as <- <- <-. repeat split; auto; lia.
  - inversion HP as [|? ? P1 P2]; subst. inversion HA as [|? ? A1 A2]; subst.
    inversion HL as [|? ? L1 L2]; subst.
    destruct (merge_stable d s) as [d1|] eqn:M.
    + destruct (merge_into d1 later) as [[d2 r2] m2] eqn:E. injection H as <- <- <-.
      assert (F1 : Forall (apart d1) later).
      { rewrite Forall_forall in *. intros x Hx. eapply apart_merge; eauto. }
      destruct (IH _ _ _ _ E P2 F1 L2) as (C1 & C2 & C3 & C4 & C5 & C6 & C7).
      pose proof (merge_stable_some _ _ _ M) as (T & E1 & E2 & E3).
      repeat split; auto.
      * intros m i. rewrite C1. change (d1 :: later) with ([d1] ++ later).
        change (d :: s :: later) with ([d; s] ++ later). rewrite !over_app.
        unfold over at 1 3. destruct (find_last (covers i) later); [reflexivity|]. apply E3.
      * intros x Hx Px. inversion Hx as [|? ? X1 X2]; subst. inversion X2; subst.
        apply C2; auto. constructor; auto. apply apart_sym. eapply apart_merge; eauto using apart_sym.
      * intros x Hx. right; auto.
      * unfold touching in T. lia.
    + destruct (merge_into d later) as [[d2 r2] m2] eqn:E. injection H as <- <- <-.
      destruct (IH _ _ _ _ E P2 A2 L2) as (C1 & C2 & C3 & C4 & C5 & C6 & C7).
      assert (As : apart s d2).
      { assert (HF : Forall (apart s) (d2 :: r2)).
        { apply C2; auto. constructor; auto using apart_sym. }
        inversion HF; auto. }
      repeat split; auto.
      * intros m i.
        rewrite (over_cons d2 (s :: r2)), (over_cons s r2).
        rewrite (over_cons d (s :: later)), (over_cons s later).
        assert (X : over r2 (img_write (img_write m (d_off s) (d_data s)) (d_off d2) (d_data d2)) i
                  = over later (img_write (img_write m (d_off s) (d_data s)) (d_off d) (d_data d)) i).
        { rewrite <- (over_cons d2 r2), <- (over_cons d later). apply C1. }
        assert (Y : forall e m i, apart e s -> img_write (img_write m (d_off e) (d_data e)) (d_off s) (d_data s) i
                       = img_write (img_write m (d_off s) (d_data s)) (d_off e) (d_data e) i).
        { intros e m0 i0 He. pose proof (over_swap e s m0 i0 He) as Z. rewrite !over_cons, !over_nil in Z. exact Z. }
        rewrite (over_ext r2 _ _ i (Y d2 m i (apart_sym _ _ As))), X.
        apply over_ext. symmetry. apply Y. auto.
      * intros x Hx Px. inversion Hx as [|? ? X1 X2]; subst. inversion X2 as [|? ? X3 X4]; subst.
        assert (X5 : Forall (apart x) (d :: later)) by (constructor; auto).
        specialize (C2 x X5 Px). inversion C2; subst. auto.
      * intros x [->|Hx]; [left; auto|right; auto].
      * constructor; [apply apart_sym; auto|auto].
      * constructor; auto. rewrite Forall_forall in *. intros x Hx. apply L1. auto.
Qed.

Lemma merge_pass_content : forall ds ds', merge_pass ds = Some ds' ->
  Forall (fun x => 0 < d_len x) ds -> all_apart ds ->
  (forall m i, over ds' m i = over ds m i) /\ Forall (fun x => 0 < d_len x) ds' /\ all_apart ds' /\
  (forall x, Forall (apart x) ds -> 0 < d_len x -> Forall (apart x) ds').
Proof.
  induction ds as [|d ds IH]; intros ds' H HP HA; cbn in H; [discriminate|].
  inversion HP as [|? ? P1 P2]; subst. inversion HA as [|? ? A1 A2]; subst.
  destruct (merge_into d ds) as [[d1 r1] m1] eqn:E. destruct m1.
  - injection H as <-.
    destruct (merge_into_content _ _ _ _ _ E P2 A1 A2) as (C1 & C2 & C3 & C4 & C5 & C6 & C7).
    split; [exact C1|]. split; [constructor; [lia|auto]|]. split; [constructor; auto|]. auto.
  - destruct (merge_pass ds) as [l|] eqn:M; [|discriminate]. injection H as <-.
    destruct (IH l eq_refl P2 A2) as (C1 & C2 & C3 & C4).
    split; [intros; rewrite !over_cons; apply C1|]. split; [constructor; auto|].
    split; [constructor; auto|]. intros x Hx Px. inversion Hx; subst. constructor; auto.
Qed.

Lemma merge_loop_content : forall fuel ds ds', merge_loop fuel ds = Ok ds' ->
  Forall (fun x => 0 < d_len x) ds -> all_apart ds ->
  forall m i, over ds' m i = over ds m i.
Proof.
  induction fuel; intros ds ds' H HP HA m i; cbn in H.
  - destruct (merge_pass ds) eqn:E; [discriminate|]. injection H as <-. reflexivity.
  - destruct (merge_pass ds) as [ds1|] eqn:E; [|injection H as <-; reflexivity].
    destruct (merge_pass_content _ _ E HP HA) as (C1 & C2 & C3 & _).
    rewrite (IHfuel _ _ H C2 C3). apply C1.
Qed.
