(** Proofs about the buffer variants. *)
From Coq Require Import ZArith List Bool Lia.
From Coq Require Import Strings.Byte.
From Verif Require Import GoLib GoLemmas BaseModel BaseSpec BaseProofs BaseProofs2 BaseProofs3.
From Verif Require Import VariantModel VariantSpec.
Import ListNotations.
Open Scope Z_scope.

(** ** calcBufSize *)
Lemma calc_pages : forall n, 0 <= n ->
  exists k, 1 <= k /\ calc_buf_size n = k * 4096.
Proof.
  intros n H. unfold calc_buf_size.
  assert (0 <= Z.quot n 4096) by (apply Z.quot_pos; lia).
  destruct (Z.rem (Z.quot n 4096) 4096 =? 0).
  - destruct (Z.eqb_spec (Z.quot n 4096) 0); eexists; (split; [|reflexivity]); lia.
  - destruct (Z.eqb_spec (Z.quot n 4096 + 1) 0); eexists; (split; [|reflexivity]); lia.
Qed.

Lemma calc_enough : forall n, 0 <= n ->
  (n <= calc_buf_size n <-> n <= 4096 \/ n mod 4096 = 0 \/ (n / 4096) mod 4096 <> 0).
Proof.
  intros n H. unfold calc_buf_size.
  rewrite Z.quot_div_nonneg by lia.
  assert (0 <= n / 4096) by (apply Z.div_pos; lia).
  rewrite Z.rem_mod_nonneg by lia.
  pose proof (Z.div_mod n 4096 ltac:(lia)). pose proof (Z.mod_pos_bound n 4096 ltac:(lia)).
  destruct (Z.eqb_spec ((n / 4096) mod 4096) 0).
  - destruct (Z.eqb_spec (n / 4096) 0); split; intros; try lia.
  - destruct (Z.eqb_spec (n / 4096 + 1) 0); split; intros; try lia.
Qed.

Lemma calc_small : forall n, 0 <= n < 16777216 -> n <= calc_buf_size n.
Proof.
  intros n H. apply calc_enough; [lia|].
  destruct (Z_le_dec n 4096); [auto|].
  destruct (Z.eq_dec (n mod 4096) 0); [auto|]. right. right.
  assert (0 <= n / 4096 < 4096).
  { split; [apply Z.div_pos; lia|]. apply Z.div_lt_upper_bound; lia. }
  rewrite Z.mod_small by lia. pose proof (Z.div_mod n 4096 ltac:(lia)).
  pose proof (Z.mod_pos_bound n 4096 ltac:(lia)). lia.
Qed.

Lemma calc_short : exists n, 0 <= n /\ calc_buf_size n < n.
Proof. exists 16777217. split; [lia|]. vm_compute. reflexivity. Qed.

(** ** NoLayer.R *)
Lemma nl_covers_one : forall off req d, 1 <= req -> nl_covers off req d = covers off d.
Proof.
  intros. unfold nl_covers, covers. rewrite Z.min_l by lia. f_equal. lia.
Qed.

Lemma last_index_ext : forall A (p q : A -> bool) l, (forall x, p x = q x) ->
  last_index p l = last_index q l.
Proof.
  intros A p q l H. unfold last_index. generalize 0%nat.
  induction l; intros n; cbn; [reflexivity|]. rewrite IHl, H. reflexivity.
Qed.

Lemma nl_r_base : forall b off req, in_memory b -> 0 <= off -> 1 <= req ->
  nl_r b off req = base_r b off req.
Proof.
  intros b off req Hb Ho Hr. unfold nl_r.
  rewrite (last_index_ext _ _ (covers off)) by (intros; apply nl_covers_one; lia).
  destruct (last_index (covers off) (b_diffs b)) as [n|] eqn:L; [|reflexivity].
  unfold base_r, writer_r. rewrite L.
  destruct (last_index_some _ _ _ _ L) as (l1 & d & l2 & E & Hn & C & _).
  rewrite E, <- Hn, nth_error_mid. apply covers_iff in C.
  rewrite gs_from_ok by (unfold d_len in C; lia). cbn [bind opt_len].
  replace (gs_len _ =? 0) with false; [reflexivity|].
  symmetry. apply Z.eqb_neq. unfold gs_len. cbn [sl_data]. rewrite zlen_zskip.
  unfold d_len, gs_len in C. lia.
Qed.

Lemma nl_r_zero : exists b off, in_memory b /\ shows b (img_bytes [x01; x02; x03]) /\
  base_r b off 0 = Ok (Some (gs_of [x03])) /\ nl_r b off 0 = Ok (Some (gs_of [])).
Proof.
  exists (fst (write_at (new_base (gs_of [x0a; x0b; x03])) [x01; x02] 0)), 2.
  assert (M : in_memory (fst (write_at (new_base (gs_of [x0a; x0b; x03])) [x01; x02] 0))).
  { split; [reflexivity|]. repeat constructor; cbn; lia. }
  split; [exact M|]. split.
  - intros i Hi. rewrite peek_content by auto. f_equal. cbn.
    destruct (Z.eq_dec i 0); [subst; reflexivity|].
    destruct (Z.eq_dec i 1); [subst; reflexivity|].
    destruct (Z.eq_dec i 2); [subst; reflexivity|].
    unfold content, over. cbn. unfold covers. cbn [d_off d_sl d_len gs_len sl_data zlen].
    change (d_len _) with 2.
    replace ((0 <=? i) && (i <? 0 + 2)) with false by (destruct (i <? 0 + 2) eqn:X; destruct (0 <=? i); cbn; auto; lia).
    unfold img_bytes. rewrite !zget_ge; auto; cbn; lia.
  - split; reflexivity.
Qed.

(** ** DirectReader *)
Lemma stream_read_spec : forall str n k, 0 <= k -> 0 <= n ->
  fst (stream_read_at str n k) = zfirst n (zskip k str).
Proof.
  intros str n k Hk Hn. unfold stream_read_at. destruct (Z.ltb_spec k 0); [lia|]. reflexivity.
Qed.

Lemma dr_read : forall b str data off req, in_memory b -> reads_current b ->
  shows b (img_bytes data) -> len_buf b = zlen data -> 0 <= off -> 0 <= req ->
  exists s, dr_r b str off req = Ok s /\
    slice_of_image (continued data str) off (opt_data s) /\
    (off < zlen data + zlen str -> opt_data s <> []).
Proof.
  intros b str data off req Hb RC SH LB Ho Hr. unfold dr_r.
  destruct (Z.ltb_spec off (len_buf b)) as [H|H].
  - destruct (base_r_spec b off req Hb Ho Hr) as (s & E & S). exists s. split; [exact E|]. split.
    + intros k Hk. rewrite (RC off req s _ Ho Hr SH E k Hk).
      unfold continued, img_bytes. rewrite zget_app.
      assert (Q : zget (opt_data s) k = zget data (off + k)) by exact (RC off req s _ Ho Hr SH E k Hk).
      destruct (zget_some (opt_data s) k Hk) as [x Hx]. rewrite Hx in Q. symmetry in Q.
      pose proof (zget_some_range _ _ _ Q).
      destruct (off + k <? zlen data) eqn:X; [reflexivity|lia].
    + intros _ C. specialize (SH off Ho). rewrite peek_content in SH by auto.
      pose proof (base_r_spec b off 1 Hb Ho ltac:(lia)) as (s1 & E1 & S1).
      injection SH as SH. unfold img_bytes in SH.
      destruct (zget_some data off ltac:(lia)) as [x Hx]. rewrite Hx in SH.
      unfold content, over in SH.
      destruct (find_last (covers off) (b_diffs b)) as [d|] eqn:F.
      * destruct (find_last_some _ _ _ _ F) as [_ CV]. apply covers_iff in CV.
        assert (zlen (opt_data s) = 0) by (rewrite C; reflexivity).
        rewrite S, zlen_zskip in H0. unfold d_len, gs_len in CV. fold (d_data d) in CV. lia.
      * destruct S as (S2 & _). apply zget_some_range in SH.
        specialize (S2 ltac:(unfold gs_len; lia)). rewrite opt_len_data, C in S2. cbn in S2. lia.
  - unfold stream_read_at. destruct (Z.ltb_spec (off - len_buf b) 0); [lia|].
    set (p := zfirst 128 (zskip (off - len_buf b) str)).
    assert (LP : zlen p = Z.min 128 (Z.max 0 (zlen str - (off - len_buf b)))).
    { unfold p. rewrite zlen_zfirst, zlen_zskip. lia. }
    destruct ((zlen p <? 128) && (zlen p =? 0)) eqn:X.
    + eexists. split; [reflexivity|]. cbn [opt_data]. split.
      * intros k Hk. cbn in Hk. lia.
      * apply andb_prop in X. destruct X as [_ X]. apply Z.eqb_eq in X. lia.
    + eexists. split; [reflexivity|]. cbn [opt_data sl_data]. split.
      * intros k Hk. unfold continued, img_bytes, p. rewrite zget_zfirst, zget_app.
        destruct (off + k <? zlen data) eqn:Y; [lia|].
        replace ((k <? 128)) with true by lia. rewrite zget_zskip by lia.
        destruct (k <? 0) eqn:W; [lia|]. f_equal. lia.
      * intros L C. assert (zlen p = 0) by (rewrite C; reflexivity).
        lia.
Qed.

(** ** Diff.Merge *)
Lemma gs_copy_ok : forall s a p, 0 <= a <= gs_len s ->
  gs_copy s a p = Ok (mkSlice (copy_at (sl_data s) a p) (sl_spare s)).
Proof.
  intros s a p H. unfold gs_copy. destruct (Z.leb_spec 0 a); [|lia].
  destruct (Z.leb_spec a (gs_len s)); [reflexivity|lia].
Qed.

Lemma include_iff : forall d pos, include d pos = true <-> d_off d <= pos < d_off d + d_len d.
Proof. intros. unfold include. lia. Qed.

Lemma entry_img_get : forall d i, entry_img d i = zget (d_data d) (i - d_off d).
Proof.
  intros d i. unfold entry_img, img_write.
  destruct ((d_off d <=? i) && (i <? d_off d + zlen (d_data d))) eqn:E; [reflexivity|].
  symmetry. destruct (Z_lt_dec i (d_off d)); [apply zget_neg; lia|apply zget_ge; lia].
Qed.

Lemma d_len_data : forall d, d_len d = zlen (d_data d).
Proof. reflexivity. Qed.

Lemma merge_ok : forall d s,
  d_off d <= d_off s ->
  (d_off s + d_len s <= d_off d + d_len d \/ d_off d + d_cap d <= d_off s + d_len s \/
   d_off d + d_len d <= d_off s) ->
  exists d', diff_merge d s = Ok d' /\ d_off d' = d_off d /\
    forall i, d_off d <= i < Z.max (d_off d + d_len d) (d_off s + d_len s) ->
      entry_img d' i = laid_over d s i.
Proof.
  intros d s HO HC. unfold diff_merge.
  pose proof (d_len_nonneg d) as LD. pose proof (d_len_nonneg s) as LS.
  rewrite d_len_data in LD, LS.
  destruct (inner d (d_off s) (d_len s)) eqn:IN.
  { unfold inner in IN. apply andb_prop in IN. destruct IN as [I1 I2]. apply include_iff in I1.
    apply Z.leb_le in I2. rewrite !d_len_data in *.
    rewrite gs_copy_ok by (unfold gs_len; fold (d_data d); lia). cbn [bind].
    eexists. split; [reflexivity|]. split; [reflexivity|]. intros i Hi.
    rewrite entry_img_get. cbn [d_off]. unfold d_data at 1. cbn [d_sl sl_data]. fold (d_data d).
    rewrite zget_copy_at by lia. unfold laid_over.
    destruct ((d_off d + d_len d <=? i) && (i <? d_off s)) eqn:G; [rewrite d_len_data in G; lia|].
    unfold img_write. rewrite entry_img_get.
    destruct ((d_off s - d_off d <=? i - d_off d) && (i - d_off d <? d_off s - d_off d + zlen (d_data s)) && (i - d_off d <? zlen (d_data d))) eqn:A;
    destruct ((d_off s <=? i) && (i <? d_off s + zlen (d_data s))) eqn:B; try lia.
    - f_equal. lia.
    - reflexivity. }
  assert (NI : ~ (d_off s < d_off d + d_len d /\ d_off s + d_len s <= d_off d + d_len d)).
  { intros [A B]. unfold inner in IN. assert (include d (d_off s) = true) by (apply include_iff; lia).
    rewrite H in IN. cbn in IN. apply Z.leb_gt in IN. lia. }
  destruct (include d (d_off s)) eqn:IC.
  - apply include_iff in IC.
    replace (d_off s + d_len s <? d_off d + d_cap d) with false by lia. cbn [andb].
    set (nlen := Z.max (d_off d + d_len d) (d_off s + d_len s) - Z.min (d_off d) (d_off s)).
    assert (Hn : nlen = d_off s + d_len s - d_off d) by (unfold nlen; lia).
    assert (ZN : zlen (zeros nlen) = nlen) by (rewrite zlen_zeros; lia).
    rewrite gs_copy_ok by (unfold gs_len; cbn [gs_make sl_data]; lia).
    cbn [bind gs_make sl_data sl_spare d_off d_sl].
    assert (ZC : zlen (copy_at (zeros nlen) 0 (d_data d)) = nlen) by (rewrite zlen_copy_at; lia).
    rewrite gs_copy_ok by (unfold gs_len; cbn [sl_data]; lia). cbn [bind sl_data sl_spare].
    eexists. split; [reflexivity|]. split; [reflexivity|]. intros i Hi.
    rewrite entry_img_get. cbn [d_off]. unfold d_data at 1. cbn [d_sl sl_data].
    rewrite zget_copy_at by lia. rewrite zget_copy_at by lia. rewrite ZC, ZN. unfold laid_over.
    rewrite !d_len_data in *.
    destruct ((d_off d + zlen (d_data d) <=? i) && (i <? d_off s)) eqn:G; [lia|].
    unfold img_write. rewrite entry_img_get.
    destruct ((d_off s - d_off d <=? i - d_off d) && (i - d_off d <? d_off s - d_off d + zlen (d_data s)) && (i - d_off d <? nlen)) eqn:A;
    destruct ((d_off s <=? i) && (i <? d_off s + zlen (d_data s))) eqn:B; try lia.
    + f_equal. lia.
    + destruct ((0 <=? i - d_off d) && (i - d_off d <? 0 + zlen (d_data d)) && (i - d_off d <? nlen)) eqn:C; try lia.
      f_equal. lia.
  - cbn [andb]. destruct (d_off s <? d_off d) eqn:LT; [lia|].
    assert (GE : d_off d + d_len d <= d_off s).
    { assert (~ (d_off d <= d_off s < d_off d + d_len d)); [|lia].
      intros C. apply include_iff in C. congruence. }
    set (nlen := Z.max (d_off d + d_len d) (d_off s + d_len s) - Z.min (d_off d) (d_off s)).
    assert (Hn : nlen = d_off s + d_len s - d_off d) by (unfold nlen; rewrite !d_len_data in *; lia).
    rewrite !d_len_data in *.
    assert (ZN : zlen (zeros nlen) = nlen) by (rewrite zlen_zeros; lia).
    rewrite gs_copy_ok by (unfold gs_len; cbn [gs_make sl_data]; lia).
    cbn [bind gs_make sl_data sl_spare d_off d_sl].
    assert (ZC : zlen (copy_at (zeros nlen) 0 (d_data d)) = nlen) by (rewrite zlen_copy_at; lia).
    rewrite gs_copy_ok by (unfold gs_len; cbn [sl_data]; lia). cbn [bind sl_data sl_spare].
    eexists. split; [reflexivity|]. split; [reflexivity|]. intros i Hi.
    rewrite entry_img_get. cbn [d_off]. unfold d_data at 1. cbn [d_sl sl_data].
    rewrite zget_copy_at by lia. rewrite zget_copy_at by lia. rewrite ZC, ZN. unfold laid_over.
    rewrite !d_len_data in *.
    unfold img_write. rewrite entry_img_get.
    destruct ((d_off s - d_off d <=? i - d_off d) && (i - d_off d <? d_off s - d_off d + zlen (d_data s)) && (i - d_off d <? nlen)) eqn:A;
    destruct ((d_off d + zlen (d_data d) <=? i) && (i <? d_off s)) eqn:G;
    destruct ((d_off s <=? i) && (i <? d_off s + zlen (d_data s))) eqn:B; try lia.
    + f_equal. lia.
    + destruct ((0 <=? i - d_off d) && (i - d_off d <? 0 + zlen (d_data d)) && (i - d_off d <? nlen)) eqn:C; try lia.
      rewrite zget_zeros. destruct ((0 <=? i - d_off d) && (i - d_off d <? nlen)) eqn:D; [reflexivity|lia].
    + destruct ((0 <=? i - d_off d) && (i - d_off d <? 0 + zlen (d_data d)) && (i - d_off d <? nlen)) eqn:C; try lia.
      f_equal. lia.
Qed.

Lemma merge_before : forall d s, d_off s < d_off d -> exists d',
  diff_merge d s = Ok d' /\ d_off d' = d_off s /\ d_data d' = d_data d.
Proof.
  intros d s H. unfold diff_merge.
  assert (I : include d (d_off s) = false).
  { destruct (include d (d_off s)) eqn:E; [|reflexivity]. apply include_iff in E. lia. }
  unfold inner. rewrite I. cbn [andb]. replace (d_off s <? d_off d) with true by lia.
  pose proof (d_len_nonneg d). pose proof (d_len_nonneg s).
  set (nlen := Z.max (d_off d + d_len d) (d_off s + d_len s) - Z.min (d_off d) (d_off s)).
  assert (ZN : zlen (zeros nlen) = nlen) by (rewrite zlen_zeros; lia).
  rewrite gs_copy_ok by (unfold gs_len; cbn [gs_make sl_data]; lia). cbn [bind gs_make sl_data sl_spare].
  rewrite gs_copy_ok.
  2: { unfold gs_len. cbn [sl_data]. rewrite zlen_copy_at; lia. }
  cbn [bind]. eexists. repeat split.
Qed.

Lemma merge_spare : exists d s d' i, diff_merge d s = Ok d' /\ d_off d <= d_off s /\
  laid_over d s i = Some x0d /\ entry_img d' i = None.
Proof.
  exists (mkDiff 0 (mkSlice [x01; x02] [x00; x00; x00])), (mkDiff 1 (gs_of [x0c; x0d])).
  eexists. exists 2. split; [reflexivity|]. split; [cbn; lia|]. split; reflexivity.
Qed.

Lemma merge_lost : exists d s d' i, diff_merge d s = Ok d' /\
  entry_img s i = Some x07 /\ entry_img d' i = Some x01.
Proof.
  exists (mkDiff 4 (gs_of [x01; x02])), (mkDiff 2 (gs_of [x07])). eexists. exists 2.
  split; [reflexivity|]. split; reflexivity.
Qed.

(** ** DoubleLayer reads *)
Lemma dl_hides : exists os b b' s, Forall wop_ok os /\
  run_wops (new_base (gs_of [x61; x62; x63; x64; x65])) os = Ok b /\
  peek b 2 = Ok (Some x63) /\ dl_r b 2 1 = Ok (b', s) /\ hd_error (opt_data s) = Some x00.
Proof.
  exists [OpWriteAt 0 [x58]; OpWriteAt 4 [x59]]. eexists. eexists. eexists.
  split; [repeat constructor; cbn; lia|]. split; [vm_compute; reflexivity|].
  split; [vm_compute; reflexivity|]. split; [vm_compute; reflexivity|]. reflexivity.
Qed.

(** With at most one entry, reading merges nothing. *)
Lemma dl_single : forall b off req, in_memory b -> (length (b_diffs b) <= 1)%nat ->
  0 <= off -> 1 <= req ->
  exists s, dl_r b off req = Ok (b, s) /\ base_r b off req = Ok s.
Proof.
  intros b off req Hb HL Ho Hr. unfold dl_r, dl_merge.
  destruct (b_diffs b) as [|d [|e l]] eqn:E; cbn in HL; try lia; cbn [bind];
    rewrite nl_r_base by auto;
    destruct (base_r_spec b off req Hb Ho ltac:(lia)) as (s & Es & _); rewrite Es;
    exists s; split; reflexivity.
Qed.

(** ** Equal, BufInfo and shrink *)
Lemma list_eqb_eq : forall l l', list_eqb l l' = true <-> l = l'.
Proof.
  induction l; destruct l'; cbn; try (split; congruence).
  rewrite andb_true_iff, IHl. split.
  - intros [H ->]. apply Byte.byte_dec_bl in H. congruence.
  - intros H. injection H as -> ->. split; [apply Byte.byte_dec_lb; reflexivity|reflexivity].
Qed.

Lemma diffs_eqb_over : forall l l' m m', diffs_eqb l l' = true -> (forall i, m i = m' i) ->
  forall i, over l m i = over l' m' i.
Proof.
  induction l as [|d l IH]; destruct l' as [|e l']; cbn [diffs_eqb]; intros m m' H E i; try discriminate.
  - rewrite !over_nil. apply E.
  - apply andb_prop in H. destruct H as [H H2]. apply andb_prop in H. destruct H as [H0 H1].
    apply Z.eqb_eq in H0. apply list_eqb_eq in H1.
    rewrite !over_cons. apply IH; [exact H2|]. intros j.
    rewrite H0, H1. apply img_write_ext. apply E.
Qed.

Lemma equal_shows : forall b c, in_memory b -> in_memory c -> base_equal b c = true ->
  forall m, shows b m -> shows c m.
Proof.
  intros b c Hb Hc H m SH i Hi. rewrite peek_content by auto. f_equal.
  specialize (SH i Hi). rewrite peek_content in SH by auto. injection SH as <-.
  unfold base_equal in H. apply andb_prop in H. destruct H as [H1 H2].
  apply list_eqb_eq in H1. unfold content. symmetry. apply diffs_eqb_over; [exact H2|].
  intros j. rewrite H1. reflexivity.
Qed.

Lemma diffs_eqb_refl : forall l, diffs_eqb l l = true.
Proof.
  induction l; cbn; [reflexivity|]. rewrite IHl, Z.eqb_refl.
  replace (list_eqb (d_data a) (d_data a)) with true; [reflexivity|].
  symmetry. apply list_eqb_eq. reflexivity.
Qed.

Lemma equal_refl : forall b, base_equal b b = true.
Proof.
  intros b. unfold base_equal. rewrite diffs_eqb_refl.
  replace (list_eqb _ _) with true; [reflexivity|]. symmetry. apply list_eqb_eq. reflexivity.
Qed.

Lemma equal_incomplete : exists b c, in_memory b /\ in_memory c /\ base_equal b c = false /\
  forall m, shows b m <-> shows c m.
Proof.
  exists (new_base (gs_of [x01; x02])), (fst (write_at (new_base (gs_of [])) [x01; x02] 0)).
  assert (M1 : in_memory (new_base (gs_of [x01; x02]))) by apply in_memory_new.
  assert (M2 : in_memory (fst (write_at (new_base (gs_of [])) [x01; x02] 0))).
  { split; [reflexivity|]. repeat constructor; cbn; lia. }
  split; [exact M1|]. split; [exact M2|]. split; [reflexivity|].
  assert (E : forall i, 0 <= i -> content (new_base (gs_of [x01; x02])) i =
                  content (fst (write_at (new_base (gs_of [])) [x01; x02] 0)) i).
  { intros i Hi. unfold content, over, write_at, new_base, set_diffs.
    cbn [fst b_diffs b_bytes app find_last sl_data gs_of].
    destruct (covers i (mkDiff 0 (gs_of [x01; x02]))) eqn:C.
    - unfold img_bytes. cbn [d_data d_sl d_off sl_data gs_of]. f_equal. lia.
    - assert (2 <= i).
      { destruct (Z_lt_dec i 2); [|lia].
        assert (covers i (mkDiff 0 (gs_of [x01; x02])) = true); [|congruence].
        apply covers_iff. cbn. lia. }
      unfold img_bytes. rewrite !zget_ge; [reflexivity| |]; cbn; lia. }
  intros m. split; intros H i Hi; specialize (H i Hi); rewrite peek_content in * by auto;
    rewrite <- H; f_equal; [symmetry|]; apply E; auto.
Qed.

Lemma buf_info_len : forall b, in_memory b -> fst (snd (buf_info b)) = len_buf b.
Proof.
  intros b [HR _]. unfold buf_info, len_buf. rewrite HR. cbn [snd fold_left].
  generalize (gs_len (b_bytes b)), (gs_cap (b_bytes b)).
  induction (b_diffs b) as [|d l IH]; intros x y; [reflexivity|]. cbn [fold_left fst snd].
  rewrite IH. f_equal. destruct (Z.ltb_spec x (d_len d + d_off d)); lia.
Qed.

Lemma shrink_bytes : forall s start size, 0 <= start -> 0 <= size ->
  exists b', base_shrink (new_base s) start size = Ok b' /\ in_memory b' /\
    forall m, shows (new_base s) m -> shows b' (img_window m start size).
Proof.
  intros s start size H0 H1. unfold base_shrink. cbn [new_base b_bytes b_diffs filter shrink_all bind].
  pose proof (gs_len_nonneg s) as LN. pose proof (gs_cap_ge s).
  assert (G : exists t, (if gs_len s <? start then Ok (gs_of nil)
            else do t <- (if start + size <? gs_len s then gs_upto s (start + size) else Ok s);
              if start <=? gs_len t then gs_from t start else Ok t) = Ok t /\
            forall i, zget (sl_data t) i = if (0 <=? i) && (i <? size) then zget (sl_data s) (start + i) else None).
  { destruct (Z.ltb_spec (gs_len s) start).
    - eexists. split; [reflexivity|]. intros i. cbn. rewrite zget_nil.
      destruct ((0 <=? i) && (i <? size)) eqn:X; [|reflexivity]. symmetry. apply zget_ge. unfold gs_len in *. lia.
    - destruct (Z.ltb_spec (start + size) (gs_len s)).
      + unfold gs_upto. rewrite gs_range_ok by lia. cbn [bind].
        match goal with |- context [gs_len ?x] => set (t := x) end.
        assert (D : sl_data t = zfirst (start + size) (sl_data s)).
        { unfold t. cbn [sl_data]. rewrite zskip_0. apply zfirst_app_le. unfold gs_len in *. lia. }
        assert (L : gs_len t = start + size).
        { unfold gs_len. rewrite D, zlen_zfirst. change (zlen (sl_data s)) with (gs_len s). lia. }
        rewrite L. replace (start <=? start + size) with true by lia.
        rewrite gs_from_ok by lia. eexists. split; [reflexivity|]. intros i. cbn [sl_data].
        rewrite zget_zskip by lia. rewrite D, zget_zfirst.
        destruct (Z.leb_spec 0 i); destruct (Z.ltb_spec i 0); try lia; cbn [andb]; [|reflexivity].
        destruct (Z.ltb_spec i size).
        * replace (start + i <? start + size) with true by lia. f_equal; lia.
        * replace (start + i <? start + size) with false by lia. reflexivity.
      + cbn [bind]. replace (start <=? gs_len s) with true by lia. rewrite gs_from_ok by lia.
        eexists. split; [reflexivity|]. intros i. cbn [sl_data]. rewrite zget_zskip by lia.
        destruct (Z.leb_spec 0 i); destruct (Z.ltb_spec i 0); try lia; cbn [andb]; [|reflexivity].
        destruct (Z.ltb_spec i size); [f_equal; lia|]. apply zget_ge. unfold gs_len in *. lia. }
  destruct G as (t & E & D). rewrite E. cbn [bind b_rdiffs b_check b_seek new_base].
  exists (mkBase t [] [] true 0). split; [reflexivity|].
  assert (M : in_memory (mkBase t [] [] true 0)) by (split; [reflexivity|constructor]).
  split; [exact M|]. intros m SH i Hi. cbn [new_base b_rdiffs b_check b_seek].
  rewrite peek_content by auto. f_equal. unfold content. cbn [b_diffs b_bytes]. rewrite over_nil.
  unfold img_bytes. rewrite D. unfold img_window.
  destruct ((0 <=? i) && (i <? size)) eqn:X; [|reflexivity].
  specialize (SH (start + i) ltac:(lia)). rewrite peek_content in SH by (auto using in_memory_new; lia).
  rewrite content_new in SH. injection SH as <-. reflexivity.
Qed.

Lemma shrink_drops : exists os b b', Forall wop_ok os /\
  run_wops (new_base (gs_of [x61; x62; x63; x64; x65; x66])) os = Ok b /\
  base_shrink b 2 3 = Ok b' /\ peek b 4 = Ok (Some x58) /\ peek b' 2 = Ok (Some x65).
Proof.
  exists [OpWriteAt 4 [x58]]. eexists. eexists.
  split; [repeat constructor; cbn; lia|]. split; [vm_compute; reflexivity|].
  split; [vm_compute; reflexivity|]. split; reflexivity.
Qed.

Lemma shrink_tail : exists os b b', Forall wop_ok os /\
  run_wops (new_base (gs_of [])) os = Ok b /\
  base_shrink b 2 3 = Ok b' /\ peek b' 3 = Ok (Some x66).
Proof.
  exists [OpWriteAt 0 [x61; x62; x63; x64; x65; x66; x67; x68]]. eexists. eexists.
  split; [repeat constructor; cbn; lia|]. split; [vm_compute; reflexivity|].
  split; [vm_compute; reflexivity|]. reflexivity.
Qed.
