(** Lemmas about the journaled buffer. *)
From Coq Require Import ZArith List Bool Lia.
From Coq Require Import ZifyBool ZifyNat.
From Coq Require Import Strings.Byte.
From Verif Require Import GoLib GoLemmas BaseModel BaseSpec.
Import ListNotations.
Open Scope Z_scope.
Ltac Zify.zify_post_hook ::= Z.div_mod_to_equations.

Lemma d_len_nonneg : forall d, 0 <= d_len d.
Proof. intros; apply zlen_nonneg. Qed.

(** Content of a journal over an image. *)
Definition over (ds : list diff) (m : image) : image :=
  fun i => match find_last (covers i) ds with
           | Some d => zget (d_data d) (i - d_off d)
           | None => m i
           end.

Definition content (b : base) : image := over (b_diffs b) (img_bytes (sl_data (b_bytes b))).

Lemma covers_get : forall i d, covers i d = true ->
  exists x, zget (d_data d) (i - d_off d) = Some x.
Proof.
  intros i d C. apply zget_some. unfold covers, d_len, gs_len, d_data in *. lia.
Qed.

Lemma covers_iff : forall i d, covers i d = true <-> d_off d <= i < d_off d + d_len d.
Proof. intros; unfold covers; lia. Qed.

Lemma over_nil : forall m i, over nil m i = m i.
Proof. reflexivity. Qed.

Lemma over_app : forall ds1 ds2 m i, over (ds1 ++ ds2) m i = over ds2 (over ds1 m) i.
Proof.
  intros; unfold over. rewrite find_last_app.
  destruct (find_last (covers i) ds2); reflexivity.
Qed.

Lemma over_one : forall d m i,
  over [d] m i = img_write m (d_off d) (d_data d) i.
Proof.
  intros; unfold over, img_write; cbn [find_last].
  unfold covers, d_len, gs_len, d_data.
  destruct ((d_off d <=? i) && (i <? d_off d + zlen (sl_data (d_sl d)))); reflexivity.
Qed.

Lemma over_cons : forall d ds m i,
  over (d :: ds) m i = over ds (img_write m (d_off d) (d_data d)) i.
Proof.
  intros. change (d :: ds) with ([d] ++ ds). rewrite over_app.
  unfold over at 1 3. destruct (find_last (covers i) ds); [reflexivity|apply over_one].
Qed.

Lemma over_ext : forall ds m m' i, m i = m' i -> over ds m i = over ds m' i.
Proof. intros; unfold over. destruct (find_last (covers i) ds); auto. Qed.

Lemma img_write_ext : forall m m' off p i, m i = m' i ->
  img_write m off p i = img_write m' off p i.
Proof. intros; unfold img_write. destruct (_ && _); auto. Qed.

Lemma img_write_nil : forall m off i, img_write m off nil i = m i.
Proof. intros; unfold img_write. rewrite zlen_nil. destruct (_ && _) eqn:E; [lia|reflexivity]. Qed.

(** ** Reads *)

Lemma min_offset_gt_spec : forall ds off acc,
  (acc < 0 \/ off < acc) ->
  Forall (fun d => 0 <= d_off d) ds ->
  let r := min_offset_gt off ds acc in
  (r < 0 -> acc < 0 /\ forall d, In d ds -> d_off d <= off)
  /\ (0 <= r -> off < r /\ (0 <= acc -> r <= acc) /\ forall d, In d ds -> off < d_off d -> r <= d_off d).
Proof.
  induction ds as [|d ds IH]; intros off acc Hacc HF; cbn [min_offset_gt]; cbv zeta.
  - split; intros; [split; [lia|intros ? []]|]. split; [lia|]. split; [lia|intros ? []].
  - inversion HF as [|? ? Hd HF']; subst.
    destruct (off <? d_off d) eqn:E.
    + specialize (IH off (if (acc <? 0) || (d_off d <? acc) then d_off d else acc)).
      cbv zeta in IH. destruct IH as [I1 I2]; auto.
      { destruct ((acc <? 0) || (d_off d <? acc)) eqn:E2; lia. }
      set (a' := if (acc <? 0) || (d_off d <? acc) then d_off d else acc) in *.
      assert (Ha' : 0 <= a' /\ (0 <= acc -> a' <= acc) /\ a' <= d_off d).
      { unfold a'. destruct ((acc <? 0) || (d_off d <? acc)) eqn:E2; lia. }
      split; intros H.
      * destruct (I1 H). lia.
      * destruct (I2 H) as (A & B & C). split; [lia|]. split; [lia|].
        intros x [->|Hx] Hlt; [lia|auto].
    + specialize (IH off acc Hacc HF'). cbv zeta in IH. destruct IH as [I1 I2].
      split; intros H.
      * destruct (I1 H) as [A B]. split; [lia|]. intros x [->|Hx]; [lia|auto].
      * destruct (I2 H) as (A & B & C). split; [lia|]. split; [lia|].
        intros x [->|Hx] Hlt; [lia|auto].
Qed.

Lemma hd_error_zget : forall A (l : list A), hd_error l = zget l 0.
Proof. destruct l; reflexivity. Qed.

(** The value of [writer_r]. *)
Lemma writer_r_spec : forall b off, in_memory b -> 0 <= off ->
  exists s, writer_r b off = Ok s /\
    match find_last (covers off) (b_diffs b) with
    | Some d => opt_data s = zskip (off - d_off d) (d_data d) /\ 0 < opt_len s
    | None =>
        opt_len s <= Z.max 0 (gs_len (b_bytes b) - off) /\
        (off < gs_len (b_bytes b) -> 0 < opt_len s) /\
        (forall k, 0 <= k < opt_len s ->
           zget (opt_data s) k = zget (sl_data (b_bytes b)) (off + k)
           /\ find_last (covers (off + k)) (b_diffs b) = None)
    end.
Proof.
  intros b off [HR HF] Hoff. unfold writer_r.
  destruct (last_index (covers off) (b_diffs b)) as [n|] eqn:E.
  - pose proof (last_index_find_last _ (covers off) (b_diffs b)) as L. rewrite E in L.
    destruct L as [L1 L2].
    destruct (find_last (covers off) (b_diffs b)) as [d|] eqn:F; [|congruence].
    rewrite L1. destruct (find_last_some _ _ _ _ F) as [_ C]. apply covers_iff in C.
    pose proof (d_len_nonneg d). unfold d_len in *.
    rewrite gs_from_ok by lia. cbn [bind].
    eexists; split; [reflexivity|]. cbn [opt_data opt_len sl_data]. split; [reflexivity|].
    unfold gs_len in *; cbn [sl_data]. rewrite zlen_zskip. lia.
  - apply last_index_none in E. rewrite E.
    pose proof (gs_len_nonneg (b_bytes b)).
    destruct (gs_len (b_bytes b) <? off) eqn:E1.
    { exists None. split; [reflexivity|]. cbn [opt_len opt_data]. split; [lia|]. split; [lia|]. intros; lia. }
    assert (Hfull : forall s, s = mkSlice (zskip off (sl_data (b_bytes b))) (sl_spare (b_bytes b)) ->
              (forall d, In d (b_diffs b) -> d_off d <= off) ->
              opt_len (Some s) <= Z.max 0 (gs_len (b_bytes b) - off) /\
              (off < gs_len (b_bytes b) -> 0 < opt_len (Some s)) /\
              (forall k, 0 <= k < opt_len (Some s) ->
                zget (opt_data (Some s)) k = zget (sl_data (b_bytes b)) (off + k)
                /\ find_last (covers (off + k)) (b_diffs b) = None)).
    { intros s -> Hle. cbn [opt_len opt_data sl_data]. unfold gs_len in *; cbn [sl_data].
      rewrite zlen_zskip. split; [lia|]. split; [lia|]. intros k Hk. split.
      - rewrite zget_zskip by lia. destruct (k <? 0) eqn:K; [lia|reflexivity].
      - apply find_last_none_iff. intros d Hd.
        pose proof (find_last_none _ _ _ _ E Hd) as C. specialize (Hle d Hd).
        unfold covers in *. lia. }
    destruct (b_diffs b) as [|d0 ds0] eqn:ED.
    { rewrite gs_from_ok by lia. cbn [bind]. eexists; split; [reflexivity|].
      apply Hfull; [reflexivity|intros ? []]. }
    rewrite <- ED in *.
    pose proof (min_offset_gt_spec (b_diffs b) off (-1) ltac:(lia) HF) as M. cbv zeta in M.
    destruct M as [M1 M2].
    destruct (min_offset_gt off (b_diffs b) (-1) <? 0) eqn:E2.
    { rewrite gs_from_ok by lia. cbn [bind]. eexists; split; [reflexivity|].
      apply Hfull; [reflexivity|]. apply M1; lia. }
    destruct (M2 ltac:(lia)) as (A & _ & C). clear M1 M2 Hfull.
    set (mo := min_offset_gt off (b_diffs b) (-1)) in *.
    rewrite gs_from_ok by lia. cbn [bind].
    set (lim := Z.min _ mo).
    assert (Hlim : lim = Z.min (gs_len (b_bytes b)) mo).
    { unfold lim, gs_len; cbn [sl_data]. rewrite zlen_zskip. unfold gs_len in *. lia. }
    pose proof (gs_cap_ge (b_bytes b)).
    rewrite gs_range_ok by lia. cbn [bind]. eexists; split; [reflexivity|].
    cbn [opt_len opt_data sl_data]. unfold gs_len in *; cbn [sl_data].
    rewrite zlen_zskip, zlen_zfirst, zlen_app.
    pose proof (zlen_nonneg (sl_spare (b_bytes b))).
    split; [lia|]. split; [lia|]. intros k Hk. split.
    + rewrite zget_zskip by lia. destruct (k <? 0) eqn:K; [lia|].
      rewrite zget_zfirst, zget_app.
      replace (off + k <? lim) with true by lia.
      replace (off + k <? zlen (sl_data (b_bytes b))) with true by lia. reflexivity.
    + apply find_last_none_iff. intros d Hd.
      pose proof (find_last_none _ _ _ _ E Hd) as CC. specialize (C d Hd).
      unfold covers in *. lia.
Qed.

Lemma reader_r0_spec : forall b off req, in_memory b -> 0 <= off -> 0 <= req ->
  exists s, reader_r0 b off req = Ok s /\
    (gs_len (b_bytes b) <= off -> opt_data s = nil) /\
    (s = None \/ opt_data s = zskip off (sl_data (b_bytes b))).
Proof.
  intros b off req [HR _] Ho Hr. unfold reader_r0. rewrite HR. cbn [last_index last_index_from].
  change (last_index (rcovers off req) nil) with (@None nat). cbv iota.
  pose proof (gs_len_nonneg (b_bytes b)).
  destruct (gs_len (b_bytes b) <? off + req) eqn:E1.
  - destruct (off + Z.max 1 req <=? gs_len (b_bytes b)) eqn:E2; [lia|].
    eexists; split; [reflexivity|]. cbn. split; auto.
  - rewrite gs_from_ok by lia. cbn [bind]. eexists; split; [reflexivity|]. cbn [opt_data sl_data].
    split; [|auto]. intros. apply zget_ext; intros i. rewrite zget_nil, zget_zskip by lia.
    destruct (i <? 0) eqn:K; [reflexivity|]. apply zget_ge. unfold gs_len in *. lia.
Qed.

(** The value of [R]: which bytes come back. *)
Lemma base_r_spec : forall b off req, in_memory b -> 0 <= off -> 0 <= req ->
  exists s, base_r b off req = Ok s /\
    match find_last (covers off) (b_diffs b) with
    | Some d => opt_data s = zskip (off - d_off d) (d_data d)
    | None =>
        (off < gs_len (b_bytes b) -> 0 < opt_len s) /\
        (gs_len (b_bytes b) <= off -> opt_len s = 0) /\
        (forall k, 0 <= k < opt_len s ->
           zget (opt_data s) k = zget (sl_data (b_bytes b)) (off + k)
           /\ find_last (covers (off + k)) (b_diffs b) = None)
    end.
Proof.
  intros b off req Hb Ho Hr. unfold base_r.
  destruct (writer_r_spec b off Hb Ho) as (s & -> & S). cbn [bind].
  pose proof (gs_len_nonneg (b_bytes b)).
  destruct (find_last (covers off) (b_diffs b)) as [d|] eqn:F.
  - destruct S as [S1 S2]. replace (opt_len s =? 0) with false by lia. eauto.
  - destruct S as (S1 & S2 & S3).
    destruct (opt_len s =? 0) eqn:E.
    + destruct (reader_r0_spec b off req Hb Ho Hr) as (s' & E' & S1' & S2').
      exists s'. split; [exact E'|].
      assert (Hge : gs_len (b_bytes b) <= off) by lia.
      specialize (S1' Hge). split; [lia|].
      assert (Hz : opt_len s' = 0).
      { destruct s' as [x|]; [|reflexivity]. cbn in *. unfold gs_len. rewrite S1'. reflexivity. }
      split; [auto|]. intros; lia.
    + exists s. split; [reflexivity|].
      split; [auto|]. split; [|auto]. intros.
      destruct s as [x|]; cbn [opt_len] in *; [|lia]. pose proof (gs_len_nonneg x). lia.
Qed.

Lemma opt_len_data : forall s, opt_len s = zlen (opt_data s).
Proof. destruct s; reflexivity. Qed.

Lemma content_none_ge : forall b i, find_last (covers i) (b_diffs b) = None ->
  gs_len (b_bytes b) <= i -> content b i = None.
Proof.
  intros b i F H. unfold content, over. rewrite F. unfold img_bytes. apply zget_ge. exact H.
Qed.

Lemma peek_content : forall b i, in_memory b -> 0 <= i -> peek b i = Ok (content b i).
Proof.
  intros b i Hb Hi. unfold peek.
  destruct (base_r_spec b i 1 Hb Hi ltac:(lia)) as (s & -> & S). cbn [bind].
  f_equal. unfold content, over. rewrite hd_error_zget.
  destruct (find_last (covers i) (b_diffs b)) as [d|] eqn:F.
  - rewrite S. destruct (find_last_some _ _ _ _ F) as [_ C]. apply covers_iff in C.
    rewrite zget_zskip by lia. cbn. f_equal; lia.
  - destruct S as (S1 & S2 & S3). unfold img_bytes.
    destruct (Z_lt_dec i (gs_len (b_bytes b))).
    + destruct (S3 0) as [S3' _]; [specialize (S1 ltac:(lia)); lia|].
      rewrite S3'. f_equal; lia.
    + specialize (S2 ltac:(lia)). rewrite opt_len_data in S2.
      rewrite (zget_ge (opt_data s)) by lia. symmetry; apply zget_ge. unfold gs_len in *; lia.
Qed.

Lemma shows_content : forall b, in_memory b -> shows b (content b).
Proof. intros b Hb i Hi. apply peek_content; auto. Qed.

Lemma shows_unique : forall b m m', shows b m -> shows b m' -> forall i, 0 <= i -> m i = m' i.
Proof. intros b m m' H H' i Hi. specialize (H i Hi). specialize (H' i Hi). congruence. Qed.

Lemma shows_ext : forall b m m', (forall i, 0 <= i -> m i = m' i) -> shows b m -> shows b m'.
Proof. intros b m m' E H i Hi. rewrite <- E by auto. auto. Qed.

(** ** Writes *)

Lemma content_append : forall b d i,
  content (set_diffs b (b_diffs b ++ [d])) i = img_write (content b) (d_off d) (d_data d) i.
Proof.
  intros. unfold content; cbn [set_diffs b_diffs b_bytes]. rewrite over_app, over_one. reflexivity.
Qed.

Lemma in_memory_set_diffs : forall b ds, b_rdiffs b = nil ->
  Forall (fun d => 0 <= d_off d) ds -> in_memory (set_diffs b ds).
Proof. intros; split; auto. Qed.

Lemma write_at_spec : forall b p off, in_memory b -> 0 <= off ->
  in_memory (fst (write_at b p off)) /\
  (forall i, content (fst (write_at b p off)) i = img_write (content b) off p i) /\
  snd (write_at b p off) = zlen p.
Proof.
  intros b p off [H1 H2] Ho. unfold write_at; cbn [fst snd]. split; [|split; [|reflexivity]].
  - apply in_memory_set_diffs; auto. apply Forall_app; split; auto.
  - intros i. rewrite content_append. reflexivity.
Qed.

(** Replacing an entry by consecutive pieces of itself keeps the content. *)
Lemma over_split : forall d s1 s2 k m i,
  0 <= k <= d_len d ->
  sl_data s1 = zfirst k (d_data d) -> sl_data s2 = zskip k (d_data d) ->
  over [mkDiff (d_off d) s1; mkDiff (d_off d + k) s2] m i = over [d] m i.
Proof.
  intros d s1 s2 k m i Hk E1 E2. rewrite over_cons, !over_one. cbn [d_off d_data d_sl].
  unfold d_data at 1 2; cbn [d_sl]. rewrite E1, E2.
  unfold img_write. unfold d_len, gs_len in Hk. fold (d_data d) in Hk.
  rewrite zlen_zfirst, zlen_zskip.
  destruct ((d_off d <=? i) && (i <? d_off d + zlen (d_data d))) eqn:C.
  - destruct ((d_off d + k <=? i) && _) eqn:C1.
    + rewrite zget_zskip by lia. destruct (i - (d_off d + k) <? 0) eqn:K; [lia|]. f_equal; lia.
    + destruct ((d_off d <=? i) && (i <? d_off d + Z.max 0 _)) eqn:C2; [|lia].
      rewrite zget_zfirst. destruct (i - d_off d <? k) eqn:K; [reflexivity|lia].
  - destruct ((d_off d + k <=? i) && _) eqn:C1; [lia|].
    destruct ((d_off d <=? i) && (i <? d_off d + Z.max 0 _)) eqn:C2; [lia|reflexivity].
Qed.

Lemma over_app3 : forall l1 l2 l3 m i, over (l1 ++ l2 ++ l3) m i = over l3 (over l2 (over l1 m)) i.
Proof.
  intros. rewrite !over_app. reflexivity.
Qed.

Lemma over_replace : forall l1 l2 l2' l3 m i,
  (forall m j, over l2 m j = over l2' m j) ->
  over (l1 ++ l2 ++ l3) m i = over (l1 ++ l2' ++ l3) m i.
Proof.
  intros. rewrite !over_app3. unfold over at 1 4.
  destruct (find_last (covers i) l3); [reflexivity|]. apply H.
Qed.

Lemma base_d_spec : forall b off size nb, in_memory b -> 0 <= off -> 0 <= size ->
  gs_len nb = size ->
  exists b', base_d b off size nb = Ok b' /\ in_memory b' /\ b_bytes b' = b_bytes b /\
    b_seek b' = b_seek b /\ b_check b' = b_check b /\
    forall i, content b' i = img_write (content b) off (sl_data nb) i.
Proof.
  intros b off size nb Hb Ho Hs Hn. pose proof Hb as [HR HF]. unfold base_d.
  destruct (last_index (covers off) (b_diffs b)) as [sn|] eqn:E.
  - destruct (last_index_some _ _ _ _ E) as (l1 & d & l2 & ED & EL & C & F).
    apply covers_iff in C. rewrite ED, <- EL, nth_error_mid.
    assert (Hd0 : 0 <= d_off d).
    { rewrite Forall_forall in HF. apply HF. rewrite ED. apply in_elt. }
    destruct (d_off d + d_len d <=? off + size) eqn:E1.
    + eexists; split; [reflexivity|]. rewrite <- ED.
      split; [|repeat split; auto; intros; rewrite content_append; reflexivity].
      apply in_memory_set_diffs; auto. apply Forall_app; split; auto.
    + pose proof (gs_cap_ge (d_sl d)). unfold d_len in *.
      rewrite gs_from_ok by lia. cbn [bind].
      unfold gs_upto. rewrite gs_range_ok by lia. cbn [bind].
      rewrite firstn_mid, skipn_mid_S.
      match goal with |- context [mkDiff (d_off d) ?s] => set (bs := s) end.
      match goal with |- context [mkDiff (off + size) ?s] => set (after := s) end.
      unfold diffs_insert. rewrite app_length. cbn [length].
      destruct (length l1 + S (length l2) <? S (length l1))%nat eqn:EE; [lia|].
      replace (S (length l1)) with (length (l1 ++ [mkDiff (d_off d) bs]))
        by (rewrite app_length; cbn; lia).
      replace (l1 ++ mkDiff (d_off d) bs :: l2) with ((l1 ++ [mkDiff (d_off d) bs]) ++ l2)
        by (rewrite <- app_assoc; reflexivity).
      rewrite firstn_mid, skipn_mid.
      eexists; split; [reflexivity|].
      split.
      { apply in_memory_set_diffs; auto. rewrite ED in HF.
        apply Forall_app in HF as [HF1 HF2]. inversion HF2; subst.
        repeat (apply Forall_app; split; auto); repeat constructor; cbn; lia. }
      repeat split; auto. intros i.
      unfold content; cbn [set_diffs b_diffs b_bytes].
      rewrite over_app, over_one. cbn [d_off d_data d_sl].
      apply img_write_ext. rewrite ED.
      replace ((l1 ++ [mkDiff (d_off d) bs]) ++ [mkDiff (off + size) after] ++ l2)
        with (l1 ++ [mkDiff (d_off d) bs; mkDiff (off + size) after] ++ l2)
        by (rewrite <- app_assoc; reflexivity).
      change (l1 ++ d :: l2) with (l1 ++ [d] ++ l2).
      apply over_replace. intros m j.
      replace (off + size) with (d_off d + (off + size - d_off d)) by lia.
      apply over_split; unfold d_len; [lia| |].
      * unfold bs; cbn [sl_data]. rewrite zskip_0.
        apply zfirst_app_le. unfold gs_len, d_data in *. lia.
      * unfold after; cbn [sl_data]. f_equal. lia.
  - apply last_index_none in E.
    destruct ((off <? gs_len (b_bytes b)) && (off + size <? gs_cap (b_bytes b))) eqn:E1.
    + rewrite gs_range_ok by lia. cbn [bind].
      match goal with |- context [mkDiff off ?s] => set (bs := s) end.
      eexists; split; [reflexivity|].
      split.
      { apply in_memory_set_diffs; auto. apply Forall_app; split; auto. }
      repeat split; auto. intros i.
      unfold content; cbn [set_diffs b_diffs b_bytes].
      replace (b_diffs b ++ [mkDiff off bs; mkDiff off nb])
        with ((b_diffs b ++ [mkDiff off bs]) ++ [mkDiff off nb])
        by (rewrite <- app_assoc; reflexivity).
      rewrite over_app, over_one. cbn [d_off d_data d_sl].
      change (d_data (mkDiff off nb)) with (sl_data nb).
      unfold img_write. unfold gs_len in Hn.
      destruct ((off <=? i) && (i <? off + zlen (sl_data nb))) eqn:C; [reflexivity|].
      rewrite over_app, over_one. unfold img_write. cbn [d_off d_data d_sl].
      unfold bs, d_data; cbn [d_sl sl_data]. rewrite zlen_zskip, zlen_zfirst, zlen_app.
      fold (gs_len (b_bytes b)). unfold gs_cap in *.
      match goal with |- (if ?c then _ else _) = _ => destruct c eqn:C2 end;
        [unfold gs_len in *; lia|reflexivity].
    + eexists; split; [reflexivity|].
      split; [|repeat split; auto; intros; rewrite content_append; reflexivity].
      apply in_memory_set_diffs; auto. apply Forall_app; split; auto.
Qed.

Lemma base_u_spec : forall b off size p, in_memory b -> 0 <= off -> zlen p = size ->
  exists b', base_u b off size p = Ok b' /\ in_memory b' /\ b_bytes b' = b_bytes b /\
    b_seek b' = b_seek b /\ b_check b' = b_check b /\
    forall i, content b' i = img_write (content b) off p i.
Proof.
  intros b off size p Hb Ho Hs. unfold base_u. pose proof (zlen_nonneg p).
  destruct (size <? 0) eqn:E1; [lia|]. destruct (size <? zlen p) eqn:E2; [lia|].
  rewrite copy_at_full by (rewrite zlen_zeros; lia).
  apply (base_d_spec b off size (gs_of p)); auto; lia.
Qed.

(** ** Histories *)

Lemma run_wops_spec : forall os b,
  in_memory b -> Forall wop_ok os -> 0 <= b_seek b ->
  exists b', run_wops b os = Ok b' /\ in_memory b' /\ b_bytes b' = b_bytes b /\
    b_seek b' = snd (fold_left spec_wop os (content b, b_seek b)) /\
    forall i, content b' i = fst (fold_left spec_wop os (content b, b_seek b)) i.
Proof.
  assert (Hext : forall os m m' cur, (forall i, m i = m' i) ->
     snd (fold_left spec_wop os (m, cur)) = snd (fold_left spec_wop os (m', cur)) /\
     forall i, fst (fold_left spec_wop os (m, cur)) i = fst (fold_left spec_wop os (m', cur)) i).
  { induction os as [|o os IH]; intros m m' cur H; [split; [reflexivity|exact H]|].
    cbn [fold_left]. destruct o; cbn [spec_wop]; apply IH; intros i; apply img_write_ext; auto. }
  induction os as [|o os IH]; intros b Hb Hok Hs.
  - exists b. split; [reflexivity|]. split; [exact Hb|]. repeat split; reflexivity.
  - inversion Hok as [|? ? Ho Hos]; subst. cbn [run_wops fold_left].
    destruct o as [off p|p|off p]; cbn [wop_ok run_wop spec_wop] in *.
    + destruct (write_at_spec b p off Hb Ho) as (W1 & W2 & W3). cbn [bind].
      destruct (IH (fst (write_at b p off)) W1 Hos Hs) as (b' & R1 & R2 & R3 & R4 & R5).
      exists b'. split; [exact R1|]. split; [exact R2|]. split; [exact R3|].
      destruct (Hext os _ _ (b_seek b) W2) as [X1 X2].
      split; [rewrite R4; exact X1|]. intros i. rewrite R5. apply X2.
    + destruct (write_at_spec b p (b_seek b) Hb Hs) as (W1 & W2 & W3). cbn [bind].
      unfold base_write. destruct (write_at b p (b_seek b)) as [b1 n] eqn:EW. cbn [fst snd] in *.
      assert (b_seek b1 = b_seek b) by (unfold write_at in EW; injection EW as <- _; reflexivity).
      assert (b_bytes b1 = b_bytes b) by (unfold write_at in EW; injection EW as <- _; reflexivity).
      assert (Hm : in_memory (set_seek b1 (b_seek b1 + n))) by exact W1.
      pose proof (zlen_nonneg p).
      destruct (IH _ Hm Hos ltac:(cbn; lia)) as (b' & R1 & R2 & R3 & R4 & R5).
      exists b'. split; [exact R1|]. split; [exact R2|]. split; [rewrite R3; exact H0|].
      destruct (Hext os (content b1) (img_write (content b) (b_seek b) p) (b_seek b + zlen p) W2) as [X1 X2].
      change (content (set_seek b1 (b_seek b1 + n))) with (content b1) in *.
      cbn [set_seek b_seek] in R4, R5. rewrite H, W3 in R4, R5.
      split; [rewrite R4; exact X1|]. intros i. rewrite R5. apply X2.
    + destruct (base_u_spec b off (zlen p) p Hb Ho eq_refl) as (b1 & U1 & U2 & U3 & U4 & U5 & U6).
      rewrite U1. cbn [bind].
      destruct (IH b1 U2 Hos ltac:(lia)) as (b' & R1 & R2 & R3 & R4 & R5).
      exists b'. split; [exact R1|]. split; [exact R2|]. split; [congruence|].
      rewrite U4 in *.
      destruct (Hext os _ _ (b_seek b) U6) as [X1 X2].
      split; [rewrite R4; exact X1|]. intros i. rewrite R5. apply X2.
Qed.

Lemma in_memory_new : forall s, in_memory (new_base s).
Proof. intros; split; constructor. Qed.

Lemma content_new : forall s i, content (new_base s) i = img_bytes (sl_data s) i.
Proof. reflexivity. Qed.

Lemma history_shows : forall init os, Forall wop_ok os ->
  exists b, run_wops (new_base init) os = Ok b /\ shows b (spec_wops (img_bytes (sl_data init)) os).
Proof.
  intros init os Hok.
  destruct (run_wops_spec os (new_base init) (in_memory_new init) Hok ltac:(cbn; lia))
    as (b & R1 & R2 & _ & _ & R5).
  exists b. split; [exact R1|]. intros i Hi. rewrite peek_content by auto. f_equal. apply R5.
Qed.

Lemma u_frame : forall b off p, in_memory b -> 0 <= off ->
  exists b', base_u b off (zlen p) p = Ok b' /\ in_memory b' /\
    forall m, shows b m -> shows b' (img_write m off p).
Proof.
  intros b off p Hb Ho. destruct (base_u_spec b off (zlen p) p Hb Ho eq_refl) as (b' & E & I & _ & _ & _ & C).
  exists b'. split; [exact E|]. split; [exact I|]. intros m Hm i Hi.
  rewrite peek_content by auto. rewrite C. f_equal. apply img_write_ext.
  apply (shows_unique b); auto. apply shows_content; auto.
Qed.
