(** What shrink leaves of a buffer with a journal. *)
From Coq Require Import ZArith List Bool Lia.
From Coq Require Import Strings.Byte.
From Verif Require Import GoLib GoLemmas BaseModel BaseSpec BaseProofs.
From Verif Require Import VariantModel VariantSpec VariantProofs.
Import ListNotations.
Open Scope Z_scope.

Lemma shrink_one_spec : forall start size d, 0 <= start -> 0 <= size ->
  shrink_keep start size d = true ->
  exists d', shrink_one start size d = Ok d' /\ 0 <= d_off d' /\
    forall i, 0 <= i < size -> covers i d' = covers (start + i) d /\
      (covers i d' = true -> zget (d_data d') (i - d_off d') = zget (d_data d) (start + i - d_off d)).
Proof.
  intros start size d H0 H1 K. unfold shrink_one.
  pose proof (gs_len_nonneg (d_sl d)) as LN. pose proof (gs_cap_ge (d_sl d)) as LC.
  assert (DL : d_len d = gs_len (d_sl d)) by reflexivity.
  unfold shrink_keep, include, innerd in K. rewrite DL in K.
  assert (O : d_off d <= start + size /\ (d_off d < start -> start < d_off d + gs_len (d_sl d))).
  { destruct (d_off d <? start) eqn:X; lia. }
  destruct O as [O1 O2].
  assert (G : exists off s, (if d_off d - start <? 0 then do s <- gs_from (d_sl d) (- (d_off d - start)); Ok (0, s)
      else Ok (d_off d - start, d_sl d)) = Ok (off, s) /\ 0 <= off <= size /\
      forall i, 0 <= i -> ((off <=? i) && (i <? off + gs_len s) = covers (start + i) d) /\
        (off <= i -> zget (sl_data s) (i - off) = zget (d_data d) (start + i - d_off d))).
  { destruct (Z.ltb_spec (d_off d - start) 0).
    - rewrite gs_from_ok by lia. cbn [bind]. eexists _, _. split; [reflexivity|]. split; [lia|]. intros i Hi.
      unfold gs_len, covers. cbn [sl_data]. rewrite zlen_zskip. change (zlen (sl_data (d_sl d))) with (gs_len (d_sl d)). rewrite DL.
      split; [lia|]. intros _. rewrite zget_zskip by lia. replace (i - 0 <? 0) with false by lia. unfold d_data. f_equal. lia.
    - eexists _, _. split; [reflexivity|]. split; [lia|]. intros i Hi. unfold covers. rewrite DL.
      split; [lia|]. intros _. unfold d_data. f_equal. lia. }
  destruct G as (off & s & -> & HO & HG). cbn [bind]. pose proof (gs_len_nonneg s). pose proof (gs_cap_ge s).
  destruct (Z.ltb_spec (start + size) (off + gs_len s)).
  - unfold gs_upto. rewrite gs_range_ok by lia. cbn [bind]. eexists. split; [reflexivity|]. split; [cbn [d_off]; lia|].
    intros i Hi. destruct (HG i ltac:(lia)) as [C Z]. rewrite <- C. unfold covers, d_len, d_data, gs_len. cbn [d_off d_sl sl_data].
    rewrite zskip_0. rewrite zfirst_app_le by (unfold gs_len in *; lia). rewrite zlen_zfirst.
    change (zlen (sl_data s)) with (gs_len s). split; [lia|]. intros HC. rewrite zget_zfirst.
    replace (i - off <? start + size - off) with true by lia. apply Z. lia.
  - eexists. split; [reflexivity|]. split; [cbn [d_off]; lia|]. intros i Hi. destruct (HG i ltac:(lia)) as [C Z].
    rewrite <- C. unfold covers, d_len, d_data. cbn [d_off d_sl]. split; [reflexivity|]. intros HC. apply Z. lia.
Qed.

Lemma shrink_all_spec : forall start size ds, 0 <= start -> 0 <= size ->
  (forall d, In d ds -> start < d_off d -> d_off d + d_len d <> start + size) ->
  exists ds', shrink_all start size (filter (shrink_keep start size) ds) = Ok ds' /\
    Forall (fun d => 0 <= d_off d) ds' /\
    forall i, 0 <= i < size ->
      option_map (fun d => zget (d_data d) (i - d_off d)) (find_last (covers i) ds') =
      option_map (fun d => zget (d_data d) (start + i - d_off d)) (find_last (covers (start + i)) ds).
Proof.
  intros start size ds H0 H1. induction ds as [|d ds IH]; intros HD.
  - exists nil. split; [reflexivity|]. split; [constructor|reflexivity].
  - destruct IH as (ds' & E & F & R); [intros e He; apply HD; right; exact He|].
    cbn [filter]. destruct (shrink_keep start size d) eqn:K.
    + destruct (shrink_one_spec start size d H0 H1 K) as (d' & E1 & P & S). cbn [shrink_all]. rewrite E1. cbn [bind]. rewrite E.
      cbn [bind]. exists (d' :: ds'). split; [reflexivity|]. split; [constructor; auto|]. intros i Hi. specialize (R i Hi).
      destruct (S i Hi) as [C Z]. cbn [find_last].
      destruct (find_last (covers i) ds'), (find_last (covers (start + i)) ds); cbn [option_map] in *; try congruence.
      rewrite <- C. destruct (covers i d') eqn:Q; [|reflexivity]. cbn [option_map]. rewrite Z by reflexivity. reflexivity.
    + exists ds'. split; [exact E|]. split; [exact F|]. intros i Hi. rewrite (R i Hi). cbn [find_last].
      destruct (find_last (covers (start + i)) ds); [reflexivity|].
      assert (C : covers (start + i) d = false).
      { specialize (HD d (or_introl eq_refl)). unfold shrink_keep, include, innerd in K. unfold covers.
        destruct (d_off d <? start) eqn:X; lia. }
      rewrite C. reflexivity.
Qed.

Lemma shrink_journal : forall b start size, in_memory b -> 0 <= start -> 0 <= size ->
  (forall d, In d (b_diffs b) -> start < d_off d -> d_off d + d_len d <> start + size) ->
  exists b', base_shrink b start size = Ok b' /\ in_memory b' /\
    forall i, 0 <= i < size -> peek b' i = peek b (start + i).
Proof.
  intros b start size HM H0 H1 HD.
  destruct (shrink_bytes (b_bytes b) start size H0 H1) as (b0 & E0 & M0 & S0).
  destruct (shrink_all_spec start size (b_diffs b) H0 H1 HD) as (ds' & E & F & R).
  unfold base_shrink in *. cbn [new_base b_bytes b_diffs filter shrink_all b_rdiffs b_check b_seek] in E0.
  match type of E0 with bind ?x _ = _ => destruct x as [bs| |]; try discriminate end. cbn [bind] in *.
  injection E0 as <-. rewrite E. cbn [bind]. eexists. split; [reflexivity|].
  assert (M' : in_memory (mkBase bs (b_rdiffs b) ds' (b_check b) (b_seek b))) by (split; [apply HM|exact F]).
  split; [exact M'|]. intros i Hi.
  rewrite !peek_content by (auto; lia). f_equal. unfold content, over. cbn [b_diffs b_bytes]. specialize (R i Hi).
  destruct (find_last (covers i) ds'), (find_last (covers (start + i)) (b_diffs b)); cbn [option_map] in R; try congruence.
  specialize (S0 _ (shows_content _ (in_memory_new (b_bytes b))) i ltac:(lia)). rewrite peek_content in S0 by (auto; lia).
  assert (S1 := S0). unfold content, over in S1. cbn [b_diffs b_bytes find_last new_base] in S1.
  unfold img_window in S1. replace ((0 <=? i) && (i <? size)) with true in S1 by lia. congruence.
Qed.
