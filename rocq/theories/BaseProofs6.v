(** Consecutive reads. *)
From Coq Require Import ZArith List Bool Lia.
From Coq Require Import Strings.Byte.
From Verif Require Import GoLib GoLemmas BaseModel BaseSpec BaseProofs BaseProofs2 BaseProofs3.
Import ListNotations.
Open Scope Z_scope.

Lemma peek_set_seek : forall b n i, peek (set_seek b n) i = peek b i.
Proof. reflexivity. Qed.

Lemma shows_set_seek : forall b n m, shows b m -> shows (set_seek b n) m.
Proof. intros b n m H i Hi. rewrite peek_set_seek. apply H; exact Hi. Qed.

Lemma in_memory_set_seek : forall b n, in_memory b -> in_memory (set_seek b n).
Proof. intros b n H. exact H. Qed.

Lemma reads_consecutive : forall ns b m,
  in_memory b -> 0 <= b_seek b -> no_inner_start (b_diffs b) -> shows b m ->
  Forall (fun n => 0 <= n) ns -> reads_fit b ns ->
  exists out, run_reads b ns = Ok out /\ consecutive m (b_seek b) out /\
    length out = length ns.
Proof.
  induction ns as [|n ns IH]; intros b m Hb Hs HN Hm Hns HF.
  { exists nil. repeat split. }
  inversion Hns as [|? ? Hn Hns']; subst.
  destruct (read_at_current b (zeros n) (b_seek b) m Hb Hs HN Hm)
    as (p & c & E & Lp & Hc & H0 & Hk & _).
  assert (ER : base_read b (zeros n) = Ok (set_seek b (b_seek b + c), p, c)).
  { unfold base_read. rewrite E. reflexivity. }
  destruct (HF _ _ _ ER) as [Hle HF'].
  rewrite zlen_zeros in Lp by lia. rewrite zlen_zeros in Hk by lia.
  destruct (IH (set_seek b (b_seek b + c)) m) as (out & E' & HC & HL).
  - exact Hb.
  - cbn. lia.
  - exact HN.
  - apply shows_set_seek; exact Hm.
  - exact Hns'.
  - exact HF'.
  - assert (Lc : zlen (zfirst c p) = c) by (rewrite zlen_zfirst; lia).
    exists (zfirst c p :: out). cbn [run_reads]. rewrite ER. cbn [bind]. rewrite E'. cbn [bind].
    split; [reflexivity|]. split; [|cbn; congruence]. cbn [consecutive]. split; [|split].
    + intros k Hk'. rewrite Lc in Hk'. rewrite zget_zfirst. replace (k <? c) with true by lia. apply Hk. lia.
    + rewrite <- H0. split; intros X.
      * rewrite X in Lc. cbn in Lc. lia.
      * destruct (zfirst c p); [reflexivity|]. rewrite zlen_cons in Lc. pose proof (zlen_nonneg l). lia.
    + rewrite Lc. exact HC.
Qed.

(** ** C *)

Lemma over_all_miss : forall l m i, Forall (fun e => covers i e = false) l -> over l m i = m i.
Proof.
  induction l as [|e l IH]; intros m i F; [reflexivity|].
  inversion F; subst. rewrite over_cons, IH by assumption.
  unfold img_write, d_data. unfold covers, d_len, gs_len in H1. rewrite H1. reflexivity.
Qed.

Lemma base_c_spec : forall b off s, in_memory b -> 0 <= off -> no_inner_start (b_diffs b) ->
  exists b', base_c b off (gs_len s) s = Ok b' /\ in_memory b' /\
    forall i, content b' i = img_write (content b) off (sl_data s) i.
Proof.
  intros b off s Hb Ho HN. unfold base_c. rewrite gs_upto_all. cbn [bind].
  pose proof (zlen_nonneg (sl_data s)) as Hs.
  destruct (base_d_spec b off (gs_len s) s Hb Ho Hs eq_refl) as (b1 & E1 & M1 & _ & _ & _ & C1).
  destruct (last_index (covers off) (b_diffs b)) as [sn|] eqn:E; [|exists b1; auto].
  destruct (last_index_some _ _ _ _ E) as (l1 & d & l2 & ED & EL & C & F).
  rewrite ED, <- EL, nth_error_mid.
  destruct ((d_off d =? off) && (d_len d =? gs_len s)) eqn:E2; [|exists b1; auto].
  assert (Hd : d_off d = off) by lia. assert (Hl : d_len d = gs_len s) by lia.
  eexists; split; [reflexivity|]. rewrite firstn_mid, skipn_mid_S.
  assert (Fin : forall i, d_off d <= i < d_off d + d_len d -> Forall (fun e => covers i e = false) l2).
  { intros i Hi. apply Forall_forall. intros e He.
    pose proof (find_last_none _ _ _ _ F He) as Fe.
    destruct (in_split e l2 He) as (x & y & EX). rewrite EX in ED.
    pose proof (HN l1 d x e y ED) as K. unfold covers in *. lia. }
  split.
  - destruct Hb as [R Hf]. split; [exact R|]. cbn. rewrite ED in Hf.
    apply Forall_app in Hf. destruct Hf as [Hf1 Hf2]. inversion Hf2; subst.
    apply Forall_app. split; [exact Hf1|]. constructor; [cbn; lia|assumption].
  - intros i. unfold content. cbn [set_diffs b_diffs b_bytes]. rewrite ED.
    unfold img_write at 1. rewrite over_app, over_cons. cbn [d_off].
    destruct ((off <=? i) && (i <? off + zlen (sl_data s))) eqn:Ei.
    + rewrite over_all_miss by (apply Fin; rewrite Hl; unfold gs_len; lia).
      unfold img_write, d_data. cbn [d_sl]. rewrite Ei. reflexivity.
    + rewrite over_app, over_cons. apply over_ext. unfold img_write, d_data. cbn [d_sl]. rewrite Ei, Hd.
      unfold d_len, gs_len in Hl. rewrite Hl, Ei. reflexivity.
Qed.

Lemma put_frame : forall b off s m, in_memory b -> 0 <= off -> no_inner_start (b_diffs b) -> shows b m ->
  exists b', base_c b off (gs_len s) s = Ok b' /\ in_memory b' /\
    shows b' (img_write m off (sl_data s)).
Proof.
  intros b off s m Hb Ho HN Hm. destruct (base_c_spec b off s Hb Ho HN) as (b' & E & M & C).
  exists b'. split; [exact E|]. split; [exact M|].
  intros i Hi. rewrite (peek_content b' i M Hi), C. f_equal. apply img_write_ext.
  exact (shows_unique b _ _ (shows_content b Hb) Hm i Hi).
Qed.

Lemma put_stale : exists b off s, in_memory b /\ 0 <= off /\
  exists b', base_c b off (gs_len s) s = Ok b' /\ zlen (sl_data s) = 4 /\
    exists k, 0 <= k < 4 /\ peek b' (off + k) <> Ok (zget (sl_data s) k).
Proof.
  exists (mkBase (gs_of nil) nil [mkDiff 0 (gs_of [x01;x02;x03;x04]); mkDiff 2 (gs_of [x05;x06])] true 0),
    0, (gs_of [x11;x12;x13;x14]).
  split; [split; [reflexivity|repeat constructor; cbn; lia]|]. split; [lia|].
  eexists; split; [vm_compute; reflexivity|]. split; [reflexivity|].
  exists 2. split; [lia|]. vm_compute. discriminate.
Qed.
