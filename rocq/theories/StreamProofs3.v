(** Histories of reads and writes on a stream. *)
From Coq Require Import ZArith List Bool Lia Permutation.
From Coq Require Import Strings.Byte.
From Verif Require Import GoLib GoLemmas BaseModel BaseSpec BaseProofs VariantModel StreamModel StreamSpec.
From Verif Require Import StreamProofs StreamProofs2.
Import ListNotations.
Open Scope Z_scope.

Definition good (s : list byte) (b : base) : Prop :=
  agrees s b /\ Forall (fun d => 0 <= d_off d) (b_diffs b).

Lemma stream_agrees : forall f srt s eof b off req, keeps srt -> good s b ->
  0 <= off -> 0 <= req -> off + req <= zlen s ->
  match stream_r (S (S f)) srt (b, Random s eof) off req with
  | Ok (x, r) => snd x = Random s eof /\ good s (fst x) /\ b_diffs (fst x) = b_diffs b /\
      (b_diffs b = nil -> slice_of_image (img_bytes s) off (opt_data r)) /\
      (0 < zlen (opt_data r) -> hd_error (opt_data r) = over (b_diffs b) (img_bytes s) off)
  | Panic => True
  | OutOfFuel => False
  end.
Proof.
  intros f srt s eof b off req K [A F] Ho Hr L. unfold stream_r. cbn [fst].
  assert (IM : in_memory (set_rdiffs b nil)) by (split; [reflexivity|exact F]).
  destruct (writer_r_spec (set_rdiffs b nil) off IM Ho) as (w & W & WS).
  change (writer_r (set_rdiffs b nil) off) with (writer_r b off) in W. rewrite W. cbn [bind].
  cbn [set_rdiffs b_diffs b_bytes] in WS.
  destruct (Z.eqb_spec (opt_len w) 0) as [E|E].
  - assert (NC : find_last (covers off) (b_diffs b) = None).
    { destruct (find_last (covers off) (b_diffs b)); [lia|reflexivity]. }
    pose proof (reader_agrees f srt s eof b off req K A Ho Hr L) as RA.
    destruct (reader_r _ _ _ _ _) as [[x r]| |]; auto.
    destruct RA as (R1 & R2 & R3 & R4). split; [exact R1|]. split; [split; [exact R2|rewrite R3; exact F]|].
    split; [exact R3|]. split; [auto|]. intros NE. rewrite hd_error_zget, R4 by lia.
    unfold over. rewrite NC. f_equal. lia.
  - cbn [fst snd]. split; [reflexivity|]. split; [split; auto|]. split; [reflexivity|].
    assert (OL : zlen (opt_data w) = opt_len w) by (destruct w; reflexivity).
    destruct A as [A1 A2]. unfold slice_of_image in A1.
    destruct (find_last (covers off) (b_diffs b)) as [d|] eqn:FL.
    + split; [intros Q; rewrite Q in FL; discriminate|]. intros NE. destruct WS as [WS _].
      rewrite hd_error_zget, WS. unfold over. rewrite FL.
      apply find_last_some in FL. destruct FL as [_ FL]. apply covers_iff in FL.
      rewrite zget_zskip by lia. cbn. f_equal. lia.
    + destruct WS as (W1 & W2 & W3). pose proof (gs_len_nonneg (b_bytes b)) as GN.
      pose proof (zlen_nonneg (opt_data w)) as ON.
      split.
      * intros _ k Hk. rewrite (proj1 (W3 k ltac:(lia))). unfold gs_len in *. rewrite A1 by lia.
        reflexivity.
      * intros NE. rewrite hd_error_zget, (proj1 (W3 0 ltac:(lia))). unfold over. rewrite FL.
        unfold gs_len in *. rewrite A1 by lia. f_equal; lia.
Qed.

Lemma open_good : forall s eof cap, 0 <= cap -> good s (fst (open_io (Random s eof) cap)).
Proof.
  intros s eof cap H. split; [split|]; cbn; constructor || (intros k Hk; unfold zlen in Hk; cbn in Hk; lia).
Qed.

Lemma run_good : forall f srt s eof os b x, keeps srt -> good s b -> Forall (calls_in (zlen s)) os ->
  run_sops (S (S f)) srt (b, Random s eof) os = Ok x ->
  snd x = Random s eof /\ good s (fst x) /\
  (forall i, over (b_diffs (fst x)) (img_bytes s) i = img_sops (over (b_diffs b) (img_bytes s)) os i) /\
  (Forall (reads_in (zlen s)) os -> b_diffs (fst x) = b_diffs b).
Proof.
  intros f srt s eof. induction os as [|o os IH]; intros b x K G F E; cbn [run_sops] in E.
  - injection E as <-. cbn. auto.
  - inversion F as [|? ? C F']; subst. destruct o as [off req|off p]; cbn [run_sop] in E.
    + destruct C as (C1 & C2 & C3).
      pose proof (stream_agrees f srt s eof b off req K G C1 C2 C3) as SA.
      destruct (stream_r (S (S f)) srt (b, Random s eof) off req) as [[[b1 s1] r]| |]; cbn [bind] in E; try discriminate.
      cbn [fst snd] in SA. destruct SA as (-> & G1 & D1 & _).
      destruct (IH b1 x K G1 F' E) as (X1 & X2 & X3 & X4). cbn [img_sops].
      split; [exact X1|]. split; [exact X2|]. split.
      * intros i. rewrite X3, D1. reflexivity.
      * intros R. inversion R; subst. rewrite X4 by assumption. exact D1.
    + cbn [bind fst snd write_at] in E.
      assert (G1 : good s (set_diffs b (b_diffs b ++ [mkDiff off (gs_of p)]))).
      { destruct G as [A G]. split; [exact A|]. cbn [set_diffs b_diffs]. apply Forall_app. split; [exact G|].
        constructor; [exact C|constructor]. }
      destruct (IH _ x K G1 F' E) as (X1 & X2 & X3 & X4). cbn [img_sops].
      split; [exact X1|]. split; [exact X2|]. split.
      * intros i. rewrite X3. cbn [set_diffs b_diffs].
        assert (EX : forall os m m' i, (forall j, m j = m' j) -> img_sops m os i = img_sops m' os i).
        { clear. induction os as [|[]]; intros m m' i H; cbn [img_sops]; auto. apply IHos. intros j.
          apply img_write_ext. auto. }
        apply EX. intros j. rewrite over_app. rewrite over_one. reflexivity.
      * intros R. inversion R as [|? ? Q _]; subst. destruct Q.
Qed.

(** C16, requests inside the stream, no writes *)
Lemma stream_reads : forall f srt s eof cap os x off req x' r, keeps srt -> 0 <= cap ->
  Forall (reads_in (zlen s)) os ->
  run_sops (S (S f)) srt (open_io (Random s eof) cap) os = Ok x ->
  0 <= off -> 0 <= req -> off + req <= zlen s ->
  stream_r (S (S f)) srt x off req = Ok (x', r) -> slice_of_image (img_bytes s) off (opt_data r).
Proof.
  intros f srt s eof cap os x off req x' r K Hc F E Ho Hr L R.
  assert (F' : Forall (calls_in (zlen s)) os).
  { eapply Forall_impl; [|exact F]. intros [] H; cbn in *; auto. destruct H. }
  pose proof (run_good f srt s eof os _ x K (open_good s eof cap Hc) F' E) as (X1 & X2 & _ & X4).
  specialize (X4 F). destruct x as [b src]. cbn [fst snd] in *. subst src.
  pose proof (stream_agrees f srt s eof b off req K X2 Ho Hr L) as SA. rewrite R in SA.
  destruct SA as (_ & _ & _ & SA & _). apply SA. rewrite X4. reflexivity.
Qed.

Lemma stream_total : forall f srt s eof cap os off req, keeps srt -> 0 <= cap ->
  Forall (calls_in (zlen s)) (os ++ [SRead off req]) ->
  run_sops (S (S f)) srt (open_io (Random s eof) cap) (os ++ [SRead off req]) <> OutOfFuel.
Proof.
  intros f srt s eof cap os off req K Hc F.
  assert (G : forall os b, good s b -> Forall (calls_in (zlen s)) os ->
    run_sops (S (S f)) srt (b, Random s eof) os <> OutOfFuel).
  { clear os F. induction os as [|o os IH]; intros b G F E; cbn [run_sops] in E; [discriminate|].
    inversion F as [|? ? C F']; subst. destruct o as [o r|o p]; cbn [run_sop] in E.
    - destruct C as (C1 & C2 & C3). pose proof (stream_agrees f srt s eof b o r K G C1 C2 C3) as SA.
      destruct (stream_r (S (S f)) srt (b, Random s eof) o r) as [[[b1 s1] q]| |]; cbn [bind] in E; try discriminate; auto.
      cbn [fst snd] in SA. destruct SA as (-> & G1 & _). exact (IH b1 G1 F' E).
    - cbn [bind fst snd write_at] in E. eapply IH; [|exact F'|exact E].
      destruct G as [A G]. split; [exact A|]. cbn [set_diffs b_diffs]. apply Forall_app. split; [exact G|].
      constructor; [exact C|constructor]. }
  apply G; [exact (open_good s eof cap Hc)|exact F].
Qed.

(** With a journal: the first byte. *)
Lemma stream_journal : forall f srt s eof cap os x off req x' r, keeps srt -> 0 <= cap ->
  Forall (calls_in (zlen s)) os ->
  run_sops (S (S f)) srt (open_io (Random s eof) cap) os = Ok x ->
  0 <= off -> 0 <= req -> off + req <= zlen s ->
  stream_r (S (S f)) srt x off req = Ok (x', r) -> 0 < zlen (opt_data r) ->
  hd_error (opt_data r) = img_sops (img_bytes s) os off.
Proof.
  intros f srt s eof cap os x off req x' r K Hc F E Ho Hr L R NE.
  pose proof (run_good f srt s eof os _ x K (open_good s eof cap Hc) F E) as (X1 & X2 & X3 & _).
  destruct x as [b src]. cbn [fst snd] in *. subst src.
  pose proof (stream_agrees f srt s eof b off req K X2 Ho Hr L) as SA. rewrite R in SA.
  destruct SA as (_ & _ & _ & _ & SA). rewrite SA by exact NE. rewrite X3. cbn [open_io fst b_diffs].
  assert (EX : forall os m m' i, (forall j, m j = m' j) -> img_sops m os i = img_sops m' os i).
  { clear. induction os as [|[]]; intros m m' i H; cbn [img_sops]; auto. apply IHos. intros j.
    apply img_write_ext. auto. }
  apply EX. intros j. apply over_nil.
Qed.
