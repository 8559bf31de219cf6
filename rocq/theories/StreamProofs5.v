(** Short reads, plain readers, Next, and what goes wrong. *)
From Coq Require Import ZArith List Bool Lia Permutation.
From Coq Require Import Strings.Byte.
From Verif Require Import GoLib GoLemmas BaseModel BaseSpec BaseProofs VariantModel StreamModel StreamSpec.
From Verif Require Import StreamProofs StreamProofs2 StreamProofs3 StreamProofs4.
Import ListNotations.
Open Scope Z_scope.

Lemma sort_diffs_keeps : keeps sort_diffs.
Proof.
  assert (I : forall d l, Permutation (ins_diff d l) (d :: l)).
  { induction l as [|x l IH]; cbn; [reflexivity|]. destruct (_ <? _); [reflexivity|].
    rewrite IH. apply perm_swap. }
  assert (G : forall l acc, Permutation (fold_left (fun acc d => ins_diff d acc) l acc) (acc ++ l)).
  { induction l as [|x l IH]; intros acc; cbn [fold_left]; [rewrite app_nil_r; reflexivity|].
    rewrite IH, I. cbn [app]. apply Permutation_middle. }
  intros l. unfold sort_diffs. rewrite G. reflexivity.
Qed.

(** Reading past the end a second time gives zeros. *)
Lemma past_end : exists x r,
  run_sops 2 sort_diffs (open_io (Random [x01; x02; x03; x04] no_eof) 512) [SRead 6 2] = Ok x /\
  stream_r 2 sort_diffs x 6 2 = Ok r /\ opt_data (snd r) = [x00; x00].
Proof.
  set (m := run_sops 2 sort_diffs (open_io (Random [x01; x02; x03; x04] no_eof) 512) [SRead 6 2]).
  assert (C : match m with Ok x => match stream_r 2 sort_diffs x 6 2 with
     | Ok r => opt_data (snd r) = [x00; x00] | _ => False end | _ => False end) by (vm_compute; reflexivity).
  destruct m as [x| |]; try contradiction. exists x.
  destruct (stream_r 2 sort_diffs x 6 2) as [r| |]; try contradiction. exists r. auto.
Qed.

(** Reads inside the stream that panic. *)
Lemma reads_panic : exists x,
  run_sops 2 sort_diffs (open_io (Random (zeros 1500) no_eof) 512)
    [SRead 1000 10; SRead 900 10; SRead 905 500] = Ok x /\
  stream_r 2 sort_diffs x 901 500 = Panic.
Proof.
  set (m := run_sops 2 sort_diffs (open_io (Random (zeros 1500) no_eof) 512)
    [SRead 1000 10; SRead 900 10; SRead 905 500]).
  assert (C : match m with Ok x => match stream_r 2 sort_diffs x 901 500 with Panic => True | _ => False end
    | _ => False end) by (vm_compute; exact I).
  destruct m as [x| |]; try contradiction. exists x. split; [reflexivity|].
  destruct (stream_r 2 sort_diffs x 901 500); try contradiction. reflexivity.
Qed.

(** A read inside the stream that returns less than asked. *)
Lemma short_read : exists x r,
  run_sops 2 sort_diffs (open_io (Random [x01; x02; x03; x04; x05; x06; x07; x08] no_eof) 512) [SRead 0 4] = Ok x /\
  stream_r 2 sort_diffs x 2 4 = Ok r /\ opt_data (snd r) = [x03; x04].
Proof.
  set (m := run_sops 2 sort_diffs (open_io (Random [x01; x02; x03; x04; x05; x06; x07; x08] no_eof) 512) [SRead 0 4]).
  assert (C : match m with Ok x => match stream_r 2 sort_diffs x 2 4 with
     | Ok r => opt_data (snd r) = [x03; x04] | _ => False end | _ => False end) by (vm_compute; reflexivity).
  destruct m as [x| |]; try contradiction. exists x.
  destruct (stream_r 2 sort_diffs x 2 4) as [r| |]; try contradiction. exists r. auto.
Qed.

Lemma step_read : forall f srt s eof b off req, agrees s b -> simple_cache b ->
  gs_len (b_bytes b) <= off -> 1 <= req -> off + req <= zlen s -> off + req <= gs_cap (b_bytes b) ->
  exists b' r, stream_r (S (S f)) srt (b, Random s eof) off req = Ok ((b', Random s eof), r) /\
    simple_cache b' /\ gs_len (b_bytes b') = off + req /\ gs_cap (b_bytes b') = gs_cap (b_bytes b) /\
    req <= zlen (opt_data r).
Proof.
  intros f srt s eof b off req A [R D] BL Hr L C. pose proof (gs_len_nonneg (b_bytes b)) as BN.
  unfold stream_r. cbn [fst].
  assert (IM : in_memory (set_rdiffs b nil)) by (split; [reflexivity|cbn [set_rdiffs b_diffs]; rewrite D; constructor]).
  destruct (writer_r_spec (set_rdiffs b nil) off IM ltac:(lia)) as (w & W & WS).
  change (writer_r (set_rdiffs b nil) off) with (writer_r b off) in W. rewrite W. cbn [bind].
  cbn [set_rdiffs b_diffs b_bytes] in WS. rewrite D in WS. cbn [find_last] in WS.
  assert (ON : 0 <= opt_len w) by (destruct w; cbn [opt_len]; [apply gs_len_nonneg|lia]).
  replace (opt_len w =? 0) with true by lia.
  unfold reader_r. rewrite R. cbn [last_index last_index_from].
  replace (gs_len (b_bytes b) <? off + req) with true by lia.
  cbn [load_buf]. replace ((off + req <=? gs_cap (b_bytes b)) && (gs_len (b_bytes b) <? off + req)) with true by lia.
  destruct (gs_upto (b_bytes b) (off + req)) as [e| |] eqn:U.
  2,3: rewrite gs_upto_ok in U by lia; discriminate.
  cbn [bind]. pose proof (gs_upto_inv _ _ _ U) as (U1 & U2 & U3 & U4).
  destruct (read_full s eof (off + req - gs_len (b_bytes b)) (gs_len (b_bytes b))
    ltac:(lia) ltac:(lia) ltac:(lia)) as (d & err & RD & Ld & Sd & Ee & En).
  rewrite RD. destruct (Z.ltb_spec 0 (zlen d)); [|lia].
  assert (CP : gs_cap (gs_put e (gs_len (b_bytes b)) d) = gs_cap (b_bytes b)).
  { unfold gs_cap, gs_len in *. cbn [gs_put sl_data sl_spare]. rewrite zlen_copy_at by lia.
    rewrite <- zlen_app, U4, zlen_app. reflexivity. }
  destruct (gs_upto (gs_put e _ d) _) as [t| |] eqn:T.
  2,3: rewrite gs_upto_ok in T by lia; discriminate.
  cbn [bind fst set_bytes b_bytes]. pose proof (gs_upto_inv _ _ _ T) as (T1 & T2 & T3 & T4).
  replace (off + Z.max 1 req <=? gs_len t) with true by lia.
  rewrite gs_from_ok by lia. cbn [bind]. do 2 eexists. split; [reflexivity|].
  split; [split; [exact R|exact D]|]. cbn [set_bytes b_bytes]. split; [lia|]. split.
  - rewrite <- CP. unfold gs_cap. rewrite <- !zlen_app. rewrite T4. reflexivity.
  - cbn [opt_data sl_data]. unfold gs_len in *. rewrite zlen_zskip. lia.
Qed.

Lemma step_reads : forall f srt s eof, keeps srt -> forall os b lo, good s b -> simple_cache b ->
  gs_len (b_bytes b) <= lo -> stepwise lo (Z.min (zlen s) (gs_cap (b_bytes b))) os ->
  exists rs, read_all (S (S f)) srt (b, Random s eof) os = Ok rs /\
    Forall2 (fun q r => snd q <= zlen r /\ slice_of_image (img_bytes s) (fst q) r) os rs.
Proof.
  intros f srt s eof K. induction os as [|[off req] os IH]; intros b lo G SC BL F; cbn [read_all stepwise] in *.
  - exists nil. split; [reflexivity|constructor].
  - destruct F as (F1 & F2 & F3 & F4). pose proof (gs_len_nonneg (b_bytes b)) as BN.
    destruct (step_read f srt s eof b off req (proj1 G) SC ltac:(lia) F2 ltac:(lia) ltac:(lia))
      as (b' & r & E & SC' & L' & C' & NE).
    pose proof (stream_agrees f srt s eof b off req K G ltac:(lia) ltac:(lia) ltac:(lia)) as SA. rewrite E in SA.
    cbn [fst snd] in SA. destruct SA as (_ & G' & D' & SA & _). specialize (SA (proj2 SC)).
    rewrite <- C' in F4. destruct (IH b' (off + req) G' SC' ltac:(lia) F4) as (rs & R & Q).
    exists (opt_data r :: rs). rewrite E. cbn [bind]. rewrite R. cbn [bind]. split; [reflexivity|].
    constructor; auto.
Qed.

Lemma open_steps : forall f srt s eof cap os, keeps srt -> 0 <= cap -> stepwise 0 (Z.min (zlen s) cap) os ->
  exists rs, read_all (S (S f)) srt (open_io (Random s eof) cap) os = Ok rs /\
    Forall2 (fun q r => snd q <= zlen r /\ slice_of_image (img_bytes s) (fst q) r) os rs.
Proof.
  intros f srt s eof cap os K Hc F.
  apply (step_reads f srt s eof K os (fst (open_io (Random s eof) cap)) 0 (open_good s eof cap Hc)).
  - split; reflexivity.
  - cbn. lia.
  - cbn [open_io fst b_bytes]. unfold gs_cap, gs_make. cbn [sl_data sl_spare]. rewrite !zlen_zeros.
    replace (Z.max 0 0 + Z.max 0 (cap - 0)) with cap by lia. exact F.
Qed.

(** ** Plain readers *)

Lemma plain_first : forall f srt s cap req, 1 <= req <= cap -> req <= zlen s ->
  exists x r, stream_r (S f) srt (open_io (Plain s) cap) 0 req = Ok (x, r) /\ opt_data r = zfirst req s.
Proof.
  intros f srt s cap req H1 H2.
  set (b := fst (open_io (Plain s) cap)). change (open_io (Plain s) cap) with (b, Plain s).
  assert (BL : gs_len (b_bytes b) = 0) by reflexivity.
  assert (BC : gs_cap (b_bytes b) = cap).
  { unfold b, gs_cap, gs_make. cbn [open_io fst b_bytes gs_make sl_data sl_spare]. rewrite !zlen_zeros. lia. }
  unfold stream_r. cbn [fst].
  assert (IM : in_memory b) by (split; [reflexivity|constructor]).
  destruct (writer_r_spec b 0 IM ltac:(lia)) as (w & W & WS). rewrite W. cbn [bind].
  change (b_diffs b) with (@nil diff) in WS. cbn [find_last] in WS.
  assert (ON : 0 <= opt_len w) by (destruct w; cbn [opt_len]; [apply gs_len_nonneg|lia]).
  replace (opt_len w =? 0) with true by lia.
  unfold reader_r. change (b_rdiffs b) with (@nil diff). cbn [last_index last_index_from]. rewrite BL.
  replace (0 <? 0 + req) with true by lia.
  cbn [load_buf]. rewrite BL, BC. replace ((0 + req <=? cap) && (0 <? 0 + req)) with true by lia.
  destruct (gs_upto (b_bytes b) (0 + req)) as [e| |] eqn:U.
  2,3: rewrite gs_upto_ok in U by lia; discriminate.
  cbn [bind]. pose proof (gs_upto_inv _ _ _ U) as (U1 & U2 & _). cbn [read_src]. change (0 <? 0) with false. cbv iota.
  replace (0 + req - 0) with req by lia.
  assert (Ld : zlen (zfirst req s) = req) by (rewrite zlen_zfirst; lia). rewrite Ld.
  replace (0 <? req) with true by lia.
  unfold gs_len in U2.
  assert (PE : sl_data (gs_put e 0 (zfirst req s)) = zfirst req s).
  { cbn [gs_put sl_data]. apply copy_at_full. lia. }
  destruct (gs_upto (gs_put e 0 (zfirst req s)) (0 + req)) as [t| |] eqn:T.
  2,3: rewrite gs_upto_ok in T by (pose proof (gs_cap_ge (gs_put e 0 (zfirst req s))) as Q; unfold gs_len in Q; rewrite PE in Q; lia); discriminate.
  cbn [bind fst set_bytes b_bytes]. pose proof (gs_upto_inv _ _ _ T) as (T1 & T2 & T3 & T4).
  rewrite T2. replace (0 + Z.max 1 req <=? 0 + req) with true by lia.
  rewrite gs_from_ok by lia. cbn [bind]. do 2 eexists. split; [reflexivity|].
  cbn [opt_data sl_data]. rewrite zskip_0. apply zget_ext. intros i. rewrite T3, PE.
  rewrite zget_app, Ld, !zget_zfirst. replace (0 + req) with req by lia.
  destruct (i <? req); reflexivity.
Qed.

(** The second piece of a plain reader comes out as zeros. *)
Lemma plain_zeros : exists x r,
  run_sops 3 sort_diffs (open_io (Plain [x01; x02; x03; x04; x05; x06; x07; x08]) 512) [SRead 0 4] = Ok x /\
  stream_r 3 sort_diffs x 4 4 = Ok r /\ opt_data (snd r) = [x00; x00; x00; x00].
Proof.
  set (m := run_sops 3 sort_diffs (open_io (Plain [x01; x02; x03; x04; x05; x06; x07; x08]) 512) [SRead 0 4]).
  assert (C : match m with Ok x => match stream_r 3 sort_diffs x 4 4 with
     | Ok r => opt_data (snd r) = [x00; x00; x00; x00] | _ => False end | _ => False end) by (vm_compute; reflexivity).
  destruct m as [x| |]; try contradiction. exists x.
  destruct (stream_r 3 sort_diffs x 4 4) as [r| |]; try contradiction. exists r. auto.
Qed.

(** Loading again what is cached, without end. *)
Lemma plain_spin : forall fuel srt rest b d n, 1 <= n -> gs_cap (b_bytes b) <= 0 -> b_rdiffs b = [d] -> d_off d = 0 ->
  d_len d = n -> load_buf fuel srt (Plain rest) b 0 n = OutOfFuel.
Proof.
  induction fuel as [|f IH]; intros srt rest b d n Hn C R D0 DL; [reflexivity|].
  destruct d as [o sd]. cbn [d_off] in D0. subst o. set (d := mkDiff 0 sd) in *.
  cbn [load_buf]. pose proof (gs_len_nonneg (b_bytes b)) as BN. pose proof (gs_cap_ge (b_bytes b)) as CG.
  replace ((0 + n <=? gs_cap (b_bytes b)) && (gs_len (b_bytes b) <? 0 + n)) with false by lia.
  rewrite gs_upto3_ok by lia. cbn [bind].
  match goal with |- context [set_bytes b ?x] => set (b1 := set_bytes b x) end.
  assert (C1 : gs_cap (b_bytes b1) <= 0).
  { unfold b1, gs_cap in *. unfold gs_len in *. cbn [set_bytes b_bytes sl_data sl_spare]. rewrite zlen_zskip, !zlen_zfirst, zlen_app. lia. }
  change (b_rdiffs b1) with (b_rdiffs b). rewrite R. cbn [last_index last_index_from].
  unfold last_index. cbn [last_index_from]. change (d_off d) with 0. change (0 <=? 0) with true. cbv iota. cbn [nth_error].
  change (d_off d) with 0.
  pose proof (gs_cap_ge (d_sl d)) as DC. unfold d_len in DL.
  replace (0 + n <=? 0 + gs_cap (d_sl d)) with true by lia.
  unfold d_len. rewrite DL.
  destruct (gs_upto (d_sl d) (n + (0 + n - (n + 0)))) as [sl| |] eqn:V.
  2,3: rewrite gs_upto_ok in V by lia; discriminate.
  cbn [bind]. pose proof (gs_upto_inv _ _ _ V) as (V1 & V2 & _).
  destruct (gs_from sl (n + 0 - 0)) as [t| |] eqn:T.
  2,3: rewrite gs_from_ok in T by lia; discriminate.
  cbn [bind read_src]. replace (n + 0 <? 0) with false by lia. replace (0 <? n + 0) with true by lia.
  replace (n + 0) with n by lia.
  erewrite IH; [reflexivity|lia|exact C1|cbn [set_rdiffs b_rdiffs set_nth firstn skipn app]; reflexivity|reflexivity|].
  unfold d_len, gs_len in *. cbn [d_sl gs_put sl_data]. rewrite zlen_copy_at by lia. lia.
Qed.

Lemma plain_never : forall fuel srt s, keeps srt -> 600 <= zlen s ->
  stream_r fuel srt (open_io (Plain s) 512) 600 4 = OutOfFuel.
Proof.
  intros fuel srt s K L. unfold stream_r, open_io. cbn [fst].
  change (writer_r _ 600) with (Ok (@None gslice)). cbn [bind opt_len Z.eqb].
  unfold reader_r. cbn [b_rdiffs last_index last_index_from b_bytes].
  change (gs_len (gs_make 0 512) <? 600 + 4) with true. cbv iota.
  destruct fuel as [|f]; [reflexivity|]. cbn [load_buf b_bytes].
  change ((600 + 4 <=? gs_cap (gs_make 0 512)) && (gs_len (gs_make 0 512) <? 600 + 4)) with false. cbv iota.
  change (gs_upto3 (gs_make 0 512) (gs_len (gs_make 0 512)) (gs_len (gs_make 0 512))) with (Ok (mkSlice (@nil byte) nil)).
  cbn [bind]. unfold set_bytes. cbn [b_bytes b_rdiffs b_diffs b_check b_seek last_index last_index_from nth_error].
  match goal with |- context [load_new f srt ?b _ _ _ _ _] => set (b1 := b) end.
  assert (LN : load_new f srt b1 (Plain s) 600 4 4 0 = OutOfFuel).
  { destruct f as [|f]; [reflexivity|]. cbn [load_new]. change (Z.min 4 _ <? 0) with false. cbv iota.
    cbn [read_src]. change (600 <? 0) with false. change (0 <? 600) with true. cbv iota.
    destruct f as [|f]; [reflexivity|]. cbn [load_buf]. unfold b1. cbn [b_bytes].
    change ((0 + 600 <=? gs_cap (mkSlice (@nil byte) nil)) && (gs_len (mkSlice (@nil byte) nil) <? 0 + 600)) with false.
    cbv iota.
    change (gs_upto3 (mkSlice (@nil byte) nil) (gs_len (mkSlice (@nil byte) nil)) (gs_len (mkSlice (@nil byte) nil)))
      with (Ok (mkSlice (@nil byte) nil)).
    cbn [bind]. unfold set_bytes. cbn [bind b_bytes b_rdiffs b_diffs b_check b_seek last_index last_index_from nth_error].
    destruct f as [|f]; [reflexivity|].
    match goal with |- context [load_new (S f) srt ?b (Plain s) 0 600 600 0] => set (b2 := b) end.
    assert (B2 : exists d, load_new (S f) srt b2 (Plain s) 0 600 600 0 =
      Ok (set_rdiffs b2 [d], Plain (zskip 600 s), RNone) /\ d_off d = 0 /\ d_len d = 600).
    { cbn [load_new]. change (Z.min 600 _) with 600. change (600 <? 0) with false. cbv iota. cbn [read_src].
      change (0 <? 0) with false. cbv iota.
      assert (Ld : zlen (zfirst 600 s) = 600) by (rewrite zlen_zfirst; lia). rewrite Ld.
      change (600 <? 600) with false. cbv iota. change (0 <? 600) with true. cbv iota.
      match goal with |- context [gs_upto ?x 600] => destruct (gs_upto x 600) as [sl| |] eqn:U end.
      2,3: rewrite gs_upto_ok in U; [discriminate|lia|]; unfold gs_cap; cbn [gs_put sl_data sl_spare];
        rewrite zlen_copy_at by (rewrite zlen_zeros; lia); rewrite !zlen_zeros; cbn; lia.
      cbn [bind]. apply gs_upto_inv in U. destruct U as (_ & U & _).
      exists (mkDiff 0 sl). split; [|split; [reflexivity|exact U]].
      do 3 f_equal. unfold add_rdiff, b2. cbn [b_rdiffs last_index last_index_from app].
      pose proof (K [mkDiff 0 sl]) as P. apply Permutation_sym, Permutation_length_1_inv in P.
      unfold last_index. cbn [last_index_from]. rewrite P. reflexivity. }
    destruct B2 as (d & E & D0 & DL). rewrite E. cbn [bind fst snd].
    cbn [load_new]. change (Z.min 4 _ <? 0) with false. cbv iota.
    cbn [read_src]. change (600 <? 0) with false. change (0 <? 600) with true. cbv iota.
    rewrite (plain_spin _ srt (zskip 600 s) (set_rdiffs b2 [d]) d 600); auto; try lia; try reflexivity. }
  rewrite LN. reflexivity.
Qed.

(** ** Next *)

Lemma next_reads : forall f srt s eof b skip b' t off req x r, keeps srt -> agrees s b ->
  0 <= skip <= gs_len (b_bytes b) -> next_buf b skip = Ok (b', t) ->
  0 <= off -> 0 <= req -> skip + off + req <= zlen s ->
  chain_r (S (S f)) srt (b', Random s eof) [next_off nil skip] (new_base t) off req = Ok (x, r) ->
  agrees s b' /\ slice_of_image (img_bytes s) (skip + off) (opt_data r).
Proof.
  intros f srt s eof b skip b' t off req x r K A Hs N Ho Hr L C.
  assert (TB : gs_len t = 0 /\ agrees s b').
  { unfold next_buf in N. destruct (Z.ltb_spec skip (gs_len (b_bytes b))).
    - destruct (gs_upto (b_bytes b) 0) as [u| |] eqn:U; cbn [bind] in N; try discriminate. injection N as <- <-.
      apply gs_upto_inv in U. split; [tauto|exact A].
    - destruct (gs_upto (b_bytes b) skip) as [u| |] eqn:U; cbn [bind] in N; try discriminate.
      destruct (gs_from u skip) as [v| |] eqn:V; cbn [bind] in N; try discriminate.
      pose proof (gs_upto_inv _ _ _ U) as (U1 & U2 & U3 & U4). apply gs_from_inv in V. destruct V as (V1 & V2 & V3).
      assert (AU : agrees s (set_bytes b u)).
      { destruct A as [A1 A2]. split; [|exact A2]. cbn [set_bytes b_bytes]. intros k Hk. unfold gs_len in *.
        rewrite U3, zget_app. replace (k <? skip) with true by lia. replace (k <? zlen (sl_data (b_bytes b))) with true by lia.
        apply A1. lia. }
      destruct (skip <? gs_cap (b_bytes b)); cbn [bind] in N; injection N as <- <-; (split; [lia|]); auto. }
  destruct TB as [TL AB]. split; [exact AB|].
  unfold chain_r in C.
  destruct (writer_r_spec (new_base t) off ltac:(split; [reflexivity|constructor]) Ho) as (w & W & WS).
  rewrite W in C. cbn [bind] in C. cbn [new_base b_diffs find_last b_bytes] in WS.
  assert (ON : 0 <= opt_len w) by (destruct w; cbn [opt_len]; [apply gs_len_nonneg|lia]).
  replace (opt_len w =? 0) with true in C by lia. cbn [next_off fold_left] in C.
  pose proof (reader_agrees f srt s eof b' (off + skip) req K AB ltac:(lia) Hr ltac:(lia)) as RA.
  rewrite C in RA. destruct RA as (_ & _ & _ & RA). replace (skip + off) with (off + skip) by lia. exact RA.
Qed.

(** The offset of the first Next is counted twice in the second. *)
Lemma next_twice : exists x r,
  run_sops 2 sort_diffs (open_io (Random [x01; x02; x03; x04; x05; x06; x07; x08] no_eof) 512) [SRead 0 8] = Ok x /\
  chain_r 2 sort_diffs x [next_off [next_off nil 2] 2; next_off nil 2] (new_base (gs_of nil)) 0 1 = Ok r /\
  hd_error (opt_data (snd r)) = Some x07.
Proof.
  set (m := run_sops 2 sort_diffs (open_io (Random [x01; x02; x03; x04; x05; x06; x07; x08] no_eof) 512) [SRead 0 8]).
  assert (C : match m with Ok x => match chain_r 2 sort_diffs x [next_off [next_off nil 2] 2; next_off nil 2] (new_base (gs_of nil)) 0 1 with
     | Ok r => hd_error (opt_data (snd r)) = Some x07 | _ => False end | _ => False end) by (vm_compute; reflexivity).
  destruct m as [x| |]; try contradiction. exists x.
  destruct (chain_r _ _ _ _ _ _ _) as [r| |]; try contradiction. exists r. auto.
Qed.

(** Skipping further than what was read makes unread bytes of the parent
    readable. *)
Lemma next_spoils : exists x r b' t,
  run_sops 2 sort_diffs (open_io (Random [x01; x02; x03; x04; x05; x06; x07; x08] no_eof) 512) [SRead 0 2] = Ok x /\
  next_buf (fst x) 4 = Ok (b', t) /\
  stream_r 2 sort_diffs (b', snd x) 2 1 = Ok r /\ hd_error (opt_data (snd r)) = Some x00.
Proof.
  set (m := run_sops 2 sort_diffs (open_io (Random [x01; x02; x03; x04; x05; x06; x07; x08] no_eof) 512) [SRead 0 2]).
  assert (C : match m with Ok x => match next_buf (fst x) 4 with
     | Ok (b', t) => match stream_r 2 sort_diffs (b', snd x) 2 1 with
        | Ok r => hd_error (opt_data (snd r)) = Some x00 | _ => False end | _ => False end | _ => False end)
    by (vm_compute; reflexivity).
  destruct m as [x| |]; try contradiction.
  destruct (next_buf (fst x) 4) as [[b' t]| |] eqn:N; try contradiction.
  destruct (stream_r 2 sort_diffs (b', snd x) 2 1) as [r| |] eqn:S; try contradiction.
  exists x, r, b', t. auto.
Qed.

(** Skipping past the capacity panics. *)
Lemma next_panics : forall b skip, gs_cap (b_bytes b) < skip -> next_buf b skip = Panic.
Proof.
  intros b skip H. unfold next_buf. pose proof (gs_cap_ge (b_bytes b)).
  destruct (Z.ltb_spec skip (gs_len (b_bytes b))); [lia|].
  unfold gs_upto, gs_range. replace ((0 <=? 0) && (0 <=? skip) && (skip <=? gs_cap (b_bytes b))) with false by lia.
  reflexivity.
Qed.
