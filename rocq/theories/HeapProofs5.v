(** Runs of NoLayer updates, and the updates that go wrong. *)
From Coq Require Import ZArith List Bool Lia.
From Coq Require Import Strings.Byte.
From Verif Require Import GoLib GoLemmas BaseModel BaseSpec BaseProofs HeapModel HeapSpec.
From Verif Require Import HeapProofs HeapProofs2 HeapProofs3 HeapProofs4.
From Verif Require Import BaseProofs3.
Import ListNotations.
Open Scope Z_scope.

Lemma hplain_tidy : forall b, hplain b -> tidy b.
Proof.
  intros b [D _]. split; rewrite D; [intros d []|].
  intros l1 d l2 e l3 E. destruct l1; discriminate.
Qed.

Lemma hplain_memory : forall h b, hplain b -> in_memory (view_base h b).
Proof. intros h b [D R]. split; cbn [view_base b_rdiffs b_diffs]; rewrite ?D, ?R; [reflexivity|constructor]. Qed.

Lemma plain_update : forall h b off p h' b', hplain b -> 0 <= off -> off + zlen p <= a_cap (hb_bytes b) ->
  hn_u h b off (zlen p) p = Ok (h', b') ->
  hplain b' /\ a_len (hb_bytes b') = Z.max (a_len (hb_bytes b)) (off + zlen p) /\
  a_cap (hb_bytes b') = a_cap (hb_bytes b).
Proof.
  intros h b off p h' b' [D R] Ho C E. unfold hn_u in E. rewrite D in E.
  destruct (Z.ltb_spec (zlen p) (zlen p)); [lia|]. cbn [last_index last_index_from] in E.
  destruct (Z.leb_spec (off + zlen p) (a_len (hb_bytes b))).
  - destruct (hs_from (hb_bytes b) off) as [s| |]; cbn [bind] in E; try discriminate. injection E as <- <-.
    split; [split; auto|]. lia.
  - destruct (Z.leb_spec (off + zlen p) (a_cap (hb_bytes b))); [|lia].
    unfold hs_upto, hs_range in E. destruct (_ && _); [|discriminate]. cbn [bind] in E.
    destruct (hs_from _ off) as [s| |]; cbn [bind] in E; try discriminate. injection E as <- <-.
    split; [split; auto|]. cbn [hset_bytes hb_bytes a_len a_cap]. lia.
Qed.

Lemma plain_updates : forall us h b, wf h b -> hplain b -> fits (a_len (hb_bytes b)) (a_cap (hb_bytes b)) us ->
  exists h' b', run_hops h b (updates us) = Ok (h', b') /\ hplain b' /\
    forall m, shows (view_base h b) m -> shows (view_base h' b') (img_writes m us).
Proof.
  induction us as [|[off p] us IH]; intros h b W P F.
  - exists h, b. cbn. auto.
  - cbn [fits] in F. destruct F as (F1 & F2 & F3). pose proof (zlen_nonneg p) as PN.
    destruct (nl_update h b off p W (hplain_memory h b P) (hplain_tidy b P) ltac:(lia)) as (h1 & b1 & E & W1 & _ & S).
    { split; [|left; lia]. destruct P as [D _]. rewrite D. intros d []. }
    destruct (plain_update h b off p h1 b1 P ltac:(lia) ltac:(lia) E) as (P1 & L1 & C1).
    rewrite <- L1, <- C1 in F3. destruct (IH h1 b1 W1 P1 F3) as (h2 & b2 & E2 & P2 & S2).
    exists h2, b2. cbn [updates map fst snd run_hops run_hop]. rewrite E. cbn [bind].
    split; [exact E2|]. split; [exact P2|]. intros m Hm. apply S2, S, Hm.
Qed.

(** An update that starts in an entry's spare room is lost. *)
Lemma nl_spare : exists h b h' b', run_hops [] hempty (updates [(0, [x01; x02; x03; x04])]) = Ok (h, b) /\
  hn_u h b 4 2 [x05; x06] = Ok (h', b') /\ peek (view_base h' b') 4 = Ok None.
Proof.
  set (r := run_hops [] hempty (updates [(0, [x01; x02; x03; x04])])).
  assert (C : match r with
    | Ok (h, b) => match hn_u h b 4 2 [x05; x06] with
                   | Ok (h', b') => peek (view_base h' b') 4 = Ok None | _ => False end
    | _ => False end) by (vm_compute; reflexivity).
  destruct r as [[h b]| |]; try contradiction. exists h, b.
  destruct (hn_u h b 4 2 [x05; x06]) as [[h' b']| |]; try contradiction. exists h', b'. auto.
Qed.

(** An update that starts in an entry and runs past its capacity panics. *)
Lemma nl_panic : exists h b, run_hops [] hempty (updates [(0, [x01; x02; x03; x04])]) = Ok (h, b) /\
  hn_u h b 510 4 [x05; x06; x07; x08] = Panic.
Proof.
  set (r := run_hops [] hempty (updates [(0, [x01; x02; x03; x04])])).
  assert (C : match r with
    | Ok (h, b) => hn_u h b 510 4 [x05; x06; x07; x08] = Panic
    | _ => False end) by (vm_compute; reflexivity).
  destruct r as [[h b]| |]; try contradiction. exists h, b. auto.
Qed.

(** An update of an older entry brings its bytes back over a newer one. *)
Lemma nl_order : exists h b h' b',
  run_hops [] hempty [HWriteAt 0 [x01; x02; x03; x04]; HWriteAt 2 [x09]] = Ok (h, b) /\
  peek (view_base h b) 2 = Ok (Some x09) /\
  hn_u h b 0 1 [x07] = Ok (h', b') /\ peek (view_base h' b') 2 = Ok (Some x03).
Proof.
  set (r := run_hops [] hempty [HWriteAt 0 [x01; x02; x03; x04]; HWriteAt 2 [x09]]).
  assert (C : match r with
    | Ok (h, b) => peek (view_base h b) 2 = Ok (Some x09) /\ match hn_u h b 0 1 [x07] with
                   | Ok (h', b') => peek (view_base h' b') 2 = Ok (Some x03) | _ => False end
    | _ => False end) by (vm_compute; split; reflexivity).
  destruct r as [[h b]| |]; try contradiction. exists h, b.
  destruct (hn_u h b 0 1 [x07]) as [[h' b']| |]; try (destruct C; contradiction). exists h', b'. tauto.
Qed.

(** An update in the spare room of the bytes brings up what lies before it. *)
Lemma nl_gap : exists h b h' b', wf h b /\ hplain b /\ peek (view_base h b) 0 = Ok None /\
  hn_u h b 4 2 [x05; x06] = Ok (h', b') /\ peek (view_base h' b') 0 = Ok (Some x2a).
Proof.
  exists [[x2a; x2a; x2a; x2a; x2a; x2a; x2a; x2a]], (mkHbase (mkHsl 0 0 0 8) nil nil true 0).
  do 2 eexists. split; [|split; [split; reflexivity|split; [reflexivity|split; reflexivity]]].
  split; [|split; constructor]. unfold wf_sl. cbn [hb_bytes a_off a_len a_cap array]. vm_compute. intuition discriminate.
Qed.

(** Copy shares the source's arrays: an update of the destination shows in the
    source. *)
Lemma nl_copy_shared : exists h src dst dst' h' d', run_hops [] hempty [HWriteAt 0 [x01; x02; x03; x04]] = Ok (h, src) /\
  dst = hempty /\ hb_copy dst src 0 4 0 0 = Ok dst' /\ peek (view_base h src) 0 = Ok (Some x01) /\
  hn_u h dst' 0 1 [x07] = Ok (h', d') /\ peek (view_base h' src) 0 = Ok (Some x07).
Proof. do 6 eexists. repeat (split; [vm_compute; reflexivity|]). vm_compute; reflexivity. Qed.

Lemma default_ops_buffers : forall os h b h' b' c, wf h b -> wf h c -> Forall default_op os ->
  run_hops h b os = Ok (h', b') -> view_base h' c = view_base h c.
Proof.
  intros os h b h' b' c W (C1 & C2 & C3) F E. unfold view_base. f_equal.
  - eapply default_ops_quiet; eauto.
  - apply map_ext_in. intros d Hd. unfold view_diff. f_equal. rewrite Forall_forall in C3.
    eapply default_ops_quiet; eauto.
  - apply map_ext_in. intros d Hd. unfold view_diff. f_equal. rewrite Forall_forall in C2.
    eapply default_ops_quiet; eauto.
Qed.

Lemma dup_view : forall h b h' c, wf h b -> hb_dup h b = (h', c) ->
  wf h' c /\ view_base h' c = base_dup (view_base h b).
Proof. intros h b h' c W E. destruct (hb_dup_spec h b h' c W E) as (_ & A & _ & B). auto. Qed.

Lemma nl_visible : exists h b s h' b', wf h b /\ wf_sl h s /\
  hn_u h b 0 1 [x07] = Ok (h', b') /\ view h' s <> view h s.
Proof.
  exists [[x01; x02]], (mkHbase (mkHsl 0 0 2 2) nil nil true 0), (mkHsl 0 0 2 2). do 2 eexists.
  split; [split; [vm_compute; intuition discriminate|split; constructor]|].
  split; [vm_compute; intuition discriminate|]. split; [reflexivity|vm_compute; discriminate].
Qed.

(** What Copy leaves over shared arrays: the content of the model by value. *)
Lemma heap_copy_shows : forall h b src srcOff size dstOff m ms, wf h b -> wf h src ->
  in_memory (view_base h b) -> in_memory (view_base h src) -> reads_current (view_base h src) ->
  0 <= srcOff -> 0 <= size -> 0 <= dstOff -> shows (view_base h b) m -> shows (view_base h src) ms ->
  exists b' n, hb_copy b src srcOff size dstOff 0 = Ok b' /\ wf h b' /\
    defined_run ms srcOff size n /\ shows (view_base h b') (img_overlay m ms srcOff n dstOff).
Proof.
  intros h b src srcOff size dstOff m ms W1 W2 M1 M2 RC P1 P2 P3 S1 S2.
  destruct (hb_copy_view h b src srcOff size dstOff 0 W1 W2) as [V1 V2].
  destruct (copy_shows _ _ srcOff size dstOff m ms M1 M2 RC P1 P2 P3 S1 S2) as (b1 & k & C1 & _ & C2 & C3).
  rewrite C1 in V1. destruct (hb_copy b src srcOff size dstOff 0) as [b'| |]; cbn [res_map] in V1; try discriminate.
  injection V1 as ->. exists b', k. split; [reflexivity|]. split; [apply V2; reflexivity|]. split; assumption.
Qed.
