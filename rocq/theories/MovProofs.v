(** Lemmas about the two ways to move the offsets of a list. *)
From Coq Require Import ZArith List Bool Lia.
From Coq Require Import ZifyBool ZifyNat.
From Coq Require Import Strings.Byte.
From Verif Require Import GoLib GoLemmas BaseModel BaseSpec BaseProofs TableModel TableSpec TableProofs.
From Verif Require Import ListModel ListProofs ListProofs5 AddModel AddProofs2 PutSpec JourSpec JourProofs9 ElemProofs2 ElemProofs3 MovModel.
Import ListNotations.
Open Scope Z_scope.

Lemma img_write_app : forall m a q r i, img_write (img_write m a q) (a + zlen q) r i = img_write m a (q ++ r) i.
Proof.
  intros m a q r i. unfold img_write. rewrite zlen_app. pose proof (zlen_nonneg q). pose proof (zlen_nonneg r).
  rewrite zget_app.
  destruct ((a + zlen q <=? i) && (i <? a + zlen q + zlen r)) eqn:A.
  - destruct ((a <=? i) && (i <? a + (zlen q + zlen r))) eqn:B; [|lia].
    destruct (i - a <? zlen q) eqn:C; [lia|]. f_equal. lia.
  - destruct ((a <=? i) && (i <? a + zlen q)) eqn:B.
    + destruct ((a <=? i) && (i <? a + (zlen q + zlen r))) eqn:C; [|lia]. destruct (i - a <? zlen q) eqn:D; [reflexivity|lia].
    + destruct ((a <=? i) && (i <? a + (zlen q + zlen r))) eqn:C; [lia|reflexivity].
Qed.

Lemma u32_fits : forall x, u32 x mod 256 ^ Z.of_nat 4 = u32 x.
Proof. intros x. unfold u32. change (256 ^ Z.of_nat 4) with (2 ^ 32). apply Z.mod_mod. discriminate. Qed.

Lemma move_slots_spec : forall pos d o, 0 <= pos -> forall n k b, in_memory b ->
  (forall i, Z.of_nat k <= i < Z.of_nat (k + n) -> rd 4 b (pos + i * 4) = Ok (o i)) ->
  exists b', move_slots b pos d (map Z.of_nat (seq k n)) = Ok b' /\ in_memory b' /\
    (forall j, content b' j = img_write (content b) (pos + Z.of_nat k * 4)
       (write_slots (map (fun i => o i + d) (map Z.of_nat (seq k n)))) j) /\
    (forall i, Z.of_nat k <= i < Z.of_nat (k + n) -> delivers b' (pos + i * 4) (le_encode 4 (u32 (o i + d)))) /\
    forall c q, 0 <= c -> 1 <= zlen q -> (c + zlen q <= pos + Z.of_nat k * 4 \/ pos + Z.of_nat (k + n) * 4 <= c) ->
      delivers b c q -> delivers b' c q.
Proof.
  intros pos d o HP. induction n as [|n IH]; intros k b HB HO; cbn [seq map move_slots].
  - exists b. split; [reflexivity|]. split; [exact HB|]. split; [intros j; symmetry; apply img_write_nil|]. split; [lia|auto].
  - rewrite (HO (Z.of_nat k)) by lia. cbn [bind]. set (x := o (Z.of_nat k) + d).
    assert (L4 : zlen (le_encode 4 (u32 x)) = 4) by (rewrite zlen_le_encode; reflexivity).
    destruct (u_delivers b (pos + Z.of_nat k * 4) (le_encode 4 (u32 x)) HB ltac:(lia) ltac:(lia)) as (b1 & E1 & M1 & _ & C1 & D1 & F1).
    rewrite L4 in *. rewrite E1. cbn [bind].
    destruct (IH (S k) b1 M1) as (b2 & E2 & M2 & C2 & D2 & F2).
    { intros i Hi. destruct (delivers_rd 4 b (pos + i * 4) (o i) ltac:(lia) (HO i ltac:(lia))) as [DI RI].
      rewrite (rd_delivers 4 b1 (pos + i * 4) (o i)); [f_equal; apply Z.mod_small; exact RI|lia|].
      apply F1; [lia|rewrite zlen_le_encode; lia|right; lia|exact DI]. }
    exists b2. split; [exact E2|]. split; [exact M2|]. split; [|split].
    + intros j. rewrite C2. rewrite (img_write_ext _ _ _ _ _ (C1 j)).
      replace (pos + Z.of_nat (S k) * 4) with (pos + Z.of_nat k * 4 + zlen (le_encode 4 (u32 x))) by lia.
      rewrite img_write_app. reflexivity.
    + intros i Hi. destruct (Z.eq_dec i (Z.of_nat k)) as [->|N]; [|apply D2; lia].
      apply F2; [lia|fold x; lia|left; fold x; lia|exact D1].
    + intros c q Hc Hq A DL. apply F2; [exact Hc|exact Hq|lia|]. apply F1; [exact Hc|exact Hq|lia|exact DL].
Qed.

Lemma two_ways : forall l n d o, in_memory (l_io l) -> 0 <= l_pos l -> list_vlen l = Ok n -> 1 <= n ->
  (forall i, 0 <= i < n -> rd 4 (l_io l) (l_pos l + i * 4) = Ok (o i)) ->
  forall new, exists b, move_offset_to_table new l d = Ok (set_io l b) /\ in_memory b /\
    (forall i, 0 <= i < n -> rd 4 b (l_pos l + i * 4) = Ok ((o i + d) mod 2 ^ 32)) /\
    (forall j, 0 <= j -> peek b j = Ok (img_write (content (l_io l)) (l_pos l) (write_slots (map (fun i => o i + d) (zseq n))) j)) /\
    forall c q, 0 <= c -> 1 <= zlen q -> (c + zlen q <= l_pos l \/ l_pos l + n * 4 <= c) ->
      delivers (l_io l) c q -> delivers b c q.
Proof.
  intros l n d o HB HP HV Hn HO new. set (pos := l_pos l) in *. destruct new; unfold move_offset_to_table.
  - unfold move_offsets. rewrite HV. cbn [bind]. fold pos.
    rewrite (read_slots_ok (l_io l) pos o (zseq n)).
    2: { intros i Hi. apply zseq_in in Hi. apply HO. lia. }
    cbn [bind]. rewrite map_map. set (p := write_slots (map (fun x => o x + d) (zseq n))).
    assert (LP : zlen p = n * 4) by (unfold p; rewrite zlen_write_slots, zlen_map, zlen_zseq; lia).
    destruct (u_delivers (l_io l) pos p HB HP ltac:(lia)) as (b & EU & M & _ & C & _ & FR).
    pose proof (u_held (l_io l) pos p b EU HP ltac:(lia)) as [HH _]. rewrite LP in *. rewrite EU. cbn [bind].
    replace (n =? 0) with false by lia. exists b. split; [reflexivity|]. split; [exact M|]. split; [|split].
    + intros i Hi. change (2 ^ 32) with (256 ^ Z.of_nat 4).
      assert (SL : zfirst 4 (zskip (4 * i) p) = le_encode 4 (u32 (o i + d))).
      { unfold p. apply write_slots_get. rewrite zget_map, zget_zseq by lia. reflexivity. }
      rewrite (rd_delivers 4 b (pos + i * 4) (u32 (o i + d))); [rewrite u32_fits; reflexivity|lia|].
      rewrite <- SL.
      assert (LS : zlen (zfirst 4 (zskip (4 * i) p)) = 4) by (rewrite SL, zlen_le_encode; reflexivity).
      apply (held_delivers b (content b)); [exact M|apply shows_content; exact M|lia| | |].
      * intros E. rewrite E in LS. discriminate LS.
      * unfold bytes_at. intros j Hj. rewrite LS in Hj. rewrite C. unfold img_write. rewrite LP.
        destruct ((pos <=? pos + i * 4 + j) && (pos + i * 4 + j <? pos + n * 4)) eqn:X; [|lia].
        rewrite zget_zfirst, zget_zskip by lia. destruct (j <? 4) eqn:Y; [|lia]. destruct (j <? 0) eqn:Z; [lia|].
        f_equal. lia.
      * rewrite LS. apply (held_sub b pos (n * 4)); [exact HH|lia|lia|lia].
    + intros j Hj. rewrite peek_content by auto. rewrite C. reflexivity.
    + intros c q Hc Hq A DL. apply FR; auto.
  - unfold old_move. rewrite HV. cbn [bind]. fold pos.
    destruct (move_slots_spec pos d o HP (Z.to_nat n) 0 (l_io l) HB) as (b & E & M & C & D & F).
    { intros i Hi. apply HO. lia. }
    unfold zseq. rewrite E. cbn [bind]. exists b. split; [reflexivity|]. split; [exact M|]. split; [|split].
    + intros i Hi. change (2 ^ 32) with (256 ^ Z.of_nat 4).
      rewrite (rd_delivers 4 b (pos + i * 4) (u32 (o i + d))); [rewrite u32_fits; reflexivity|lia|]. apply D. lia.
    + intros j Hj. rewrite peek_content by auto. rewrite C. replace (pos + Z.of_nat 0 * 4) with pos by lia. reflexivity.
    + intros c q Hc Hq A DL. apply F; auto. lia.
Qed.

Lemma moved : forall l n d o, in_memory (l_io l) -> 0 <= l_pos l -> list_vlen l = Ok n -> 1 <= n ->
  (forall i, 0 <= i < n -> rd 4 (l_io l) (l_pos l + i * 4) = Ok (o i)) ->
  forall new, exists b, move_offset_to_table new l d = Ok (set_io l b) /\ in_memory b /\
    (forall i, 0 <= i < n -> rd 4 b (l_pos l + i * 4) = Ok ((o i + d) mod 2 ^ 32)) /\
    (forall m j, shows (l_io l) m -> 0 <= j < l_pos l \/ l_pos l + n * 4 <= j -> peek b j = Ok (m j)) /\
    forall c q, 0 <= c -> 1 <= zlen q -> (c + zlen q <= l_pos l \/ l_pos l + n * 4 <= c) ->
      delivers (l_io l) c q -> delivers b c q.
Proof.
  intros l n d o HB HP HV Hn HO new. destruct (two_ways l n d o HB HP HV Hn HO new) as (b & E & M & R & C & F).
  exists b. split; [exact E|]. split; [exact M|]. split; [exact R|]. split; [|exact F].
  intros m j S Hj. rewrite C by lia. f_equal. unfold img_write. rewrite zlen_write_slots, zlen_map, zlen_zseq by lia.
  destruct ((l_pos l <=? j) && (j <? l_pos l + 4 * n)) eqn:X; [lia|].
  apply (shows_unique (l_io l)); [apply shows_content; exact HB|exact S|lia].
Qed.

Lemma same_way : forall l n d o, in_memory (l_io l) -> 0 <= l_pos l -> list_vlen l = Ok n -> 1 <= n ->
  (forall i, 0 <= i < n -> rd 4 (l_io l) (l_pos l + i * 4) = Ok (o i)) ->
  exists b1 b2, move_offset_to_table true l d = Ok (set_io l b1) /\ move_offset_to_table false l d = Ok (set_io l b2) /\
    forall j, 0 <= j -> peek b1 j = peek b2 j.
Proof.
  intros l n d o HB HP HV Hn HO. destruct (two_ways l n d o HB HP HV Hn HO true) as (b1 & E1 & _ & _ & C1 & _).
  destruct (two_ways l n d o HB HP HV Hn HO false) as (b2 & E2 & _ & _ & C2 & _).
  exists b1, b2. split; [exact E1|]. split; [exact E2|]. intros j Hj. rewrite C1, C2 by exact Hj. reflexivity.
Qed.

Lemma read_slots_inv : forall b pos is offs, read_slots b pos is = Ok offs ->
  forall i, In i is -> exists v, rd 4 b (pos + i * 4) = Ok v.
Proof.
  induction is as [|j is IH]; intros offs E i I; [destruct I|]. cbn [read_slots] in E.
  destruct (rd 4 b (pos + j * 4)) as [v| |] eqn:R; cbn [bind] in E; try discriminate.
  destruct (read_slots b pos is) as [r| |]; cbn [bind] in E; try discriminate.
  destruct I as [<-|I]; [eauto|]. eapply IH; [reflexivity|exact I].
Qed.

Lemma either_way : forall l d l1, in_memory (l_io l) -> 0 <= l_pos l -> move_offset_to_table true l d = Ok l1 ->
  exists l2, move_offset_to_table false l d = Ok l2 /\ l_pos l2 = l_pos l1 /\
    (forall j, 0 <= j -> peek (l_io l1) j = peek (l_io l2) j).
Proof.
  intros l d l1 HB HP E. pose proof E as E0. unfold move_offset_to_table, move_offsets in E.
  destruct (list_vlen l) as [n| |] eqn:V; cbn [bind] in E; try discriminate.
  destruct (read_slots (l_io l) (l_pos l) (zseq n)) as [offs| |] eqn:RS; cbn [bind] in E; try discriminate.
  destruct (base_u (l_io l) (l_pos l) (n * 4) (write_slots (map (fun o => o + d) offs))) as [b| |]; cbn [bind] in E; try discriminate.
  destruct (n =? 0) eqn:N; [discriminate|].
  assert (N1 : 1 <= n).
  { unfold list_vlen in V. pose proof (proj2 (delivers_rd 4 _ _ _ ltac:(lia) V)). lia. }
  destruct (same_way l n d (fun i => match rd 4 (l_io l) (l_pos l + i * 4) with Ok v => v | _ => 0 end) HB HP V N1)
    as (b1 & b2 & E1 & E2 & S).
  { intros i Hi. destruct (read_slots_inv _ _ _ _ RS i) as [v R]; [apply zseq_in; exact Hi|]. rewrite R. reflexivity. }
  rewrite E0 in E1. injection E1 as ->. exists (set_io l b2). split; [exact E2|]. split; [reflexivity|exact S].
Qed.

Lemma empty_list : let l := mkL (new_base (gs_of (zeros 4))) 4 4 0 0 in
  list_vlen l = Ok 0 /\ move_offset_to_table false l 4 = Ok l /\ move_offset_to_table true l 4 = Panic.
Proof. split; [|split]; vm_compute; reflexivity. Qed.
