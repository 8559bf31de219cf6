(** Property theorems about reads from a stream (C16, C61, C62, C63). *)
From Coq Require Import ZArith List Bool Lia Permutation.
From Coq Require Import Strings.Byte.
From Verif Require Import GoLib GoLemmas BaseModel BaseSpec StreamModel StreamSpec.
From Verif Require Import StreamProofs StreamProofs2 StreamProofs3 StreamProofs4 StreamProofs5.
Import ListNotations.
Open Scope Z_scope.

(** The sort used in the examples keeps the entries, so theorems about all such
    sorts apply to it. *)
Example sort_keeps : keeps sort_diffs.
Proof. exact sort_diffs_keeps. Qed.

(** ** C16 *)

(** Full statement: without [off + req <= zlen s] and for histories with reads
    past the end.  Missing: those reads, see [C16_past_end_refuted]. *)
Theorem C16_reads_partial : forall f srt s eof cap os x off req x' r, keeps srt -> 0 <= cap ->
  Forall (reads_in (zlen s)) os ->
  run_sops (S (S f)) srt (open_io (Random s eof) cap) os = Ok x ->
  0 <= off -> 0 <= req -> off + req <= zlen s ->
  stream_r (S (S f)) srt x off req = Ok (x', r) -> slice_of_image (img_bytes s) off (opt_data r).
Proof. exact stream_reads. Qed.
Print Assumptions C16_reads_partial.

(** A history that makes, expands and caps cache entries. *)
Example C16_reads_case :
  let s := map z2b (map Z.of_nat (seq 0 2000)) in
  match run_sops 2 sort_diffs (open_io (Random s no_eof) 512)
          [SRead 0 4; SRead 700 16; SRead 100 8; SRead 1500 20; SRead 705 40; SRead 1490 10; SRead 600 300] with
  | Ok x => (2 <=? length (b_rdiffs (fst x)))%nat = true /\
      match stream_r 2 sort_diffs x 601 5 with
      | Ok (_, r) => zfirst 5 (opt_data r) = map z2b [89; 90; 91; 92; 93]
      | _ => False
      end
  | _ => False
  end.
Proof. vm_compute. split; reflexivity. Qed.

(** Loading needs no more than two nested calls, whatever was read before. *)
Theorem C16_terminates : forall f srt s eof cap os off req, keeps srt -> 0 <= cap ->
  Forall (calls_in (zlen s)) (os ++ [SRead off req]) ->
  run_sops (S (S f)) srt (open_io (Random s eof) cap) (os ++ [SRead off req]) <> OutOfFuel.
Proof. exact stream_total. Qed.
Print Assumptions C16_terminates.

(** Reads that never go back succeed, and return bytes of the stream. *)
Theorem C16_forward : forall f srt s cap os, keeps srt -> 0 <= cap -> forward 0 (zlen s) os ->
  exists rs, read_all (S (S f)) srt (open_io (Random s (fun _ _ => false)) cap) os = Ok rs /\
    Forall2 (fun q r => 0 < zlen r /\ slice_of_image (img_bytes s) (fst q) r) os rs.
Proof. exact open_forward. Qed.
Print Assumptions C16_forward.

Example C16_forward_case :
  let s := map z2b (map Z.of_nat (seq 0 2000)) in
  forward 0 (zlen s) [(0, 4); (2, 4); (4, 10); (600, 8); (603, 100); (1990, 10)] /\
  match read_all 2 sort_diffs (open_io (Random s no_eof) 512) [(0, 4); (2, 4); (4, 10); (600, 8); (603, 100); (1990, 10)] with
  | Ok rs => map (fun r => (zlen r, hd_error r)) rs =
      [(4, Some x00); (2, Some x02); (10, Some x04); (8, Some x58); (100, Some x5b); (10, Some xc6)]
  | _ => False
  end.
Proof. split; [vm_compute; intuition discriminate|vm_compute; reflexivity]. Qed.

(** With writes in the history: a read that returns something returns, first, the
    byte last written there or the stream's. *)
Theorem C16_journal : forall f srt s eof cap os x off req x' r, keeps srt -> 0 <= cap ->
  Forall (calls_in (zlen s)) os ->
  run_sops (S (S f)) srt (open_io (Random s eof) cap) os = Ok x ->
  0 <= off -> 0 <= req -> off + req <= zlen s ->
  stream_r (S (S f)) srt x off req = Ok (x', r) -> 0 < zlen (opt_data r) ->
  hd_error (opt_data r) = img_sops (img_bytes s) os off.
Proof. exact stream_journal. Qed.
Print Assumptions C16_journal.

Example C16_journal_case :
  match run_sops 2 sort_diffs (open_io (Random [x01; x02; x03; x04; x05; x06; x07; x08] no_eof) 4)
          [SRead 0 2; SWrite 1 [x0a; x0b]; SRead 5 1; SWrite 5 [x0c]] with
  | Ok x => map (fun i => match stream_r 2 sort_diffs x i 1 with
                          | Ok (_, r) => hd_error (opt_data r) | _ => None end) [0; 1; 2; 3; 4; 5; 6] =
      [Some x01; Some x0a; Some x0b; Some x04; Some x05; Some x0c; Some x07]
  | _ => False
  end.
Proof. vm_compute. reflexivity. Qed.

(** The second read past the end returns zeros that are not in the stream. *)
Theorem C16_past_end_refuted : exists x r,
  run_sops 2 sort_diffs (open_io (Random [x01; x02; x03; x04] no_eof) 512) [SRead 6 2] = Ok x /\
  stream_r 2 sort_diffs x 6 2 = Ok r /\ opt_data (snd r) = [x00; x00].
Proof. exact past_end. Qed.
Print Assumptions C16_past_end_refuted.

(** Reads inside the stream that panic: going back twice. *)
Theorem C16_back_panics : exists x,
  run_sops 2 sort_diffs (open_io (Random (zeros 1500) no_eof) 512)
    [SRead 1000 10; SRead 900 10; SRead 905 500] = Ok x /\
  stream_r 2 sort_diffs x 901 500 = Panic.
Proof. exact reads_panic. Qed.
Print Assumptions C16_back_panics.

(** ** C61 *)

(** Full statement: every read inside the stream returns at least what was
    asked.  Missing: reads that overlap earlier ones or leave the first buffer,
    see below. *)
Theorem C61_whole_partial : forall f srt s eof cap os, keeps srt -> 0 <= cap ->
  stepwise 0 (Z.min (zlen s) cap) os ->
  exists rs, read_all (S (S f)) srt (open_io (Random s eof) cap) os = Ok rs /\
    Forall2 (fun q r => snd q <= zlen r /\ slice_of_image (img_bytes s) (fst q) r) os rs.
Proof. exact open_steps. Qed.
Print Assumptions C61_whole_partial.

Example C61_case : stepwise 0 8 [(0, 2); (2, 1); (5, 3)] /\
  read_all 2 sort_diffs (open_io (Random [x01; x02; x03; x04; x05; x06; x07; x08] no_eof) 512) [(0, 2); (2, 1); (5, 3)] =
  Ok [[x01; x02]; [x03]; [x06; x07; x08]].
Proof. split; [cbn; lia|vm_compute; reflexivity]. Qed.

(** A read that starts in what is cached returns no more than that. *)
Theorem C61_short_refuted : exists x r,
  run_sops 2 sort_diffs (open_io (Random [x01; x02; x03; x04; x05; x06; x07; x08] no_eof) 512) [SRead 0 4] = Ok x /\
  stream_r 2 sort_diffs x 2 4 = Ok r /\ opt_data (snd r) = [x03; x04].
Proof. exact short_read. Qed.
Print Assumptions C61_short_refuted.

(** ** C62 *)

(** Full statement: for a chain of any number of Next calls and any skip.
    Missing: the second call and skips past what was read, see below. *)
Theorem C62_next_partial : forall f srt s eof b skip b' t off req x r, keeps srt -> agrees s b ->
  0 <= skip <= gs_len (b_bytes b) -> next_buf b skip = Ok (b', t) ->
  0 <= off -> 0 <= req -> skip + off + req <= zlen s ->
  chain_r (S (S f)) srt (b', Random s eof) [next_off nil skip] (new_base t) off req = Ok (x, r) ->
  agrees s b' /\ slice_of_image (img_bytes s) (skip + off) (opt_data r).
Proof. exact next_reads. Qed.
Print Assumptions C62_next_partial.

Example C62_next_case :
  match run_sops 2 sort_diffs (open_io (Random [x01; x02; x03; x04; x05; x06; x07; x08] no_eof) 512) [SRead 0 4] with
  | Ok (b, src) =>
      match next_buf b 3 with
      | Ok (b', t) =>
          match chain_r 2 sort_diffs (b', src) [next_off nil 3] (new_base t) 1 3 with
          | Ok (_, r) => opt_data r = [x05; x06; x07]
          | _ => False
          end
      | _ => False
      end
  | _ => False
  end.
Proof. vm_compute. reflexivity. Qed.

(** After two calls of Next(2), position 0 shows byte 6 instead of byte 4. *)
Theorem C62_twice_refuted : exists x r,
  run_sops 2 sort_diffs (open_io (Random [x01; x02; x03; x04; x05; x06; x07; x08] no_eof) 512) [SRead 0 8] = Ok x /\
  chain_r 2 sort_diffs x [next_off [next_off nil 2] 2; next_off nil 2] (new_base (gs_of nil)) 0 1 = Ok r /\
  hd_error (opt_data (snd r)) = Some x07.
Proof. exact next_twice. Qed.
Print Assumptions C62_twice_refuted.

(** Next past what was read puts zeros in the parent. *)
Theorem C62_parent_refuted : exists x r b' t,
  run_sops 2 sort_diffs (open_io (Random [x01; x02; x03; x04; x05; x06; x07; x08] no_eof) 512) [SRead 0 2] = Ok x /\
  next_buf (fst x) 4 = Ok (b', t) /\
  stream_r 2 sort_diffs (b', snd x) 2 1 = Ok r /\ hd_error (opt_data (snd r)) = Some x00.
Proof. exact next_spoils. Qed.
Print Assumptions C62_parent_refuted.

(** Next past the capacity of the first buffer panics. *)
Theorem C62_far_panics : forall b skip, gs_cap (b_bytes b) < skip -> next_buf b skip = Panic.
Proof. exact next_panics. Qed.
Print Assumptions C62_far_panics.

Example C62_far_case : next_buf (fst (open_io (Random [x01] no_eof) 512)) 513 = Panic.
Proof. reflexivity. Qed.

(** ** C63 *)

(** Full statement: as C16, for a reader that is not random access.  Missing:
    everything but the first read, see below. *)
Theorem C63_first_partial : forall f srt s cap req, 1 <= req <= cap -> req <= zlen s ->
  exists x r, stream_r (S f) srt (open_io (Plain s) cap) 0 req = Ok (x, r) /\ opt_data r = zfirst req s.
Proof. exact plain_first. Qed.
Print Assumptions C63_first_partial.

(** The next bytes come out as zeros. *)
Theorem C63_second_refuted : exists x r,
  run_sops 3 sort_diffs (open_io (Plain [x01; x02; x03; x04; x05; x06; x07; x08]) 512) [SRead 0 4] = Ok x /\
  stream_r 3 sort_diffs x 4 4 = Ok r /\ opt_data (snd r) = [x00; x00; x00; x00].
Proof. exact plain_zeros. Qed.
Print Assumptions C63_second_refuted.

(** Reading past the first buffer does not terminate. *)
Theorem C63_loop_refuted : forall fuel srt s, keeps srt -> 600 <= zlen s ->
  stream_r fuel srt (open_io (Plain s) 512) 600 4 = OutOfFuel.
Proof. exact plain_never. Qed.
Print Assumptions C63_loop_refuted.

Example C63_case : stream_r 50 sort_diffs (open_io (Plain (zeros 700)) 512) 600 4 = OutOfFuel /\
  match stream_r 50 sort_diffs (open_io (Plain [x01; x02; x03]) 512) 0 2 with
  | Ok (_, r) => opt_data r = [x01; x02] | _ => False end.
Proof. split; vm_compute; reflexivity. Qed.
