(** Property theorems about copying between variants of buffers (C116). *)
From Coq Require Import ZArith List Bool Lia.
From Coq Require Import Strings.Byte.
From Verif Require Import GoLib GoLemmas BaseModel BaseSpec VariantModel VariantSpec MixModel MixSpec MixProofs.
Import ListNotations.
Open Scope Z_scope.

(** Full statement: whatever the variants of the two buffers, after [Copy] the
    destination shows the bytes of the source where they were copied and its own
    everywhere else, and the source is as before.  Missing: sources whose range
    reads give outdated bytes (C15), sources that are a [DoubleLayer] with entries
    still to merge, and destinations that are a [DoubleLayer] with entries or a
    [DirectReader] whose buffer would grow. *)
Theorem C116_copy_partial : forall dst src m ms srcOff size dstOff,
  writable dst dstOff size -> readable src -> io_shows dst m -> io_shows src ms ->
  0 <= srcOff -> 0 <= size -> 0 <= dstOff ->
  exists dst' n, io_copy dst src srcOff size dstOff 0 = Ok (src, dst') /\ defined_run ms srcOff size n /\
    io_shows dst' (img_overlay m ms srcOff n dstOff).
Proof. exact mixed. Qed.
Print Assumptions C116_copy_partial.

(** With room made for them, the bytes are put in between. *)
Theorem C116_room_partial : forall dst src m ms srcOff size dstOff b,
  dst = Plain b \/ dst = Single b -> in_memory b -> Forall (fun d => straddles dstOff d = false) (b_diffs b) ->
  readable src -> io_shows dst m -> io_shows src ms -> 0 <= srcOff -> 0 <= size -> 0 <= dstOff ->
  (forall k, 0 <= k < size -> ms (srcOff + k) <> None) ->
  exists dst', io_copy dst src srcOff size dstOff size = Ok (src, dst') /\
    io_shows dst' (fun i => if i <? dstOff then m i
                            else if i <? dstOff + size then ms (srcOff + (i - dstOff))
                            else m (i - size)).
Proof. exact mixed_insert. Qed.
Print Assumptions C116_room_partial.

(** ** A sample *)

Definition mem (l : list byte) : base := new_base (gs_of l).

(** What is read at each of the positions *)
Definition seen (v : io) (is : list Z) : list (option byte) :=
  map (fun i => match io_r v i 1 with Ok (_, s) => hd_error (opt_data s) | _ => None end) is.

Definition six : base := mem [x01; x02; x03; x04; x05; x06].
Definition streamed : io := Direct six [x11; x12; x13].

(** A [DoubleLayer] after a copy *)
Definition first : base :=
  match io_copy (Double six) (Plain (mem [x0a; x0b; x0c])) 0 2 1 0 with Ok (_, Double b) => b | _ => six end.

Lemma mem_current : forall l, in_memory (mem l) /\ reads_current (mem l).
Proof.
  intros l. assert (M : in_memory (mem l)) by (split; [reflexivity|constructor]). split; [exact M|].
  apply BaseProofs3.reads_current_ok; [exact M|]. intros l1 d l2 e l3 E. destruct l1; discriminate.
Qed.

Example C116_case :
  readable streamed /\ writable (Double six) 3 5 /\ readable (Double first) /\ writable (Single six) 4 4 /\
  seen streamed [5; 6; 8; 9] = [Some x06; Some x11; Some x13; None] /\
  (exists dst', io_copy (Double six) streamed 4 5 3 0 = Ok (streamed, dst') /\
     seen dst' [0; 1; 2; 3; 4; 5; 6; 7; 8] =
       [Some x01; Some x02; Some x03; Some x05; Some x06; Some x11; Some x12; Some x13; None]) /\
  seen (Double first) [0; 1; 2; 3; 4; 5; 6] = [Some x01; Some x0a; Some x0b; Some x04; Some x05; Some x06; None] /\
  (exists dst', io_copy (Single six) (Double first) 0 4 4 0 = Ok (Double first, dst') /\
     seen dst' [0; 1; 2; 3; 4; 5; 6; 7; 8] =
       [Some x01; Some x02; Some x03; Some x04; Some x01; Some x0a; Some x0b; Some x04; None]) /\
  (exists dst', io_copy (Single six) streamed 4 3 1 3 = Ok (streamed, dst') /\
     seen dst' [0; 1; 2; 3; 4; 5; 6; 7; 8; 9] =
       [Some x01; Some x05; Some x06; Some x11; Some x02; Some x03; Some x04; Some x05; Some x06; None]).
Proof.
  assert (M : in_memory six /\ reads_current six) by apply mem_current. destruct M as [M C].
  assert (F : in_memory first) by (split; [reflexivity|repeat constructor; vm_compute; discriminate]).
  split.
  { split; [exact M|]. split; [exact C|]. exists [x01; x02; x03; x04; x05; x06]. split; [|reflexivity].
    intros i Hi. rewrite (BaseProofs.peek_content six i M Hi). reflexivity. }
  split; [split; [exact M|reflexivity]|]. split.
  { split; [exact F|]. split; [|vm_compute; reflexivity].
    apply BaseProofs3.reads_current_ok; [exact F|]. intros l1 d l2 e l3 E. left.
    assert (A : Forall (fun x => d_off x = 1) (b_diffs first)) by (repeat constructor).
    rewrite E in A. apply Forall_app in A as [_ A]. pose proof (Forall_inv A) as A1.
    apply Forall_inv_tail in A. apply Forall_app in A as [_ A]. pose proof (Forall_inv A) as A2. cbn beta in A1, A2. lia. }
  split; [exact M|]. split; [vm_compute; reflexivity|].
  split; [eexists; split; [vm_compute; reflexivity|vm_compute; reflexivity]|].
  split; [vm_compute; reflexivity|].
  split; [eexists; split; [vm_compute; reflexivity|vm_compute; reflexivity]|].
  eexists; split; [vm_compute; reflexivity|vm_compute; reflexivity].
Qed.

(** ** Refuted *)

(** Room made in a [DoubleLayer] is not kept: the bytes that should follow are
    lost.  In the other variants they are there. *)
Theorem C116_double_refuted : exists b src dst' dst'',
  in_memory b /\ b_diffs b = [] /\ readable src /\
  seen (Double b) [0; 1; 2; 3; 4; 5; 6] = [Some x01; Some x02; Some x03; Some x04; Some x05; Some x06; None] /\
  io_copy (Double b) src 0 2 1 2 = Ok (src, dst') /\ io_copy (Single b) src 0 2 1 2 = Ok (src, dst'') /\
  seen dst' [0; 1; 2; 3; 4; 5; 6; 7; 8] =
    [Some x01; Some x0a; Some x0b; Some x04; Some x05; Some x06; None; None; None] /\
  seen dst'' [0; 1; 2; 3; 4; 5; 6; 7; 8] =
    [Some x01; Some x0a; Some x0b; Some x02; Some x03; Some x04; Some x05; Some x06; None].
Proof.
  exists six, (Plain (mem [x0a; x0b; x0c])). eexists. eexists.
  split; [apply mem_current|]. split; [reflexivity|]. split; [apply mem_current|]. split; [vm_compute; reflexivity|].
  split; [vm_compute; reflexivity|]. split; [vm_compute; reflexivity|]. split; vm_compute; reflexivity.
Qed.
Print Assumptions C116_double_refuted.

(** Bytes copied over the end of the buffer below a stream move the stream: what
    lies behind them is no longer where it was. *)
Theorem C116_stream_refuted : exists b str src dst',
  in_memory b /\ readable (Direct b str) /\ readable src /\
  seen (Direct b str) [4; 5; 6; 7; 8; 9] = [Some x05; Some x06; Some x11; Some x12; Some x13; None] /\
  io_copy (Direct b str) src 0 3 4 0 = Ok (src, dst') /\
  seen dst' [4; 5; 6; 7; 8; 9] = [Some x0a; Some x0b; Some x0c; Some x11; Some x12; Some x13].
Proof.
  exists six, [x11; x12; x13], (Plain (mem [x0a; x0b; x0c])). eexists.
  assert (M : in_memory six /\ reads_current six) by apply mem_current. destruct M as [M C].
  split; [exact M|]. split.
  { split; [exact M|]. split; [exact C|]. exists [x01; x02; x03; x04; x05; x06]. split; [|reflexivity].
    intros i Hi. rewrite (BaseProofs.peek_content six i M Hi). reflexivity. }
  split; [apply mem_current|]. split; [vm_compute; reflexivity|]. split; [vm_compute; reflexivity|]. vm_compute; reflexivity.
Qed.
Print Assumptions C116_stream_refuted.

(** A [DoubleLayer] with a gap between its entries is copied with zeros in the
    gap, where reading the same buffer as [BaseImpl] gives its bytes. *)
Theorem C116_gap_refuted : exists b, in_memory b /\ reads_current b /\ forall m, shows b m ->
  m 2 = Some x03 /\ exists src' dst', io_copy (Plain (mem [])) (Double b) 0 6 0 0 = Ok (src', dst') /\
  seen dst' [0; 1; 2; 3; 4; 5; 6] = [Some x01; Some x0a; Some x00; Some x0b; Some x05; Some x06; None].
Proof.
  exists (mkBase (gs_of [x01; x02; x03; x04; x05; x06]) [] [mkDiff 1 (gs_of [x0a]); mkDiff 3 (gs_of [x0b])] true 0).
  assert (M : in_memory (mkBase (gs_of [x01; x02; x03; x04; x05; x06]) [] [mkDiff 1 (gs_of [x0a]); mkDiff 3 (gs_of [x0b])] true 0))
    by (split; [reflexivity|repeat constructor; vm_compute; discriminate]).
  split; [exact M|]. split.
  { apply BaseProofs3.reads_current_ok; [exact M|]. intros l1 d l2 e l3 E. right. cbn [b_diffs] in E.
    destruct l1 as [|? [|? l1]]; [|destruct l2; discriminate|destruct l1; discriminate].
    destruct l2 as [|? l2]; [|destruct l2; discriminate]. injection E as <- <- <-. vm_compute. discriminate. }
  intros m S. split.
  { pose proof (S 2 ltac:(lia)) as P. vm_compute in P. congruence. }
  eexists. eexists. split; [vm_compute; reflexivity|vm_compute; reflexivity].
Qed.
Print Assumptions C116_gap_refuted.
