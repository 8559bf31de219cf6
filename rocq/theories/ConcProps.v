(** Property theorems about goroutines and channels (C48, C49). *)
From Coq Require Import ZArith List Bool Lia.
From Verif Require Import GoLib ConcModel ConcSpec ConcProofs ConcProofs2.
Import ListNotations.
Open Scope Z_scope.

(** ** C48 *)

(** A tree and a condition for the examples; one leaf is shared by value. *)
Definition leaf (n : Z) : tree Z := Tree n [].
Definition oak : tree Z :=
  Tree 1 [Tree 2 [leaf 3; Tree 4 [leaf 5; leaf 3]]; leaf 6; Tree 8 [leaf 9]].
Definition odd_node (t : tree Z) : bool := Z.odd (node_of t).

Ltac next := eapply fr_step; [constructor; reflexivity|].

(** Whatever the schedule, what has been received is a part of the matches
    below the root from the start, in depth-first order. *)
Theorem C48_order_partial : forall A cap cond (root : tree A) n s,
  fruns cap cond n (find_start root) s ->
  prefix_of (fs_recv s) (filter cond (descendants root)).
Proof. exact @find_prefix. Qed.
Print Assumptions C48_order_partial.

(** A schedule that cannot be continued has delivered all of them once, and
    the consumer has seen the channel closed.  Full statement: for all nodes of
    the tree.  Missing: the root, see [C48_root_refuted]. *)
Theorem C48_complete_partial : forall A cap cond (root : tree A) n s,
  fruns cap cond n (find_start root) s -> (forall s', ~ fstep cap cond s s') ->
  fs_recv s = filter cond (descendants root) /\ fs_closed s = true /\ fs_ended s = true.
Proof. exact @find_complete. Qed.
Print Assumptions C48_complete_partial.

(** Every schedule ends, also with a channel without a buffer. *)
Theorem C48_ends : forall A cap cond (root : tree A) n s,
  fruns cap cond n (find_start root) s -> (n <= 5 * length (descendants root) + 3)%nat.
Proof. exact @find_steps. Qed.
Print Assumptions C48_ends.

(** As long as the consumer has not seen the end somebody can go on. *)
Theorem C48_live : forall A cap cond (root : tree A) n s,
  fruns cap cond n (find_start root) s -> fs_ended s = false -> exists s', fstep cap cond s s'.
Proof. exact @find_progress. Qed.
Print Assumptions C48_live.

(** A schedule with a channel of capacity 2 that runs to its end. *)
Example C48_case :
  map node_of (filter odd_node (descendants oak)) = [3; 5; 3; 9] /\
  exists n s, fruns 2 odd_node n (find_start oak) s /\ fs_ended s = true /\
    map node_of (fs_recv s) = [3; 5; 3; 9].
Proof.
  split; [reflexivity|]. eexists. eexists. split; [|split].
  - unfold find_start, oak, leaf. cbn [childs_of]. repeat next. apply fr_refl.
  - reflexivity.
  - reflexivity.
Qed.

(** The root is not tested. *)
Theorem C48_root_refuted : exists (root : tree Z) cond, cond root = true /\
  forall cap n s, fruns cap cond n (find_start root) s -> ~ In root (fs_recv s).
Proof.
  exists (leaf 1), odd_node. split; [reflexivity|]. intros cap n s R I.
  destruct (find_prefix cap odd_node (leaf 1) n s R) as [r P]. cbn in P.
  symmetry in P. apply app_eq_nil in P. destruct P as [P _]. rewrite P in I. exact I.
Qed.
Print Assumptions C48_root_refuted.

(** ** C49 *)

(** The texts written so far are those of the first entries, in order. *)
Theorem C49_order : forall E T (render : option E -> E -> T) pre post cap n s,
  hruns render cap n (hist_start (session pre post)) s ->
  prefix_of (hs_out s) (texts render None (pre ++ post)).
Proof. exact @hist_prefix. Qed.
Print Assumptions C49_order.

(** No schedule crashes. *)
Theorem C49_no_panic : forall E T (render : option E -> E -> T) pre post cap n s,
  hruns render cap n (hist_start (session pre post)) s -> ~ hstep render cap s None.
Proof. exact @hist_no_panic. Qed.
Print Assumptions C49_no_panic.

(** A schedule that cannot be continued has written every entry once, and
    Finish has returned, if the entries dumped before streaming starts fit into
    the channel (100 in the code). *)
Theorem C49_complete : forall E T (render : option E -> E -> T) pre post cap n s,
  0 < cap -> zlen pre <= cap ->
  hruns render cap n (hist_start (session pre post)) s ->
  (forall s', ~ hstep render cap s (Some s')) ->
  finished s /\ hs_out s = texts render None (pre ++ post).
Proof. exact @hist_complete. Qed.
Print Assumptions C49_complete.

(** Every schedule of any script ends. *)
Theorem C49_ends : forall E T (render : option E -> E -> T) cap n ops s,
  hruns render cap n (hist_start ops) s -> (n <= 10 * length ops)%nat.
Proof. exact @hist_bounded. Qed.
Print Assumptions C49_ends.

(** A text that shows the previous entry. *)
Definition show (p : option Z) (e : Z) : Z := match p with None => e | Some x => 100 * x + e end.

Example C49_case :
  session [1; 2] [3] = [HDump 1; HDump 2; HStream; HDump 3; HFinish] /\
  texts show None [1; 2; 3] = [1; 102; 203] /\
  exists n s, hruns show 100 n (hist_start (session [1; 2] [3])) s /\ finished s /\ hs_out s = [1; 102; 203].
Proof.
  split; [reflexivity|]. split; [reflexivity|].
  eexists. eexists. split; [|split].
  - unfold hist_start, session. cbn [map app].
    eapply hr_step; [apply h_dump|]. eapply hr_step; [apply h_send; reflexivity|].
    eapply hr_step; [apply h_dump|]. eapply hr_step; [apply h_send; reflexivity|].
    eapply hr_step; [apply h_stream|]. eapply hr_step; [apply h_recv; discriminate|].
    eapply hr_step; [apply (h_write show 100 _ _ _ _ _ _ [] _ []); reflexivity|].
    eapply hr_step; [apply h_dump|]. eapply hr_step; [apply h_recv; discriminate|].
    eapply hr_step; [apply h_send; reflexivity|].
    eapply hr_step; [apply (h_write show 100 _ _ _ _ _ _ [] _ []); reflexivity|].
    eapply hr_step; [apply h_finish|]. eapply hr_step; [apply h_recv; discriminate|].
    eapply hr_step; [apply (h_write show 100 _ _ _ _ _ _ [] _ []); reflexivity|].
    eapply hr_step; [apply h_send; reflexivity|].
    eapply hr_step; [apply h_stop|]. eapply hr_step; [apply h_wait|].
    eapply hr_step; [apply h_again|]. apply hr_refl.
  - repeat split.
  - reflexivity.
Qed.

(** Outside the property: without a stream, Dump blocks for ever once the
    channel is full. *)
Theorem C49_unstreamed_blocks : forall E T (render : option E -> E -> T) pre post cap,
  0 <= cap -> cap < zlen pre ->
  exists n s, hruns render cap n (hist_start (session pre post)) s /\
    (forall o, ~ hstep render cap s o) /\ hs_out s = [].
Proof. exact @hist_blocks. Qed.
Print Assumptions C49_unstreamed_blocks.

Example C49_unstreamed_case : 100 < zlen (repeat 7 101).
Proof. reflexivity. Qed.

(** Outside the property: with two streams entries can be written out of
    order, and Finish blocks for ever. *)
Theorem C49_two_streams_refuted : exists ops : list (hop Z),
  ops = [HStream; HStream; HDump 1; HDump 2; HFinish] /\
  (exists n s, hruns show 100 n (hist_start ops) s /\ hs_out s = [102; 1]) /\
  (exists n s, hruns show 100 n (hist_start ops) s /\ (forall o, ~ hstep show 100 s o) /\
               hs_phase s = HWait).
Proof.
  eexists. split; [reflexivity|].
  assert (R : exists n s, hruns show 100 n
            (hist_start [HStream; HStream; HDump 1; HDump 2; HFinish]) s /\
            s = mkH [HFinish] HIdle [1; 2] [] false 2 [] [102; 1]).
  { eexists. eexists. split; [|reflexivity]. unfold hist_start.
    eapply hr_step; [apply h_stream|]. eapply hr_step; [apply h_stream|].
    eapply hr_step; [apply h_dump|]. eapply hr_step; [apply h_send; reflexivity|].
    eapply hr_step; [apply h_recv; discriminate|].
    eapply hr_step; [apply h_dump|]. eapply hr_step; [apply h_send; reflexivity|].
    eapply hr_step; [apply h_recv; discriminate|].
    eapply hr_step; [apply (h_write show 100 _ _ _ _ _ _ [] _ [_]); reflexivity|].
    eapply hr_step; [apply (h_write show 100 _ _ _ _ _ _ [] _ []); reflexivity|].
    apply hr_refl. }
  destruct R as (n & s & R & ->). split; [exists n; eexists; split; [exact R|reflexivity]|].
  assert (G : forall n s0 s1 m s2, hruns show 100 n s0 s1 -> hruns show 100 m s1 s2 ->
              hruns show 100 (n + m) s0 s2).
  { clear. induction 1 as [|n s s1 s3 S R IH]; intros T2; cbn [Nat.add]; [exact T2|].
    eapply hr_step; [exact S|apply IH, T2]. }
  exists (n + 3)%nat. eexists. split; [eapply G; [exact R|]|].
  - eapply hr_step; [apply h_finish|]. eapply hr_step; [apply h_send; reflexivity|].
    eapply hr_step; [apply h_stop|]. apply hr_refl.
  - split; [|reflexivity]. cbn [Z.eqb Pos.eqb app]. intros o S. inversion S; subst;
      match goal with H : _ ++ _ :: _ = [] |- _ => destruct (app_cons_not_nil _ _ _ (eq_sym H)) end.
Qed.
Print Assumptions C49_two_streams_refuted.

(** Outside the property: a dump after Finish crashes. *)
Theorem C49_dump_after_finish : exists n s,
  hruns show 100 n (hist_start [HStream; HFinish; HDump 1]) s /\ hstep show 100 s None.
Proof.
  eexists. eexists. split.
  - unfold hist_start.
    eapply hr_step; [apply h_stream|]. eapply hr_step; [apply h_finish|].
    eapply hr_step; [apply h_send; reflexivity|]. eapply hr_step; [apply h_stop|].
    eapply hr_step; [apply h_wait|]. eapply hr_step; [apply h_again|].
    eapply hr_step; [apply h_dump|]. apply hr_refl.
  - apply h_send_closed.
Qed.
Print Assumptions C49_dump_after_finish.
