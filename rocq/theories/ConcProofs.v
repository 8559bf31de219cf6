(** Lemmas about the tree search. *)
From Coq Require Import ZArith List Bool Lia.
From Verif Require Import GoLib GoLemmas ConcModel ConcSpec.
Import ListNotations.
Open Scope Z_scope.

Section Find.
Context {A : Type}.
Variables (cap : Z) (cond : tree A -> bool).

Definition todo (s : fst_ A) : list (tree A) :=
  match fs_send s with Some t => t :: filter cond (descendants t) | None => [] end ++
  flat_map (fun ts => filter cond (flat_map preorder ts)) (fs_stack s).

Definition find_inv (root : tree A) (s : fst_ A) : Prop :=
  fs_recv s ++ fs_buf s ++ todo s = filter cond (descendants root) /\
  (fs_closed s = true -> fs_stack s = [] /\ fs_send s = None) /\
  (fs_ended s = true -> fs_closed s = true /\ fs_buf s = []).

Lemma descendants_childs (t : tree A) : descendants t = flat_map preorder (childs_of t).
Proof. destruct t. reflexivity. Qed.

Lemma preorder_node (t : tree A) : preorder t = t :: descendants t.
Proof. destruct t. reflexivity. Qed.

Lemma find_inv_start root : find_inv root (find_start root).
Proof.
  unfold find_inv, find_start, todo. cbn. rewrite app_nil_r, descendants_childs.
  repeat split; discriminate.
Qed.

Lemma find_inv_step root s s' : find_inv root s -> fstep cap cond s s' -> find_inv root s'.
Proof.
  unfold find_inv, todo. intros (I & C & E) S.
  inversion S; subst; cbn [fs_stack fs_send fs_buf fs_closed fs_recv fs_ended] in *.
  - (* match *)
    split; [|split; [intros F; destruct (C F); discriminate|intros F; destruct (E F) as [F' _]; destruct (C F'); discriminate]].
    rewrite <- I. cbn [flat_map app]. rewrite preorder_node. cbn [app filter]. rewrite H.
    rewrite filter_app. cbn [app]. rewrite <- ?app_assoc. reflexivity.
  - (* skip *)
    split; [|split; [intros F; destruct (C F); discriminate|intros F; destruct (E F) as [F' _]; destruct (C F'); discriminate]].
    rewrite <- I. cbn [flat_map app]. rewrite preorder_node. cbn [app filter]. rewrite H.
    rewrite filter_app, descendants_childs, <- ?app_assoc. reflexivity.
  - (* send *)
    split; [|split; [discriminate|intros F; destruct (E F); discriminate]].
    rewrite <- I. cbn [flat_map app]. rewrite descendants_childs, <- ?app_assoc. reflexivity.
  - (* hand *)
    split; [|split; [discriminate|intros F; destruct (E F); discriminate]].
    rewrite <- I. cbn [flat_map app]. rewrite descendants_childs, <- ?app_assoc. reflexivity.
  - (* return *)
    split; [rewrite <- I; reflexivity|].
    split; [intros F; destruct (C F); discriminate|intros F; destruct (E F) as [F' _]; destruct (C F'); discriminate].
  - (* close *)
    split; [rewrite <- I; reflexivity|]. split; [auto|intros F; destruct (E F); discriminate].
  - (* recv *)
    split; [rewrite <- I, <- app_assoc; reflexivity|]. split; [exact C|discriminate].
  - (* end *)
    split; [exact I|]. split; auto.
Qed.

Lemma find_inv_runs root n s s' : fruns cap cond n s s' -> find_inv root s -> find_inv root s'.
Proof.
  induction 1; intros I; [exact I|]. apply IHfruns. eapply find_inv_step; eauto.
Qed.

Lemma find_prefix root n s :
  fruns cap cond n (find_start root) s -> prefix_of (fs_recv s) (filter cond (descendants root)).
Proof.
  intros R. destruct (find_inv_runs root _ _ _ R (find_inv_start root)) as (I & _).
  eexists. symmetry. exact I.
Qed.

Lemma find_all root n s :
  fruns cap cond n (find_start root) s -> fs_ended s = true ->
  fs_recv s = filter cond (descendants root).
Proof.
  intros R E. destruct (find_inv_runs root _ _ _ R (find_inv_start root)) as (I & C & D).
  destruct (D E) as [F B]. destruct (C F) as [S N].
  unfold todo in I. rewrite S, N, B in I. cbn in I. rewrite app_nil_r in I. exact I.
Qed.

(** Some goroutine can always go on. *)
Lemma find_progress root n s :
  fruns cap cond n (find_start root) s -> fs_ended s = false -> exists s', fstep cap cond s s'.
Proof.
  intros R E. destruct (find_inv_runs root _ _ _ R (find_inv_start root)) as (I & C & D).
  destruct s as [fs sd b c r e]. cbn [fs_stack fs_send fs_buf fs_closed fs_recv fs_ended] in *.
  subst e.
  destruct b as [|t b]; [|eexists; apply f_recv].
  destruct c; [eexists; apply f_end|].
  destruct sd as [t|]; [eexists; apply f_hand|].
  destruct fs as [|[|t ts] fs].
  - eexists; apply f_close.
  - eexists; apply f_return.
  - destruct (cond t) eqn:H; eexists; [apply f_match|apply f_skip]; exact H.
Qed.

(** A bound on the length of all schedules. *)
Fixpoint weight (t : tree A) : nat :=
  match t with Tree _ l => 5 + list_sum (map weight l) end.
Definition weights (l : list (tree A)) : nat := 1 + list_sum (map weight l).
Definition fmeasure (s : fst_ A) : nat :=
  (list_sum (map weights (fs_stack s)) +
   match fs_send s with Some t => 3 + weights (childs_of t) | None => 0 end +
   length (fs_buf s) + (if fs_closed s then 0 else 1) + (if fs_ended s then 0 else 1))%nat.

Lemma weight_childs t : weight t = (4 + weights (childs_of t))%nat.
Proof. destruct t. unfold weights. cbn [weight childs_of]. lia. Qed.

Lemma weights_cons t ts : weights (t :: ts) = (weight t + weights ts)%nat.
Proof. unfold weights. change (list_sum (map weight (t :: ts))) with (weight t + list_sum (map weight ts))%nat. lia. Qed.

Lemma sum_cons n l : list_sum (n :: l) = (n + list_sum l)%nat.
Proof. reflexivity. Qed.

Lemma fmeasure_step s s' : fstep cap cond s s' -> (fmeasure s' < fmeasure s)%nat.
Proof.
  intros S. inversion S; subst; unfold fmeasure;
    cbn [fs_stack fs_send fs_buf fs_closed fs_recv fs_ended map];
    rewrite ?sum_cons, ?weights_cons, ?app_length, ?(weight_childs t); cbn [length]; try lia.
  all: unfold weights; cbn; try destruct c; try destruct e; lia.
Qed.

Lemma find_bounded root n s :
  fruns cap cond n (find_start root) s -> (n <= fmeasure (find_start root))%nat.
Proof.
  assert (G : forall m s0 s1, fruns cap cond m s0 s1 -> (m + fmeasure s1 <= fmeasure s0)%nat).
  { intros m s0 s1 R. induction R as [|m s0 s1 s2 S R IH]; [lia|].
    pose proof (fmeasure_step _ _ S). lia. }
  intros R. specialize (G _ _ _ R). lia.
Qed.

(** The bound in terms of the tree. *)
Lemma weight_size : forall t, weight t = (5 * length (preorder t))%nat.
Proof.
  fix IH 1. intros [a l]. cbn [weight preorder length].
  enough (E : list_sum (map weight l) = (5 * length (flat_map preorder l))%nat) by lia.
  revert l. fix IHl 1. intros [|t l]; [reflexivity|].
  cbn [map list_sum fold_right flat_map]. rewrite app_length, (IH t).
  change (fold_right Nat.add 0%nat (map weight l)) with (list_sum (map weight l)).
  rewrite (IHl l). lia.
Qed.

Lemma find_steps root n s :
  fruns cap cond n (find_start root) s -> (n <= 5 * length (descendants root) + 3)%nat.
Proof.
  intros R. pose proof (find_bounded _ _ _ R) as B.
  assert (E : fmeasure (find_start root) = (5 * length (descendants root) + 3)%nat).
  { unfold fmeasure, find_start. cbn [fs_stack fs_send fs_buf fs_closed fs_recv fs_ended map length].
    unfold list_sum at 1. cbn [fold_right].
    pose proof (weight_size root) as W. rewrite weight_childs, preorder_node in W. cbn [length] in W. lia. }
  lia.
Qed.

(** A schedule that cannot be continued has delivered everything. *)
Lemma find_complete root n s :
  fruns cap cond n (find_start root) s -> (forall s', ~ fstep cap cond s s') ->
  fs_recv s = filter cond (descendants root) /\ fs_closed s = true /\ fs_ended s = true.
Proof.
  intros R N. destruct (fs_ended s) eqn:E.
  - split; [eapply find_all; eauto|]. split; [|reflexivity].
    destruct (find_inv_runs root _ _ _ R (find_inv_start root)) as (_ & _ & D). apply D, E.
  - exfalso. destruct (find_progress root n s R E) as [s' S]. exact (N s' S).
Qed.

End Find.
