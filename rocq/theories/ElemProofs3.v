(** Replacing a table of a vector by one that is not longer. *)
From Coq Require Import ZArith List Bool Lia String.
From Coq Require Import Strings.Byte.
From Verif Require Import GoLib BaseModel GoLemmas BaseSpec BaseProofs BaseProofs2 BaseProofs3 TableModel TableSpec TableProofs.
From Verif Require Import TableProofs2 NameModel NameSpec StreamModel WalkModel WalkSpec WalkProofs WalkProofs2 WalkProofs3 WalkProofs4 WalkProofs5.
From Verif Require Import EqualSpec BuildModel InsModel InsSpec InsProofs InsProofs7 PutModel PutSpec PutProofs PutProofs2 PutProofs7.
From Verif Require Import JourModel JourSpec JourProofs JourProofs2 JourProofs3 JourProofs4 JourProofs5 JourProofs8 JourProofs9.
From Verif Require Import ElemModel ElemSpec ElemProofs ElemProofs2.
From Verif Require BuildSpec BuildProofs3 BuildProofs5 AddProofs7.
Import ListNotations.
Open Scope list_scope.
Open Scope Z_scope.

(** ** The value with another field *)

Section Filled.
Variable m : image.
Variables (tp idx : Z) (t : ty) (x : val).
Hypothesis HI : 0 <= idx.
Local Notation clear := (fill tp idx (Absent t)).
Local Notation put := (fill tp idx x).

Lemma filled_field : forall p fs i g, zget (if p =? tp then set_nth idx x (map put fs) else map put fs) i = Some g ->
  (p = tp /\ i = idx /\ g = x) \/
  exists f, zget fs i = Some f /\ g = put f /\ zget (if p =? tp then set_nth idx (Absent t) (map clear fs) else map clear fs) i = Some (clear f).
Proof.
  intros p fs i g H. destruct (Z.eqb_spec p tp) as [->|NE].
  - rewrite zget_set_nth in H |- * by exact HI. destruct (Z.eqb_spec i idx) as [->|NI].
    + destruct (_ <? _); [|discriminate]. left. split; [reflexivity|]. split; congruence.
    + rewrite zget_map in H. destruct (zget fs i) as [f|] eqn:E; [|discriminate]. right. exists f. split; [reflexivity|]. split; [cbn in H; congruence|]. apply zget_map_some. exact E.
  - rewrite zget_map in H. destruct (zget fs i) as [f|] eqn:E; [|discriminate]. right. exists f. split; [reflexivity|]. split; [cbn in H; congruence|]. apply zget_map_some. exact E.
Qed.

Lemma frame_fill : forall v a k, In (a, k) (frame m (put v)) -> In (a, k) (frame m x) \/ In (a, k) (frame m (clear v)).
Proof.
  assert (LN : forall p y z (l l' : list val), List.length l = List.length l' ->
    List.length (if p =? tp then set_nth idx y l else l) = List.length (if p =? tp then set_nth idx z l' else l')).
  { intros p y z l l' E. apply Nat2Z.inj. change (zlen (if p =? tp then set_nth idx y l else l) = zlen (if p =? tp then set_nth idx z l' else l')).
    destruct (p =? tp); rewrite ?zlen_set_nth; unfold zlen; rewrite E; reflexivity. }
  intros v. induction v as [ty|q w'|q ms|q k' w'|q k' ms|nm p gs go|nm p vs go] using val_deep; intros a k H; try (right; exact H); cbn [fill frame] in H |- *.
  - destruct H as [E|[E|[E|H]]]; [right; left; exact E|right; right; left; exact E|do 3 right; left; exact E|].
    apply in_app_or in H. destruct H as [H|H].
    + right. do 3 right. apply in_or_app. left. rewrite (LN p x (Absent t) (map put gs) (map clear gs)) in H by (rewrite !map_length; reflexivity). exact H.
    + apply in_flat_map in H. destruct H as (g & G1 & G2). apply zget_of_in in G1. destruct G1 as (i & G1).
      destruct (filled_field p gs i g G1) as [(_ & _ & ->)|(f & F1 & -> & F3)]; [left; exact G2|].
      destruct (go f (zget_in _ _ _ _ F1) a k G2) as [C|C]; [left; exact C|]. right. do 3 right. apply in_or_app. right. apply in_flat_map. exists (clear f).
      split; [eapply zget_in; exact F3|exact C].
  - destruct H as [E|H]; [right; left; exact E|]. apply in_flat_map in H. destruct H as (g & G1 & G2). apply in_map_iff in G1. destruct G1 as (f & <- & F1).
    destruct (go f F1 a k G2) as [C|C]; [left; exact C|]. right. right. apply in_flat_map. exists (clear f). split; [apply in_map; exact F1|exact C].
Qed.

Lemma frame_clear : forall v, incl (frame m (clear v)) (frame m v).
Proof.
  intros v. induction v as [ty|q w'|q ms|q k' w'|q k' ms|nm p gs go|nm p vs go] using val_deep; try apply incl_refl; intros [a k] H; cbn [fill frame] in H |- *.
  - destruct H as [E|[E|[E|H]]]; [left; exact E|right; left; exact E|do 2 right; left; exact E|]. do 3 right. apply in_or_app.
    apply in_app_or in H. destruct H as [H|H].
    + left. assert (LN : forall l : list val, List.length (if p =? tp then set_nth idx (Absent t) l else l) = List.length l).
      { intros l. apply Nat2Z.inj. change (zlen (if p =? tp then set_nth idx (Absent t) l else l) = zlen l). destruct (p =? tp); rewrite ?zlen_set_nth; reflexivity. }
      rewrite LN, map_length in H. exact H.
    + right. apply in_flat_map in H. destruct H as (g & G1 & G2). apply zget_of_in in G1. destruct G1 as (i & G1).
      destruct (cleared_field tp idx HI t nm p gs i g G1) as [->|(f & F1 & ->)]; [destruct G2|]. apply in_flat_map. exists f. split; [eapply zget_in; exact F1|].
      apply (go f (zget_in _ _ _ _ F1)). exact G2.
  - destruct H as [E|H]; [left; exact E|]. right. apply in_flat_map in H. destruct H as (g & G1 & G2). apply in_map_iff in G1. destruct G1 as (f & <- & F1).
    apply in_flat_map. exists f. split; [exact F1|]. apply (go f F1). exact G2.
Qed.

Lemma links_fill : forall v a u, In (a, u) (links m (put v)) ->
  In (a, u) (links m x) \/ In (a, u) (links m (clear v)) \/ a = slot_of m tp idx.
Proof.
  intros v. induction v as [ty|q w'|q ms|q k' w'|q k' ms|nm p gs go|nm p vs go] using val_deep; intros a u H; try (right; left; exact H); cbn [fill] in H |- *.
  - rewrite !links_tab in *. apply concat_numbered_in in H. destruct H as (i & g & G1 & G2).
    destruct (filled_field p gs i g G1) as [(-> & -> & ->)|(f & F1 & -> & F3)].
    + apply in_app_or in G2. destruct G2 as [G2|G2]; [|left; exact G2]. destruct (start x); [|destruct G2]. destruct G2 as [E|[]]. right. right. congruence.
    + apply in_app_or in G2. destruct G2 as [G2|G2].
      * right. left. eapply in_concat_numbered; [exact F3|]. apply in_or_app. left. rewrite fill_start in *. exact G2.
      * destruct (go f (zget_in _ _ _ _ F1) a u G2) as [C|[C|C]]; [left; exact C| |right; right; exact C]. right. left. eapply in_concat_numbered; [exact F3|]. apply in_or_app. right. exact C.
  - rewrite !links_tabs in *. apply concat_numbered_in in H. destruct H as (i & g & G1 & G2). rewrite zget_map in G1. destruct (zget vs i) as [f|] eqn:E; [|discriminate]. cbn in G1. injection G1 as <-.
    assert (VP : val_pos (put f) = val_pos (clear f)) by (destruct f; reflexivity).
    destruct G2 as [G2|G2].
    + right. left. eapply in_concat_numbered; [apply zget_map_some; exact E|]. left. rewrite <- VP. exact G2.
    + destruct (go f (zget_in _ _ _ _ E) a u G2) as [C|[C|C]]; [left; exact C| |right; right; exact C]. right. left. eapply in_concat_numbered; [apply zget_map_some; exact E|]. right. exact C.
Qed.

End Filled.

Lemma held_sub : forall b p k a l, held b p k -> p <= a -> a + l <= p + k -> 0 <= l -> held b a l.
Proof.
  intros b p k a l [(l1 & d & l2 & E & D1 & D2 & F)|[HB F]] H1 H2 H3.
  - left. exists l1, d, l2. split; [exact E|]. split; [lia|]. split; [lia|]. eapply Forall_impl; [|exact F]. cbn. intros e He. unfold beside in *. lia.
  - right. split; [lia|]. eapply Forall_impl; [|exact F]. cbn. intros e He. unfold beside in *. lia.
Qed.

(** The elements one by one *)
Lemma elems_from : forall m s tn vs slot,
  (forall i v, zget vs i = Some v -> points_to m (slot + 4 * i) (val_pos v) /\ stored_table m s tn (val_pos v) v) -> stored_elems m s slot tn vs.
Proof.
  intros m s tn vs. induction vs as [|v vs IH]; intros slot H; [constructor|].
  destruct (H 0 v eq_refl) as [H1 H2]. replace (slot + 4 * 0) with slot in H1 by lia. econstructor; [exact H1|exact H2|]. apply IH.
  intros i w Hw. pose proof (zget_some_range _ _ _ Hw). destruct (H (i + 1) w) as [H3 H4]; [rewrite zget_cons; replace (i + 1 =? 0) with false by lia; replace (i + 1 - 1) with i by lia; exact Hw|].
  split; [|exact H4]. replace (slot + 4 + 4 * i) with (slot + 4 * (i + 1)) by lia. exact H3.
Qed.

Lemma seen_elems_from : forall b s tn vs slot,
  (forall i v, zget vs i = Some v -> sees_at b (slot + 4 * i) (val_pos v) /\ seen_table b s tn (val_pos v) v) -> seen_elems b s slot tn vs.
Proof.
  intros m s tn vs. induction vs as [|v vs IH]; intros slot H; [constructor|].
  destruct (H 0 v eq_refl) as [H1 H2]. replace (slot + 4 * 0) with slot in H1 by lia. econstructor; [exact H1|exact H2|]. apply IH.
  intros i w Hw. pose proof (zget_some_range _ _ _ Hw). destruct (H (i + 1) w) as [H3 H4]; [rewrite zget_cons; replace (i + 1 =? 0) with false by lia; replace (i + 1 - 1) with i by lia; exact Hw|].
  split; [|exact H4]. replace (slot + 4 + 4 * i) with (slot + 4 * (i + 1)) by lia. exact H3.
Qed.
