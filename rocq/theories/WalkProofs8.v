(** More fuel does not change results. *)
From Coq Require Import ZArith List Bool Lia String.
From Coq Require Import Strings.Byte.
From Verif Require Import GoLib BaseModel TableModel NameModel WalkModel.
Import ListNotations.
Open Scope list_scope.
Open Scope Z_scope.

Definition upto {A} (r r' : res A) : Prop := r = OutOfFuel \/ r' = r.

Lemma upto_refl : forall A (r : res A), upto r r.
Proof. intros A r. right. reflexivity. Qed.

Lemma upto_bind : forall A B (r r' : res A) (f f' : A -> res B), upto r r' -> (forall x, upto (f x) (f' x)) ->
  upto (bind r f) (bind r' f').
Proof.
  intros A B r r' f f' [->| ->] H; [left; reflexivity|]. destruct r as [x| |]; cbn [bind]; [apply H|right; reflexivity|left; reflexivity].
Qed.

Lemma upto_collect : forall A B (f f' : A -> res B) l, (forall x, upto (f x) (f' x)) -> upto (collect f l) (collect f' l).
Proof.
  intros A B f f' l H. induction l as [|x l IH]; cbn [collect]; [apply upto_refl|].
  apply upto_bind; [apply H|]. intros y. apply upto_bind; [exact IH|]. intros ys. apply upto_refl.
Qed.

Ltac upto_step :=
  match goal with
  | |- upto ?a ?a => apply upto_refl
  | |- upto (bind _ _) (bind _ _) => apply upto_bind; [|intros]
  | |- upto (collect _ _) (collect _ _) => apply upto_collect; intros
  | |- context [match ?x with _ => _ end] => destruct x
  end.

Section Walk.
Variable n : names.
Variable b : base.

Lemma upto_max : forall info info' es i best pos, (forall c, upto (info c) (info' c)) ->
  upto (max_index info es i best pos) (max_index info' es i best pos).
Proof.
  intros info info' es. induction es as [|e es IH]; intros i best pos H; cbn [max_index]; [apply upto_refl|].
  destruct (c_node e) as [[p z]|]; [|apply upto_refl]. apply upto_bind; [apply H|]. intros v.
  destruct ((i =? 0) || (pos <? p + v_size v)); apply IH, H.
Qed.

Lemma upto_slice : forall info info' c, (forall c, upto (info c) (info' c)) ->
  upto (info_slice n b info c) (info_slice n b info' c).
Proof. intros info info' c H. unfold info_slice. repeat (upto_step || apply H || apply upto_max, H). Qed.

Lemma upto_value : forall info info' c i, (forall c, upto (info c) (info' c)) ->
  upto (value_info n b info c i) (value_info n b info' c i).
Proof. intros info info' c i H. unfold value_info. repeat (apply upto_slice, H || upto_step || apply H). Qed.

Lemma upto_info : forall f c, upto (node_info n b f c) (node_info n b (S f) c).
Proof.
  induction f as [|f IH]; intros c; [left; reflexivity|].
  change (node_info n b (S f) c) with (info_step n b (node_info n b f) c).
  change (node_info n b (S (S f)) c) with (info_step n b (node_info n b (S f)) c).
  unfold info_step. repeat (apply upto_value, IH || upto_step).
Qed.

Lemma info_final : forall f f' c r, (f <= f')%nat -> node_info n b f c = r -> r <> OutOfFuel ->
  node_info n b f' c = r.
Proof.
  intros f f' c r H. revert r. induction H as [|f' H IH]; intros r E N; [exact E|].
  destruct (upto_info f' c) as [U|U]; [rewrite (IH r E N) in U; congruence|]. rewrite U. apply IH; auto.
Qed.

Lemma len_final : forall f f' c r, (f <= f')%nat -> node_len n b f c = r -> r <> OutOfFuel ->
  node_len n b f' c = r.
Proof.
  intros f f' c r H E N. unfold node_len in *. rewrite (info_final f f' c (node_info n b f c) H eq_refl); [exact E|].
  intros C. rewrite C in E. cbn in E. congruence.
Qed.

Lemma upto_tslice : forall go go' c, (forall c, upto (go c) (go' c)) ->
  upto (traverse_slice n b go c) (traverse_slice n b go' c).
Proof. intros go go' c H. unfold traverse_slice. repeat (upto_step || apply H). Qed.

Lemma upto_tfield : forall info info' go go' c i, (forall c, upto (info c) (info' c)) -> (forall c, upto (go c) (go' c)) ->
  upto (traverse_field n b info go c i) (traverse_field n b info' go' c i).
Proof.
  intros info info' go go' c i HI HG. unfold traverse_field.
  repeat (apply upto_value, HI || apply upto_tslice, HG || upto_step || apply HG).
Qed.

Lemma upto_traverse : forall f c, upto (traverse n b f c) (traverse n b (S f) c).
Proof.
  induction f as [|f IH]; intros c; [left; reflexivity|].
  change (upto (do vs <- collect (traverse_field n b (node_info n b f) (traverse n b f) c)
                  (indexes (map_len (c_groups c))); Ok (List.concat vs))
               (do vs <- collect (traverse_field n b (node_info n b (S f)) (traverse n b (S f)) c)
                  (indexes (map_len (c_groups c))); Ok (List.concat vs))).
  apply upto_bind; [|intros; apply upto_refl]. apply upto_collect. intros i.
  apply upto_tfield; [apply upto_info|exact IH].
Qed.

Lemma traverse_final : forall f f' c r, (f <= f')%nat -> traverse n b f c = r -> r <> OutOfFuel ->
  traverse n b f' c = r.
Proof.
  intros f f' c r H. revert r. induction H as [|f' H IH]; intros r E N; [exact E|].
  destruct (upto_traverse f' c) as [U|U]; [rewrite (IH r E N) in U; congruence|]. rewrite U. apply IH; auto.
Qed.

End Walk.
