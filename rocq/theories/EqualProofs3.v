(** More fuel does not change a comparison; checks used by the examples. *)
From Coq Require Import ZArith List Bool Lia String.
From Coq Require Import Strings.Byte.
From Verif Require Import GoLib BaseModel GoLemmas BaseSpec TableModel TableSpec NameModel NameSpec.
From Verif Require Import WalkModel WalkSpec WalkProofs WalkProofs6 EqualModel EqualSpec.
Import ListNotations.
Open Scope list_scope.
Open Scope Z_scope.

Lemma each_final : forall f g l r, (forall i r, f i = r -> r <> OutOfFuel -> g i = r) ->
  each f l = r -> r <> OutOfFuel -> each g l = r.
Proof.
  intros f g l r H. revert r. induction l as [|i l IH]; intros r E N; cbn [each] in *; [exact E|].
  destruct (f i) as [x| |] eqn:F; cbn [bind] in E.
  - rewrite (H i _ F ltac:(discriminate)). cbn [bind]. destruct x; [apply IH; assumption|exact E].
  - rewrite (H i _ F ltac:(discriminate)). exact E.
  - congruence.
Qed.

Lemma bind_final : forall A B (e : res A) (k k' : A -> res B) r,
  (forall x r, k x = r -> r <> OutOfFuel -> k' x = r) ->
  (do x <- e; k x) = r -> r <> OutOfFuel -> (do x <- e; k' x) = r.
Proof. intros A B e k k' r H. destruct e; cbn [bind]; auto. Qed.

Lemma step_final : forall n b1 b2 go go' o1 o2 r,
  (forall a c r, go a c = r -> r <> OutOfFuel -> go' a c = r) ->
  equal_step n b1 b2 go o1 o2 = r -> r <> OutOfFuel -> equal_step n b1 b2 go' o1 o2 = r.
Proof.
  intros n b1 b2 go go' o1 o2 r H. unfold equal_step. destruct o1 as [c1|]; [|auto].
  destruct (0 <? v_pos (c_info c1)); apply each_final; intros i x; (destruct o2 as [c2|]; [|auto]).
  - unfold equal_elem. apply bind_final. intros [e1|] y; [|auto]. apply bind_final. intros [e2|] z; auto.
  - unfold equal_field. destruct (negb _); [auto|]. destruct (is_field_union _).
    + apply bind_final. intros u1 y. apply bind_final. intros u2 z. apply H.
    + destruct (negb _); [|auto]. apply bind_final. intros u1 y. apply bind_final. intros u2 z. apply H.
Qed.

Lemma equal_final : forall n b1 b2 f g o1 o2 r, (f <= g)%nat ->
  node_equal n b1 b2 f o1 o2 = r -> r <> OutOfFuel -> node_equal n b1 b2 g o1 o2 = r.
Proof.
  intros n b1 b2. induction f as [|f IH]; intros g o1 o2 r L E N; [cbn in E; congruence|].
  destruct g as [|g]; [lia|]. cbn [node_equal] in *. eapply step_final; [|exact E|exact N].
  intros a c x. apply IH. lia.
Qed.

(** ** Checks *)

Definition members_b (n : names) (sn : string) (ms : list scalar) : bool :=
  forallb (fun j => match zget ms j, group_of n sn j with
                    | Some u, Some g => says_b g [CBasic (width u)]
                    | _, _ => false
                    end) (indexes (zlen ms)).

Lemma members_sound : forall n sn ms, members_b n sn ms = true ->
  forall j u, zget ms j = Some u -> exists g, group_of n sn j = Some g /\ says g [CBasic (width u)].
Proof.
  intros n sn ms H j u Hu. unfold members_b in H. rewrite forallb_forall in H.
  specialize (H j (proj2 (indexes_in _ _) (zget_some_range _ _ _ Hu))). rewrite Hu in H.
  destruct (group_of n sn j) as [g|]; [|discriminate]. exists g. split; [reflexivity|]. apply says_sound. exact H.
Qed.

Definition members_described_b (n : names) (s : list (string * list ty)) : bool :=
  forallb (fun p => forallb (fun t => match t with
                                      | TyStruct sn ms | TyStructs sn ms => members_b n sn ms
                                      | _ => true
                                      end) (snd p)) s.

Lemma members_described_sound : forall n s, members_described_b n s = true -> members_described n (lookup s).
Proof.
  intros n s H name tys i t Hs Ht. unfold members_described_b in H. rewrite forallb_forall in H.
  assert (HI : exists k, In (k, tys) s).
  { clear H Ht. induction s as [|[k l] s IH]; [discriminate|]. cbn [lookup] in Hs. destruct (String.eqb _ _).
    - injection Hs as ->. exists k. left. reflexivity.
    - destruct (IH Hs) as (k' & K). exists k'. right. exact K. }
  destruct HI as (k & HI). specialize (H _ HI). cbn [snd] in H. rewrite forallb_forall in H.
  assert (In t tys) by (unfold zget in Ht; destruct (i <? 0); [discriminate|]; eapply nth_error_In; eauto).
  specialize (H t H0). destruct t; auto; apply members_sound; exact H.
Qed.

Fixpoint full_b (v : val) : bool :=
  match v with
  | Scalar _ _ | Struct _ _ | Structs _ _ _ => true
  | Tab _ _ fs => forallb full_b fs
  | Tabs _ _ es => forallb full_b es
  | _ => false
  end.

Lemma full_sound : forall k v, (depth v <= k)%nat -> full_b v = true -> full v.
Proof.
  assert (DI : forall v l, In v l -> (depth v <= fold_right Nat.max O (map depth l))%nat).
  { intros v l. induction l as [|w l IH]; intros H; [destruct H|]. cbn [map fold_right].
    destruct H as [->|H]; [lia|]. specialize (IH H). lia. }
  induction k as [|k IH]; intros v D H; destruct v; cbn [full_b] in H; try discriminate; try constructor;
    cbn [depth] in D; try lia; rewrite forallb_forall in H; apply Forall_forall; intros x X;
    (apply IH; [specialize (DI _ _ X); lia|apply H; exact X]).
Qed.
