(** The trees below a tree. *)
From Coq Require Import ZArith List Bool Lia String.
From Verif Require Import GoLib BaseModel GoLemmas BaseSpec TableModel NameModel StreamModel.
From Verif Require Import WalkModel WalkSpec WalkProofs WalkProofs2 WalkProofs3 WalkProofs5 InsModel.
Import ListNotations.
Open Scope list_scope.
Open Scope Z_scope.

Lemma zget_of_in : forall A (l : list A) x, In x l -> exists i, zget l i = Some x.
Proof.
  intros A l x H. apply In_nth_error in H as (k & H). exists (Z.of_nat k). unfold zget.
  replace (Z.of_nat k <? 0) with false by lia. rewrite Nat2Z.id. exact H.
Qed.

Lemma nodup_app : forall A (a b : list A), NoDup a -> NoDup b ->
  (forall x, In x a -> ~ In x b) -> NoDup (a ++ b).
Proof.
  induction a as [|x a IH]; intros b Ha Hb H; cbn; [exact Hb|]. inversion Ha; subst. constructor.
  - rewrite in_app_iff. intros [K|K]; [contradiction|]. apply (H x); [left; reflexivity|exact K].
  - apply IH; auto. intros y Hy. apply H. right. exact Hy.
Qed.

Lemma combine_indexes : forall A (l : list A), combine (indexes (Z.of_nat (List.length l))) l = number 0 l.
Proof.
  intros A l. unfold indexes. rewrite Nat2Z.id. change 0%nat with (Z.to_nat 0).
  assert (G : forall (l : list A) k, 0 <= k -> combine (map Z.of_nat (seq (Z.to_nat k) (List.length l))) l = number k l).
  { clear l. induction l as [|x l IH]; intros k Hk; [reflexivity|]. cbn [List.length]. rewrite seq_shift_z by exact Hk.
    cbn [combine number]. f_equal. apply IH. lia. }
  apply G. lia.
Qed.

Lemma in_number : forall A (l : list A) k i x, In (i, x) (number k l) <-> zget l (i - k) = Some x.
Proof.
  induction l as [|y l IH]; intros k i x.
  - cbn [number In]. unfold zget. split; [intros []|]. destruct (i - k <? 0); [discriminate|].
    destruct (Z.to_nat (i - k)); discriminate.
  - cbn [number In]. rewrite IH, zget_cons. replace (i - (k + 1)) with (i - k - 1) by lia. split.
    + intros [E|E].
      * injection E as <- <-. replace (k - k) with 0 by lia. reflexivity.
      * destruct (i - k =? 0) eqn:C; [|exact E].
        pose proof (zget_some_range _ _ _ E). lia.
    + destruct (i - k =? 0) eqn:C; intros E; [|right; exact E]. injection E as ->. left. f_equal. lia.
Qed.

Lemma number_fst : forall A (l : list A) k, NoDup (map fst (number k l)) /\ forall i, In i (map fst (number k l)) -> k <= i.
Proof.
  induction l as [|x l IH]; intros k; cbn [number map fst]; [split; [constructor|intros i []]|].
  destruct (IH (k + 1)) as [H1 H2]. split.
  - constructor; [|exact H1]. intros K. apply H2 in K. lia.
  - intros i [<-|K]; [lia|]. apply H2 in K. lia.
Qed.

Definition childs_of (j : Z) (ip : Z * option Z) : list Z :=
  match snd ip with
  | Some k => if k =? j then [fst ip + 1] else []
  | None => []
  end.

Lemma children_number : forall ps j, children ps j = flat_map (childs_of j) (number 0 ps).
Proof. intros ps j. unfold children. rewrite combine_indexes. reflexivity. Qed.

Lemma in_children : forall ps j c, In c (children ps j) <-> zget ps (c - 1) = Some (Some j).
Proof.
  intros ps j c. rewrite children_number, in_flat_map. split.
  - intros ([i o] & HI & HC). apply in_number in HI. unfold childs_of in HC. cbn [fst snd] in HC.
    destruct o as [k|]; [|destruct HC]. destruct (k =? j) eqn:E; [|destruct HC].
    destruct HC as [<-|[]]. replace (i + 1 - 1) with i by lia. replace (i - 0) with i in HI by lia. rewrite HI. do 2 f_equal. lia.
  - intros H. exists (c - 1, Some j). split; [apply in_number; replace (c - 1 - 0) with (c - 1) by lia; exact H|].
    unfold childs_of. cbn [fst snd]. rewrite Z.eqb_refl. left. lia.
Qed.

Lemma children_nodup : forall ps j, NoDup (children ps j).
Proof.
  intros ps j. rewrite children_number. generalize 0 as k. induction ps as [|o ps IH]; intros k; cbn [number flat_map]; [constructor|].
  apply nodup_app; [| apply IH |].
  - unfold childs_of. cbn [fst snd]. destruct o as [d|]; [|constructor]. destruct (d =? j); constructor; [intros []|constructor].
  - intros x Hx Hy. apply in_flat_map in Hy as ([i o'] & HI & HC).
    assert (LE : k + 1 <= i).
    { destruct (number_fst _ ps (k + 1)) as [_ NF]. apply NF. apply in_map_iff. exists (i, o'). auto. }
    unfold childs_of in *. cbn [fst snd] in *.
    destruct o as [d|]; [|destruct Hx]. destruct (d =? j); [|destruct Hx]. destruct Hx as [<-|[]].
    destruct o' as [d'|]; [|destruct HC]. destruct (d' =? j); [|destruct HC]. destruct HC as [HC|[]]. lia.
Qed.

Lemma val_deep : forall P : val -> Prop,
  (forall t, P (Absent t)) -> (forall p w, P (Scalar p w)) -> (forall p ms, P (Struct p ms)) ->
  (forall p k w, P (Scalars p k w)) -> (forall p k ms, P (Structs p k ms)) ->
  (forall name p fs, (forall f, In f fs -> P f) -> P (Tab name p fs)) ->
  (forall name p es, (forall e, In e es -> P e) -> P (Tabs name p es)) -> forall v, P v.
Proof.
  intros P H1 H2 H3 H4 H5 H6 H7. fix go 1. intros v. destruct v as [t|p w|p ms|p k w|p k ms|name p fs|name p es];
    [apply H1|apply H2|apply H3|apply H4|apply H5| |].
  - apply H6. induction fs as [|f fs IH]; intros g Hg; [destruct Hg|]. destruct Hg as [<-|Hg]; [apply go|apply IH; exact Hg].
  - apply H7. induction es as [|f fs IH]; intros g Hg; [destruct Hg|]. destruct Hg as [<-|Hg]; [apply go|apply IH; exact Hg].
Qed.

Section Trees.
Variable ps : list (option Z).
Hypothesis HP : forall i o, zget ps i = Some o -> exists j, o = Some j /\ 0 <= j <= i.

Inductive above : Z -> Z -> Prop :=
| Ab_one : forall j c, zget ps (c - 1) = Some (Some j) -> above j c
| Ab_more : forall j d c, zget ps (c - 1) = Some (Some d) -> above j d -> above j c.

Lemma parent_less : forall c j, zget ps (c - 1) = Some (Some j) -> 0 <= j < c /\ c <= zlen ps.
Proof.
  intros c j H. destruct (HP _ _ H) as (k & E & K). injection E as <-.
  apply zget_some_range in H. lia.
Qed.

Lemma above_less : forall j c, above j c -> 0 <= j < c /\ c <= zlen ps.
Proof.
  intros j c H. induction H as [j c H|j d c H _ IH]; [apply parent_less; exact H|].
  apply parent_less in H. lia.
Qed.

(** Two children of one tree have nothing below them in common. *)
Lemma siblings : forall a x, above a x -> forall j, zget ps (a - 1) = Some (Some j) ->
  forall a', (x = a' \/ above a' x) -> zget ps (a' - 1) = Some (Some j) -> a' = a.
Proof.
  intros a x H. induction H as [a x H|a d x H A IH]; intros j Ha a' Ha' Hj.
  - pose proof (parent_less _ _ Ha). pose proof (parent_less _ _ Hj). destruct Ha' as [->|A].
    + rewrite H in Hj. injection Hj as <-. lia.
    + inversion A as [? ? K1|? d' ? K1 K2]; subst; rewrite H in K1; injection K1 as <-; [reflexivity|].
      inversion K2 as [? ? K3|? d' ? K3 K4]; subst; rewrite Ha in K3; injection K3 as <-; [lia|].
      apply above_less in K4. lia.
  - pose proof (parent_less _ _ Ha). pose proof (parent_less _ _ Hj). apply (IH j Ha a'); [|exact Hj].
    destruct Ha' as [->|B].
    + rewrite H in Hj. injection Hj as <-. apply above_less in A. lia.
    + inversion B as [? ? K1|? d' ? K1 K2]; subst; rewrite H in K1; injection K1 as <-; auto.
Qed.

Lemma above_root : forall c, 1 <= c <= zlen ps -> above 0 c.
Proof.
  intros c H. assert (G : forall k c, (Z.to_nat c < k)%nat -> 1 <= c <= zlen ps -> above 0 c).
  { induction k as [|k IH]; intros x Hk Hx; [lia|].
    destruct (zget_some ps (x - 1) ltac:(lia)) as [o E].
    destruct (HP _ _ E) as (j & -> & Hj). destruct (Z.eq_dec j 0) as [->|]; [apply Ab_one; exact E|].
    eapply Ab_more; [exact E|]. apply IH; lia. }
  apply (G (S (Z.to_nat c))); [lia|exact H].
Qed.

Definition edge_ok (j : Z) (e : Z * Z * Z) : Prop :=
  let '(j', k, c) := e in
  zget ps (c - 1) = Some (Some j') /\ zget (children ps j') k = Some c /\ above j c.

Lemma below_ok : forall fuel j, 0 <= j <= zlen ps -> zlen ps - j < Z.of_nat fuel ->
  exists es, below fuel ps j = Ok es /\ NoDup (map snd es) /\ Forall (edge_ok j) es /\
    forall c, above j c -> In c (map snd es).
Proof.
  induction fuel as [|fuel IH]; intros j Hj HL; [pose proof (zlen_nonneg ps); lia|].
  cbn [below]. rewrite combine_indexes.
  assert (G : forall l k, NoDup l ->
    (forall i c, zget l i = Some c -> zget (children ps j) (k + i) = Some c) ->
    exists es, collect (fun kc => let '(k, c) := kc in
                          do sub <- below fuel ps c; Ok ((j, k, c) :: sub)) (number k l) = Ok es /\
      NoDup (map snd (List.concat es)) /\ Forall (edge_ok j) (List.concat es) /\
      (forall c, In c (map snd (List.concat es)) <-> exists a, In a l /\ (c = a \/ above a c))).
  { induction l as [|a l IHl]; intros k ND HI.
    - exists []. cbn. split; [reflexivity|]. split; [constructor|]. split; [constructor|]. intros c. split; [intros []|intros (a & [] & _)].
    - inversion ND as [|? ? N1 N2]; subst.
      assert (Ea : zget (children ps j) k = Some a) by (specialize (HI 0 a eq_refl); replace (k + 0) with k in HI by lia; exact HI).
      assert (Pa : zget ps (a - 1) = Some (Some j)) by (apply in_children; eapply zget_in; exact Ea).
      pose proof (parent_less _ _ Pa) as LA.
      destruct (IH a ltac:(lia) ltac:(lia)) as (sub & S1 & S2 & S3 & S4).
      destruct (IHl (k + 1) N2) as (es & E1 & E2 & E3 & E4).
      { intros i c Hc. replace (k + 1 + i) with (k + (i + 1)) by lia. apply HI. rewrite zget_cons.
        pose proof (zget_some_range _ _ _ Hc). replace (i + 1 =? 0) with false by lia. replace (i + 1 - 1) with i by lia. exact Hc. }
      exists (((j, k, a) :: sub) :: es). cbn [number collect]. rewrite S1. cbn [bind]. rewrite E1. cbn [bind].
      split; [reflexivity|].
      assert (SB : forall c, In c (map snd sub) <-> above a c).
      { intros c. split; [|apply S4]. intros HC. apply in_map_iff in HC as ([[j' k'] c'] & <- & HC).
        rewrite Forall_forall in S3. destruct (S3 _ HC) as (_ & _ & A). exact A. }
      assert (EQ : map snd (List.concat (((j, k, a) :: sub) :: es)) = (a :: map snd sub) ++ map snd (List.concat es)).
      { cbn [List.concat app map snd]. rewrite map_app. reflexivity. }
      rewrite EQ. split.
      { apply nodup_app; [constructor; [|exact S2]|exact E2|].
        - rewrite SB. intros A. apply above_less in A. lia.
        - intros x Hx Hy. apply E4 in Hy as (a' & HA' & HX').
          assert (Pa' : zget ps (a' - 1) = Some (Some j)).
          { apply in_children. destruct (zget_of_in _ _ _ HA') as (i & Hi). eapply zget_in. apply (HI (i + 1)).
            rewrite zget_cons. pose proof (zget_some_range _ _ _ Hi). replace (i + 1 =? 0) with false by lia.
            replace (i + 1 - 1) with i by lia. exact Hi. }
          assert (a' = a); [|subst; contradiction].
          destruct Hx as [<-|Hx].
          + destruct HX' as [->|HX']; [reflexivity|]. symmetry. apply (siblings _ _ HX' j Pa' a); auto.
          + apply SB in Hx. apply (siblings _ _ Hx j Pa a'); auto. }
      split.
      { cbn [List.concat]. apply Forall_app. split; [|exact E3]. constructor.
        - repeat split; auto. apply Ab_one. exact Pa.
        - rewrite Forall_forall in *. intros [[j' k'] c'] HC. destruct (S3 _ HC) as (H1 & H2 & H3).
          split; [exact H1|]. split; [exact H2|]. clear - H3 Pa. induction H3 as [a c H|a d c H _ IH].
          + eapply Ab_more; [exact H|]. apply Ab_one. exact Pa.
          + eapply Ab_more; [exact H|]. auto. }
      { intros c. rewrite in_app_iff, E4. cbn [In]. rewrite SB. split.
        - intros [[<-|A]|(a' & I & A)]; [exists a; auto|exists a; auto|exists a'; auto].
        - intros (a' & [<-|I] & A); [|right; eauto]. left. destruct A as [->|A]; auto. } }
  destruct (G (children ps j) 0 (children_nodup ps j)) as (es & E1 & E2 & E3 & E4).
  { intros i c Hc. exact Hc. }
  rewrite E1. cbn [bind]. exists (List.concat es). split; [reflexivity|]. split; [exact E2|]. split; [exact E3|].
  intros c A. apply E4. clear - A. induction A as [j c H|j d c H _ IH].
  - exists c. split; [apply in_children; exact H|auto].
  - destruct IH as (a & I & [->|A]); exists a; split; auto; right; [apply Ab_one; exact H|eapply Ab_more; eauto].
Qed.

End Trees.
