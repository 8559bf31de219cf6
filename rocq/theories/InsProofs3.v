(** Checks of the conditions on concrete buffers. *)
From Coq Require Import ZArith List Bool Lia String.
From Verif Require Import GoLib BaseModel GoLemmas BaseSpec TableModel TableSpec NameModel NameSpec.
From Verif Require Import WalkModel WalkSpec WalkProofs2 InsModel InsSpec InsProofs.
Import ListNotations.
Open Scope list_scope.
Open Scope Z_scope.

Definition one_side_b (pos a k : Z) : bool := (a + k <=? pos) || (pos <=? a).
Definition disjoint_b (a k c l : Z) : bool := (a + k <=? c) || (c + l <=? a).

Definition between_b (m : image) (pos : Z) (v : val) : bool :=
  forallb (fun x => one_side_b pos (fst x) (snd x)) (parts m v) &&
  forallb (fun x => one_side_b pos (fst x) 4) (links m v) &&
  forallb (fun x => Bool.eqb (fst x <? pos) (snd x <? pos)) (ties m v).

Lemma one_side_sound : forall pos a k, one_side_b pos a k = true -> one_side pos a k.
Proof. unfold one_side_b, one_side. intros. lia. Qed.
Lemma disjoint_sound : forall a k c l, disjoint_b a k c l = true -> disjoint a k c l.
Proof. unfold disjoint_b, disjoint. intros. lia. Qed.

Lemma between_sound : forall m pos v, between_b m pos v = true -> between m pos v.
Proof.
  intros m pos v H. unfold between_b in H. rewrite !andb_true_iff, !forallb_forall in H.
  destruct H as ((H1 & H2) & H3). repeat split.
  - intros a k Hi. apply one_side_sound. apply (H1 (a, k)). exact Hi.
  - intros a t Hi. apply one_side_sound. apply (H2 (a, t)). exact Hi.
  - intros Hl. specialize (H3 (a, c) ltac:(assumption)). cbn [fst snd] in H3. apply eqb_prop in H3. lia.
  - intros Hl. specialize (H3 (a, c) ltac:(assumption)). cbn [fst snd] in H3. apply eqb_prop in H3. lia.
Qed.

Fixpoint pairs_b {A} (f : A -> A -> bool) (l : list A) : bool :=
  match l with [] => true | x :: l' => forallb (f x) l' && pairs_b f l' end.

Definition apart_b (m : image) (v : val) : bool :=
  pairs_b (fun x y => disjoint_b (fst x) 4 (fst y) 4) (links m v) &&
  forallb (fun x => forallb (fun y => disjoint_b (fst x) 4 (fst y) (snd y)) (parts m v)) (links m v).

Lemma apart_sound : forall m v, apart_b m v = true -> apart_links m v.
Proof.
  intros m v H. unfold apart_b in H. rewrite andb_true_iff, forallb_forall in H. destruct H as [H1 H2]. split.
  - revert H1. generalize (links m v) as l. induction l as [|x l IH]; cbn [pairs_b]; intros H; [constructor|].
    rewrite andb_true_iff, forallb_forall in H. destruct H as [H3 H4]. constructor; [|auto].
    apply Forall_forall. intros y Hy. apply disjoint_sound. auto.
  - intros a t c k Ha Hc. specialize (H2 _ Ha). rewrite forallb_forall in H2. specialize (H2 _ Hc). apply disjoint_sound. exact H2.
Qed.

Fixpoint insertable_b (v : val) : bool :=
  match v with
  | Absent (TyScalar _) | Absent (TyTable _) | Absent (TyStruct _ _) | Absent (TyUnion _) | Scalar _ _ | Scalars _ _ _ => true
  | Tab _ _ fs => forallb insertable_b fs
  | Tabs _ _ es => forallb insertable_b es
  | _ => false
  end.

Lemma insertable_sound : forall v, insertable_b v = true -> insertable v.
Proof.
  intros v. induction v as [t|p w|p ms|p k w|p k ms|name p fs go|name p es go] using val_deep; intros H; cbn [insertable_b] in H; try discriminate.
  - destruct t; try discriminate; constructor.
  - constructor.
  - constructor.
  - constructor. rewrite forallb_forall in H. apply Forall_forall. auto.
  - constructor. rewrite forallb_forall in H. apply Forall_forall. auto.
Qed.

Fixpoint distinct_b (l : list Z) : bool :=
  match l with [] => true | x :: l' => negb (existsb (Z.eqb x) l') && distinct_b l' end.

Lemma distinct_sound : forall l, distinct_b l = true -> NoDup l.
Proof.
  induction l as [|x l IH]; cbn [distinct_b]; intros H; [constructor|].
  rewrite andb_true_iff, negb_true_iff in H. destruct H as [H1 H2]. constructor; [|auto].
  intros Hi. assert (E : existsb (Z.eqb x) l = true); [|congruence].
  apply existsb_exists. exists x. split; [exact Hi|apply Z.eqb_refl].
Qed.

Section Check.
Variable s : schema.
Variable own : string * Z.
Variable pos : Z.

Definition own_b (name : string) (p : Z) : bool := String.eqb (fst own) name && (snd own =? p).

Definition crosses_b (p : Z) (f : val) : bool := (p <? pos) && (pos <=? val_pos f).

Fixpoint found_b (u : bool) (v : val) : bool :=
  match v with
  | Absent _ | Scalar _ _ | Scalars _ _ _ => true
  | Tab name p fs =>
      match s name with
      | Some tys =>
          (fix go (g : bool) fs tys := match fs with
            | [] => true
            | f :: fs' =>
                (negb (crosses_b p f) || (negb u && negb (own_b name p) && negb g)) &&
                match f with
                | Tabs tn q es => negb (existsb (crosses_b q) es) || negb (own_b ("[]" ++ tn)%string p)
                | _ => true
                end &&
                match tys with
                | t :: tys' => found_b (is_union t) f && go (g || gap f) fs' tys'
                | [] => go (g || gap f) fs' []
                end
            end) false fs tys
      | None => false
      end
  | Tabs _ _ es => (fix go es := match es with [] => true | e :: es' => found_b false e && go es' end) es
  | _ => false
  end.

Lemma own_sound : forall name p, own_b name p = false -> own <> (name, p).
Proof. intros name p H E. unfold own_b in H. rewrite E in H. cbn [fst snd] in H. rewrite String.eqb_refl, Z.eqb_refl in H. discriminate. Qed.

Lemma crosses_spec : forall p f, p < pos <= val_pos f -> crosses_b p f = true.
Proof. intros p f H. unfold crosses_b. lia. Qed.

Lemma zget_cons_case : forall A (x : A) l i y, zget (x :: l) i = Some y -> (i = 0 /\ y = x) \/ (0 < i /\ zget l (i - 1) = Some y).
Proof.
  intros A x l i y H. destruct (Z.eq_dec i 0) as [->|N].
  - cbn in H. left. split; [reflexivity|congruence].
  - right. pose proof (zget_some_range _ _ _ H) as R. split; [lia|]. rewrite zget_cons in H. replace (i =? 0) with false in H by lia. exact H.
Qed.

Lemma found_sound : forall v u, found_b u v = true -> found s own pos u v.
Proof.
  intros v. induction v as [t|p w|p ms|p k w|p k ms|name p fs go|name p es go] using val_deep; intros u H; cbn [found_b] in H; try discriminate H; try constructor.
  - destruct (s name) as [tys|] eqn:E; [|discriminate].
    match type of H with ?F false fs tys = true => set (chk := F) in H end.
    assert (G : forall tys g0, chk g0 fs tys = true -> (forall i f, zget fs i = Some f -> p < pos <= val_pos f ->
         u = false /\ own <> (name, p) /\ g0 = false /\
         forall j g, 0 <= j < i -> zget fs j = Some g -> gap g = false) /\
      (forall i tn q es, zget fs i = Some (Tabs tn q es) ->
         (exists e, In e es /\ q < pos <= val_pos e) -> own <> (("[]" ++ tn)%string, p)) /\
      (forall i f t, zget fs i = Some f -> zget tys i = Some t -> found s own pos (is_union t) f)).
    { clear E H. revert go. induction fs as [|f fs IH]; intros go tys' g0 H; clear tys; rename tys' into tys.
      - split; [|split]; intros i; intros; rewrite zget_nil in *; discriminate.
      - unfold chk in H. rewrite !andb_true_iff in H. destruct H as ((H1 & H2) & H3).
        assert (H3' : (forall t, zget tys 0 = Some t -> found_b (is_union t) f = true) /\
          exists tys', (forall i, 0 < i -> zget tys i = zget tys' (i - 1)) /\
          chk (g0 || gap f) fs tys' = true).
        { destruct tys as [|t tys].
          - split; [intros t Ht; rewrite zget_nil in Ht; discriminate|]. exists []. split; [intros; rewrite !zget_nil; reflexivity|exact H3].
          - rewrite andb_true_iff in H3. destruct H3 as [H3 H4]. split; [intros t' Ht; cbn in Ht; injection Ht as <-; exact H3|].
            exists tys. split; [intros i Hi; rewrite zget_cons; replace (i =? 0) with false by lia; reflexivity|exact H4]. }
        destruct H3' as (HF & tys' & HT & HR).
        pose proof (go f (or_introl eq_refl)) as gof. destruct (IH (fun g Hg => go g (or_intror Hg)) tys' _ HR) as (A & B & C). clear IH HR H3. split; [|split].
        + intros i g Hg Hc. apply zget_cons_case in Hg. destruct Hg as [[-> ->]|[Hi Hg]].
          * rewrite (crosses_spec _ _ Hc) in H1. cbn [negb orb] in H1. rewrite !andb_true_iff, !negb_true_iff in H1.
            destruct H1 as ((H1 & H4) & H5). repeat split; auto; [apply own_sound; exact H4|]. intros j g' Hj. lia.
          * destruct (A _ _ Hg Hc) as (A1 & A2 & A3 & A4). apply orb_false_iff in A3. destruct A3 as [A3 A5].
            repeat split; auto. intros j g' Hj Hg'. apply zget_cons_case in Hg'. destruct Hg' as [[-> ->]|[Hj' Hg']]; [exact A5|].
            apply (A4 (j - 1)); [lia|exact Hg'].
        + intros i tn q es Hg (e & He & Hc). apply zget_cons_case in Hg. destruct Hg as [[-> <-]|[Hi Hg]].
          * apply own_sound. apply orb_true_iff in H2. destruct H2 as [H2|H2]; [|apply negb_true_iff; exact H2].
            apply negb_true_iff in H2. assert (X : existsb (crosses_b q) es = true); [|congruence].
            apply existsb_exists. exists e. split; [exact He|]. apply crosses_spec. exact Hc.
          * eapply B; [exact Hg|]. eauto.
        + intros i g t Hg Ht. apply zget_cons_case in Hg. destruct Hg as [[-> ->]|[Hi Hg]].
          * apply gof. apply HF. exact Ht.
          * rewrite HT in Ht by lia. eapply C; eauto. }
    destruct (G _ _ H) as (A & B & C). econstructor; [exact E| |exact B|exact C].
    intros i f Hf Hc. destruct (A i f Hf Hc) as (A1 & A2 & _ & A4). auto.
  - intros e He. revert H. induction es as [|e' es IH]; intros H; [destruct He|]. apply andb_true_iff in H. destruct H as [H1 H2].
    destruct He as [<-|He]; [apply go; [left; reflexivity|exact H1]|].
    apply IH; [intros g Hg; apply go; right; exact Hg|exact He|exact H2].
Qed.

End Check.
