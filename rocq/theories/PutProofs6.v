(** Checks of the conditions on concrete buffers. *)
From Coq Require Import ZArith List Bool Lia String.
From Verif Require Import GoLib BaseModel GoLemmas BaseSpec TableModel TableSpec NameModel NameSpec.
From Verif Require Import WalkModel WalkSpec WalkProofs2 InsModel InsSpec InsProofs InsProofs3 PutSpec.
Import ListNotations.
Open Scope list_scope.
Open Scope Z_scope.

Section Check.
Variable s : schema.
Variable own : string * Z.
Variable pos : Z.

Fixpoint met_b (u : bool) (v : val) : bool :=
  match v with
  | Absent _ | Scalar _ _ | Scalars _ _ _ => true
  | Tab name p fs =>
      match s name with
      | Some tys =>
          (fix go (g : bool) fs tys := match fs with
            | [] => true
            | f :: fs' =>
                (negb (crosses_b pos p f) || (negb u && (own_b own name p || negb g))) &&
                match f with
                | Tabs tn q es => negb (existsb (crosses_b pos q) es) || negb (own_b own ("[]" ++ tn)%string p)
                | _ => true
                end &&
                match tys with
                | t :: tys' => met_b (is_union t) f && go (g || gap f) fs' tys'
                | [] => go (g || gap f) fs' []
                end
            end) false fs tys
      | None => false
      end
  | Tabs _ _ es => (fix go es := match es with [] => true | e :: es' => met_b false e && go es' end) es
  | _ => false
  end.

Lemma own_true : forall name p, own_b own name p = true -> own = (name, p).
Proof.
  intros name p H. unfold own_b in H. apply andb_true_iff in H. destruct H as [H1 H2]. apply String.eqb_eq in H1. apply Z.eqb_eq in H2.
  destruct own as [a c]. cbn [fst snd] in *. congruence.
Qed.

Lemma met_sound : forall v u, met_b u v = true -> met s own pos u v.
Proof.
  intros v. induction v as [t|p w|p ms|p k w|p k ms|name p fs go|name p es go] using val_deep; intros u H; cbn [met_b] in H; try discriminate H; try constructor.
  - destruct (s name) as [tys|] eqn:E; [|discriminate].
    match type of H with ?F false fs tys = true => set (chk := F) in H end.
    assert (G : forall tys g0, chk g0 fs tys = true -> (forall i f, zget fs i = Some f -> p < pos <= val_pos f ->
         u = false /\ (own = (name, p) \/ (g0 = false /\
         forall j g, 0 <= j < i -> zget fs j = Some g -> gap g = false))) /\
      (forall i tn q es, zget fs i = Some (Tabs tn q es) ->
         (exists e, In e es /\ q < pos <= val_pos e) -> own <> (("[]" ++ tn)%string, p)) /\
      (forall i f t, zget fs i = Some f -> zget tys i = Some t -> met s own pos (is_union t) f)).
    { clear E H. revert go. induction fs as [|f fs IH]; intros go tys' g0 H; clear tys; rename tys' into tys.
      - split; [|split]; intros i; intros; rewrite zget_nil in *; discriminate.
      - unfold chk in H. rewrite !andb_true_iff in H. destruct H as ((H1 & H2) & H3).
        assert (H3' : (forall t, zget tys 0 = Some t -> met_b (is_union t) f = true) /\
          exists tys', (forall i, 0 < i -> zget tys i = zget tys' (i - 1)) /\
          chk (g0 || gap f) fs tys' = true).
        { destruct tys as [|t tys].
          - split; [intros t Ht; rewrite zget_nil in Ht; discriminate|]. exists []. split; [intros; rewrite !zget_nil; reflexivity|exact H3].
          - rewrite andb_true_iff in H3. destruct H3 as [H3 H4]. split; [intros t' Ht; cbn in Ht; injection Ht as <-; exact H3|].
            exists tys. split; [intros i Hi; rewrite zget_cons; replace (i =? 0) with false by lia; reflexivity|exact H4]. }
        destruct H3' as (HF & tys' & HT & HR).
        pose proof (go f (or_introl eq_refl)) as gof. destruct (IH (fun g Hg => go g (or_intror Hg)) tys' _ HR) as (A & B & C). clear IH HR H3. split; [|split].
        + intros i g Hg Hc. apply zget_cons_case in Hg. destruct Hg as [[-> ->]|[Hi Hg]].
          * rewrite (crosses_spec pos _ _ Hc) in H1. cbn [negb orb] in H1. rewrite !andb_true_iff, !negb_true_iff in H1.
            destruct H1 as (H1 & H4). split; [exact H1|]. apply orb_true_iff in H4. destruct H4 as [H4|H4]; [left; apply own_true; exact H4|right].
            apply negb_true_iff in H4. split; [exact H4|]. intros j g' Hj. lia.
          * destruct (A _ _ Hg Hc) as (A1 & [A2|(A3 & A4)]); [auto|]. apply orb_false_iff in A3. destruct A3 as [A3 A5].
            split; [exact A1|]. right. split; [exact A3|]. intros j g' Hj Hg'. apply zget_cons_case in Hg'. destruct Hg' as [[-> ->]|[Hj' Hg']]; [exact A5|].
            apply (A4 (j - 1)); [lia|exact Hg'].
        + intros i tn q es Hg (e & He & Hc). apply zget_cons_case in Hg. destruct Hg as [[-> <-]|[Hi Hg]].
          * apply own_sound. apply orb_true_iff in H2. destruct H2 as [H2|H2]; [|apply negb_true_iff; exact H2].
            apply negb_true_iff in H2. assert (X : existsb (crosses_b pos q) es = true); [|congruence].
            apply existsb_exists. exists e. split; [exact He|]. apply crosses_spec. exact Hc.
          * eapply B; [exact Hg|]. eauto.
        + intros i g t Hg Ht. apply zget_cons_case in Hg. destruct Hg as [[-> ->]|[Hi Hg]].
          * apply gof. apply HF. exact Ht.
          * rewrite HT in Ht by lia. eapply C; eauto. }
    destruct (G _ _ H) as (A & B & C). econstructor; [exact E| |exact B|exact C].
    intros i f Hf Hc. destruct (A i f Hf Hc) as (A1 & [A2|(_ & A4)]); auto.
  - intros e He. revert H. induction es as [|e' es IH]; intros H; [destruct He|]. apply andb_true_iff in H. destruct H as [H1 H2].
    destruct He as [<-|He]; [apply go; [left; reflexivity|exact H1]|].
    apply IH; [intros g Hg; apply go; right; exact Hg|exact He|exact H2].
Qed.

End Check.

Lemma only_sound : forall v w, In w (tables v) -> distinct_b (map val_pos (tables v)) = true -> only_table v w.
Proof.
  intros v w H D. split; [exact H|]. apply distinct_sound in D. revert H D. generalize (tables v) as l.
  induction l as [|y l IH]; intros H D u Hu E; [destruct H|]. cbn [map] in D. inversion D as [|? ? N D']; subst.
  destruct H as [->|H]; destruct Hu as [->|Hu]; auto.
  - exfalso. apply N. rewrite <- E. apply in_map. exact Hu.
  - exfalso. apply N. rewrite E. apply in_map. exact H.
Qed.

Definition sole_b (m : image) (tp k : Z) (v : val) : bool :=
  forallb (fun x => disjoint_b (fst x) (snd x) (vtable_of m tp) (4 + 2 * k)) (besides m tp v).

Lemma sole_sound : forall m tp k v, sole_b m tp k v = true -> sole_vtable m tp k v.
Proof.
  intros m tp k v H a l Hal. unfold sole_b in H. rewrite forallb_forall in H. apply disjoint_sound. exact (H (a, l) Hal).
Qed.

Definition apart_from_b (l : list (Z * Z)) (p k : Z) : bool := forallb (fun x => disjoint_b (fst x) (snd x) p k) l.

Lemma apart_from_sound : forall l p k, apart_from_b l p k = true -> forall a c, In (a, c) l -> disjoint a c p k.
Proof. intros l p k H a c Hc. unfold apart_from_b in H. rewrite forallb_forall in H. apply disjoint_sound. exact (H (a, c) Hc). Qed.

Definition links_from_b (l : list (Z * Z)) (p k : Z) : bool := forallb (fun x => disjoint_b (fst x) 4 p k) l.

Lemma links_from_sound : forall l p k, links_from_b l p k = true -> forall a c, In (a, c) l -> disjoint a 4 p k.
Proof. intros l p k H a c Hc. unfold links_from_b in H. rewrite forallb_forall in H. apply disjoint_sound. exact (H (a, c) Hc). Qed.
