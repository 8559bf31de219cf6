(** The number of a visit among those of its owner. *)
From Coq Require Import ZArith List Bool Lia String.
From Verif Require Import GoLib BaseModel GoLemmas BaseSpec TableModel TableSpec NameModel NameSpec.
From Verif Require Import WalkModel WalkSpec WalkProofs WalkProofs2 WalkProofs3 WalkProofs5 WalkProofs9.
From Verif Require Import InsModel InsSpec InsProofs InsProofs2 InsProofs4.
Import ListNotations.
Open Scope list_scope.
Open Scope Z_scope.

Fixpoint owned (o : Z) (bs : list bond) : Z :=
  match bs with
  | [] => 0
  | w :: bs' => (if w_owner w =? o then 1 else 0) + owned o bs'
  end.

Lemma owned_app : forall o a b, owned o (a ++ b) = owned o a + owned o b.
Proof. intros o a b. induction a as [|w a IH]; cbn [app owned]; [lia|]. rewrite IH. lia. Qed.

Lemma owned_none : forall o bs, (forall w, In w bs -> w_owner w <> o) -> owned o bs = 0.
Proof.
  intros o bs H. induction bs as [|w bs IH]; [reflexivity|]. cbn [owned].
  pose proof (H w (or_introl eq_refl)). replace (w_owner w =? o) with false by lia. rewrite IH; [reflexivity|].
  intros x Hx. apply H. right. exact Hx.
Qed.

Fixpoint counted (cnt : Z -> Z) (bs : list bond) : Prop :=
  match bs with
  | [] => True
  | w :: bs' => w_rank w = cnt (w_owner w) /\ counted (fun o => cnt o + (if w_owner w =? o then 1 else 0)) bs'
  end.

Lemma counted_ext : forall bs c1 c2, (forall w, In w bs -> c1 (w_owner w) = c2 (w_owner w)) -> counted c1 bs -> counted c2 bs.
Proof.
  induction bs as [|w bs IH]; intros c1 c2 H K; [exact I|]. destruct K as [K1 K2]. cbn [counted]. split.
  - rewrite K1. apply H. left. reflexivity.
  - eapply IH; [|exact K2]. intros x Hx. cbn beta. rewrite (H x) by (right; exact Hx). reflexivity.
Qed.

Lemma counted_app : forall a c b, counted c a -> counted (fun o => c o + owned o a) b -> counted c (a ++ b).
Proof.
  induction a as [|w a IH]; intros c b HA HB; cbn [app].
  - eapply counted_ext; [|exact HB]. intros. cbn [owned]. lia.
  - destruct HA as [HA1 HA2]. cbn [counted]. split; [exact HA1|]. apply IH; [exact HA2|].
    eapply counted_ext; [|exact HB]. intros. cbn [owned]. lia.
Qed.

Lemma counted_split : forall l1 c w l2, counted c (l1 ++ w :: l2) -> w_rank w = c (w_owner w) + owned (w_owner w) l1.
Proof.
  induction l1 as [|x l1 IH]; intros c w l2 H; cbn [app] in H.
  - destruct H as [H _]. cbn [owned]. lia.
  - destruct H as [_ H]. apply IH in H. rewrite H. cbn [owned]. lia.
Qed.

Section Ranks.
Variable n : names.
Variable m : image.

Lemma elem_owner : forall c q k w x, In x (elem_bonds n c q k w) -> w_owner x = q.
Proof. intros c q k w x H. apply in_map_iff in H. destruct H as (iq & <- & _). reflexivity. Qed.

Lemma in_ranked : forall A (g : Z -> Z -> val -> list A) fs i r x,
  In x (List.concat (ranked g i r fs)) -> exists j k f, In f fs /\ In x (g j k f).
Proof.
  induction fs as [|f fs IH]; intros i r x H; [destruct H|]. cbn [ranked List.concat] in H.
  apply in_app_or in H. destruct H as [H|H].
  - exists i, r, f. split; [left; reflexivity|exact H].
  - destruct (IH _ _ _ H) as (j & k & g' & H1 & H2). exists j, k, g'. split; [right; exact H1|exact H2].
Qed.

Lemma in_numbered : forall A (g : Z -> val -> list A) fs x,
  In x (List.concat (numbered g fs)) -> exists j f, In f fs /\ In x (g j f).
Proof.
  intros A g fs x. unfold numbered. generalize 0 as i. induction fs as [|f fs IH]; intros i H; [destruct H|].
  cbn [number map fst snd List.concat] in H.
  apply in_app_or in H. destruct H as [H|H].
  - exists i, f. split; [left; reflexivity|exact H].
  - destruct (IH _ H) as (j & g' & H1 & H2). exists j, g'. split; [right; exact H1|exact H2].
Qed.

(** Owners are starts. *)
Lemma bonds_owner : forall v, spread v -> forall tc c w, In w (bonds n m tc c v) -> In (w_owner w) (starts v).
Proof.
  intros v H. induction H as [t|p w|p k w P|name p fs P HP HS IH|name q es P HP HS IH]; intros tc c x Hx; try (destruct Hx; fail).
  - rewrite bonds_tab in Hx. apply in_ranked in Hx. destruct Hx as (i & r & f & Hf & Hx).
    rewrite starts_tab by auto. unfold field_bonds in Hx.
    assert (SUB : forall tc c, is_absent f = false -> In x (bonds n m tc c f) -> In (w_owner x) (p :: flat_map (fun f => if is_absent f then [] else starts f) fs)).
    { intros tc' c' E HI. right. apply in_flat_map. exists f. split; [exact Hf|]. rewrite E. eapply IH; eauto. }
    destruct f as [t|q w|q ms|q k w|q k ms|tn q gs|tn q gs]; try (destruct Hx; fail);
      [destruct t; try (destruct Hx; fail); destruct Hx as [<-|[]]; left; reflexivity|..];
      (destruct Hx as [<-|Hx]; [left; reflexivity|]).
    + destruct Hx.
    + destruct (w =? 1); [destruct Hx|]. apply elem_owner in Hx. right. apply in_flat_map. exists (Scalars q k w).
      split; [exact Hf|]. cbn [is_absent]. left. symmetry. exact Hx.
    + eapply SUB; [reflexivity|exact Hx].
    + eapply SUB; [reflexivity|exact Hx].
  - rewrite bonds_tabs in Hx. apply in_numbered in Hx. destruct Hx as (i & e & He & Hx).
    rewrite starts_tabs by (intros; apply HP; assumption). destruct Hx as [<-|Hx]; [left; reflexivity|].
    right. apply in_flat_map. exists e. split; [exact He|]. eapply IH; eauto.
Qed.

Lemma elems_counted : forall c q k w cnt, cnt q = 0 -> counted cnt (elem_bonds n c q k w).
Proof.
  intros c q k w cnt H. unfold elem_bonds. revert cnt H. generalize (positions q w (Z.to_nat k)) as l. generalize 0 as i.
  intros i l. revert i. induction l as [|x l IH]; intros i cnt H; [exact I|]. cbn [number map counted fst snd w_rank w_owner].
  split; [symmetry; exact H|]. apply IH. cbn beta. rewrite Z.eqb_refl, H. lia.
Qed.

Definition disj (a b : list Z) : Prop := forall x, In x a -> In x b -> False.

Lemma nodup_app : forall (a b : list Z), NoDup (a ++ b) -> NoDup a /\ NoDup b /\ disj a b.
Proof.
  induction a as [|x a IH]; intros b H; cbn [app] in H.
  - split; [constructor|]. split; [exact H|]. intros y [].
  - inversion H as [|? ? H1 H2]; subst. destruct (IH b H2) as (A & B & C). split; [|split; [exact B|]].
    + constructor; [|exact A]. intro. apply H1. apply in_or_app. left. assumption.
    + intros y [<-|Hy] Hb; [apply H1; apply in_or_app; right; exact Hb|exact (C y Hy Hb)].
Qed.

Definition fstarts (f : val) : list Z := if is_absent f then [] else starts f.

Lemma field_owner : forall tc c p i r f, spread f -> forall w, In w (field_bonds n m tc c p i r f) ->
  w_owner w = p \/ In (w_owner w) (fstarts f).
Proof.
  intros tc c p i r f HS w Hx. unfold field_bonds in Hx. unfold fstarts.
  destruct f as [t|q z|q ms|q k z|q k ms|tn q gs|tn q gs]; try (destruct Hx; fail);
      [destruct t; try (destruct Hx; fail); destruct Hx as [<-|[]]; left; reflexivity|..];
      (destruct Hx as [<-|Hx]; [left; reflexivity|]); cbn [is_absent].
  - destruct Hx.
  - right. destruct (z =? 1); [destruct Hx|]. apply elem_owner in Hx. rewrite Hx. left. reflexivity.
  - right. eapply bonds_owner; eauto.
  - right. eapply bonds_owner; eauto.
Qed.

Lemma field_first : forall tc c p i r f, spread f -> ~ In p (fstarts f) ->
  owned p (field_bonds n m tc c p i r f) = if gap f then 0 else 1.
Proof.
  intros tc c p i r f HS HN. unfold field_bonds, fstarts in *.
  destruct f as [t|q w|q ms|q k w|q k ms|tn q gs|tn q gs]; try (exfalso; inversion HS; fail); cbn [is_absent gap] in *;
    [destruct t; cbn [owned w_owner]; rewrite ?Z.eqb_refl; reflexivity|..]; cbn [owned w_owner]; rewrite ?Z.eqb_refl.
  - reflexivity.
  - rewrite owned_none; [reflexivity|]. destruct (w =? 1); [intros ? []|]. intros x Hx E. apply elem_owner in Hx.
    apply HN. left. cbn [val_pos]. lia.
  - rewrite owned_none; [reflexivity|]. intros x Hx E. apply HN. rewrite <- E. eapply bonds_owner; eauto.
  - rewrite owned_none; [reflexivity|]. intros x Hx E. apply HN. rewrite <- E. eapply bonds_owner; eauto.
Qed.

Lemma bonds_counted : forall v, spread v -> NoDup (starts v) -> forall tc c cnt,
  (forall o, In o (starts v) -> cnt o = 0) -> counted cnt (bonds n m tc c v).
Proof.
  intros v H. induction H as [t|p w|p k w P|name p fs P HP HS IH|name q es P HP HS IH]; intros ND tc c cnt HC; try exact I.
  - rewrite bonds_tab. rewrite starts_tab in ND, HC by auto. clear P.
    assert (HP0 : cnt p = 0) by (apply HC; left; reflexivity).
    assert (HC' : forall o, In o (flat_map fstarts fs) -> cnt o = 0) by (intros o Ho; apply HC; right; exact Ho). clear HC.
    change (flat_map (fun f : val => if is_absent f then [] else starts f) fs) with (flat_map fstarts fs) in ND.
    apply NoDup_cons_iff in ND. destruct ND as [N1 N2].
    enough (G : forall i r cnt, (forall o, In o (flat_map fstarts fs) -> cnt o = 0) -> cnt p = r ->
      counted cnt (List.concat (ranked (field_bonds n m tc c p) i r fs))) by (apply G; assumption).
    clear cnt HC' HP0 HP. intros i r cnt HC HR. revert i r cnt HC HR.
    induction fs as [|f fs IHf]; intros i r cnt HC HR; [exact I|]. cbn [ranked List.concat].
    cbn [flat_map] in N1, N2, HC. apply nodup_app in N2. destruct N2 as (N2 & N3 & N4).
    assert (NF : ~ In p (fstarts f)) by (intro; apply N1; apply in_or_app; left; assumption).
    pose proof (HS f (or_introl eq_refl)) as HSf. apply counted_app.
    + specialize (IH f (or_introl eq_refl)). unfold field_bonds, fstarts in *.
      assert (SUB : forall tc c, is_absent f = false -> counted (fun o => cnt o + (if p =? o then 1 else 0)) (bonds n m tc c f)).
      { intros tc' c' E. rewrite E in *. apply IH; [exact N2|]. intros o Ho. rewrite HC by (apply in_or_app; left; exact Ho).
        destruct (Z.eqb_spec p o); [|reflexivity]. exfalso. apply NF. subst o. exact Ho. }
      destruct f as [t|q w|q ms|q k w|q k ms|tn q gs|tn q gs]; try exact I; cbn [is_absent] in *;
        [destruct t; try exact I; cbn [counted w_rank w_owner]; split; [lia|exact I]|..];
        cbn [counted w_rank w_owner]; (split; [lia|]); try exact I; try (apply SUB; reflexivity).
      destruct (w =? 1); [exact I|]. apply elems_counted. rewrite HC by (left; reflexivity).
      destruct (Z.eqb_spec p q); [|reflexivity]. exfalso. apply NF. left. cbn [val_pos]. lia.
    + apply IHf.
      * intros x Hx. apply HS. right. exact Hx.
      * intros x Hx. apply IH. right. exact Hx.
      * intro. apply N1. apply in_or_app. right. assumption.
      * exact N3.
      * intros o Ho. rewrite HC by (apply in_or_app; right; exact Ho). rewrite owned_none; [reflexivity|].
        intros x Hx E. apply field_owner in Hx; [|exact HSf]. destruct Hx as [Hx|Hx].
        -- apply N1. rewrite <- Hx, E. apply in_or_app. right. exact Ho.
        -- rewrite E in Hx. exact (N4 o Hx Ho).
      * rewrite field_first by auto. destruct (gap f); lia.
  - rewrite bonds_tabs. rewrite starts_tabs in ND, HC by (intros; apply HP; assumption). clear P.
    assert (HP0 : cnt q = 0) by (apply HC; left; reflexivity).
    assert (HC' : forall o, In o (flat_map starts es) -> cnt o = 0) by (intros o Ho; apply HC; right; exact Ho). clear HC.
    apply NoDup_cons_iff in ND. destruct ND as [N1 N2]. unfold numbered.
    enough (G : forall i cnt, (forall o, In o (flat_map starts es) -> cnt o = 0) -> cnt q = i ->
      counted cnt (List.concat (map (fun ix => elem_bond n m tc c name q (fst ix) (snd ix)) (number i es)))) by (apply G; assumption).
    clear cnt HC' HP0 HP. intros i cnt HC HR. revert i cnt HC HR.
    induction es as [|e es IHf]; intros i cnt HC HR; [exact I|]. cbn [number map List.concat fst snd].
    cbn [flat_map] in N1, N2, HC. apply nodup_app in N2. destruct N2 as (N2 & N3 & N4).
    assert (NF : ~ In q (starts e)) by (intro; apply N1; apply in_or_app; left; assumption).
    pose proof (HS e (or_introl eq_refl)) as HSf. apply counted_app.
    + unfold elem_bond. cbn [counted w_rank w_owner]. split; [lia|]. apply IH; [left; reflexivity|exact N2|].
      intros o Ho. rewrite HC by (apply in_or_app; left; exact Ho).
      destruct (Z.eqb_spec q o); [|reflexivity]. exfalso. apply NF. subst o. exact Ho.
    + apply IHf.
      * intros x Hx. apply HS. right. exact Hx.
      * intros x Hx. apply IH. right. exact Hx.
      * intro. apply N1. apply in_or_app. right. assumption.
      * exact N3.
      * intros o Ho. rewrite HC by (apply in_or_app; right; exact Ho). rewrite owned_none; [reflexivity|].
        intros x [<-|Hx] E; [cbn [w_owner] in E; apply N1; rewrite E; apply in_or_app; right; exact Ho|].
        apply bonds_owner in Hx; [|exact HSf]. rewrite E in Hx. exact (N4 o Hx Ho).
      * unfold elem_bond. cbn [owned w_owner]. rewrite Z.eqb_refl, owned_none; [lia|].
        intros x Hx E. apply NF. rewrite <- E. eapply bonds_owner; eauto.
Qed.

End Ranks.
