(** Lemmas about dump histories. *)
From Coq Require Import ZArith List Bool Lia.
From Verif Require Import GoLib GoLemmas ConcModel ConcSpec.
Import ListNotations.
Open Scope Z_scope.

Section Histories.
Context {E T : Type}.
Variable render : option E -> E -> T.

Fixpoint zfrom (a : Z) (n : nat) : list Z :=
  match n with O => [] | S n' => a :: zfrom (a + 1) n' end.

Lemma zfrom_snoc a n : zfrom a (S n) = zfrom a n ++ [a + Z.of_nat n].
Proof.
  revert a. induction n as [|n IH]; intros a.
  - cbn. f_equal. lia.
  - change (zfrom a (S (S n))) with (a :: zfrom (a + 1) (S n)).
    change (zfrom a (S n)) with (a :: zfrom (a + 1) n).
    rewrite IH. cbn [app]. replace (a + 1 + Z.of_nat n) with (a + Z.of_nat (S n)) by lia. reflexivity.
Qed.

Lemma zlen_zfrom a n : zlen (zfrom a n) = Z.of_nat n.
Proof.
  revert a. induction n as [|n IH]; intros a; cbn [zfrom]; [reflexivity|].
  rewrite zlen_cons, IH. lia.
Qed.

Lemma texts_app prev (es fs : list E) :
  texts render prev (es ++ fs) =
  texts render prev es ++
  texts render (match rev es with [] => prev | e :: _ => Some e end) fs.
Proof.
  revert prev. induction es as [|e es IH]; intros prev; [reflexivity|].
  cbn [app texts rev]. rewrite IH. f_equal. f_equal.
  destruct (rev es) as [|x r] eqn:R; reflexivity.
Qed.

Lemma string_by_next (d1 d2 : list E) (k : nat) :
  (k < length d1)%nat ->
  exists x, string_by render d1 (Z.of_nat k) = Ok x /\
    texts render None (firstn (S k) (d1 ++ d2)) = texts render None (firstn k (d1 ++ d2)) ++ [x].
Proof.
  intros K.
  destruct (nth_error d1 k) as [e|] eqn:N; [|apply nth_error_None in N; lia].
  assert (F : firstn (S k) (d1 ++ d2) = firstn k (d1 ++ d2) ++ [e]).
  { clear - N. revert d1 N. induction k as [|k IH]; intros [|y d1] N; cbn in N; try discriminate.
    - injection N as ->. reflexivity.
    - cbn [app firstn]. f_equal. apply IH, N. }
  rewrite F, texts_app. unfold string_by. rewrite zget_nth_error, N.
  destruct k as [|k].
  - cbn. eexists. split; reflexivity.
  - destruct (Z.eqb_spec (Z.of_nat (S k)) 0) as [|_]; [lia|].
    replace (Z.of_nat (S k) - 1) with (Z.of_nat k) by lia. rewrite zget_nth_error.
    destruct (nth_error d1 k) as [p|] eqn:P; [|apply nth_error_None in P; lia].
    eexists. split; [reflexivity|]. f_equal. cbn [texts].
    assert (R : exists r, rev (firstn (S k) (d1 ++ d2)) = p :: r).
    { assert (G : firstn (S k) (d1 ++ d2) = firstn k (d1 ++ d2) ++ [p]).
      { clear - P. revert d1 P. induction k as [|k IH]; intros [|y d1] P; cbn in P; try discriminate.
        - injection P as ->. reflexivity.
        - cbn [app firstn]. f_equal. apply IH, P. }
      rewrite G, rev_app_distr. cbn. eauto. }
    destruct R as [r ->]. reflexivity.
Qed.

Variables (pre post : list E).
Let all := pre ++ post.
Let outs k := texts render None (firstn k all).

Definition pending (p : hphase) : list Z := match p with HSend i => [i] | _ => [] end.
Definition sending (p : hphase) : Prop := match p with HIdle | HSend _ => True | _ => False end.

(** The one streaming goroutine, with what it holds. *)
Definition one (w : nat) (kb : list Z) : Prop := (w = 1 /\ kb = [])%nat \/ (w = 0%nat /\ exists i, kb = [i] /\ i <> -1).

Inductive hinv : hst E T -> Prop :=
| inv0 d1 d2 p b :
    pre = d1 ++ d2 -> sending p -> b ++ pending p = zfrom 0 (length d1) ->
    hinv (mkH (map HDump d2 ++ HStream :: map HDump post ++ [HFinish]) p d1 b false O [] [])
| inv1 d1 d2 p k w kb b :
    all = d1 ++ d2 -> (k <= length d1)%nat -> one w kb -> sending p ->
    kb ++ b ++ pending p = zfrom (Z.of_nat k) (length d1 - k) ->
    hinv (mkH (map HDump d2 ++ [HFinish]) p d1 b false w kb (outs k))
| inv2 k w kb b p :
    (k <= length all)%nat -> one w kb -> p = HSend (-1) \/ p = HWait ->
    kb ++ b ++ pending p = zfrom (Z.of_nat k) (length all - k) ++ [-1] ->
    hinv (mkH [] p all b false w kb (outs k))
| inv3 : hinv (mkH [] HWait all [] false O [] (outs (length all)))
| inv4 p : p = HDone \/ p = HIdle -> hinv (mkH [] p all [] true O [] (outs (length all))).

Lemma hinv_start : hinv (hist_start (session pre post)).
Proof.
  apply (inv0 [] pre HIdle []); try reflexivity.
Qed.

Lemma zfrom_neg a n b m : 0 <= a -> zfrom a n = b ++ m -> ~ In (-1) b.
Proof.
  intros A Z I. assert (J : In (-1) (zfrom a n)) by (rewrite Z; apply in_or_app; auto).
  clear - A J. revert a A J. induction n as [|n IH]; intros a A J; [exact J|].
  destruct J as [J|J]; [lia|]. apply (IH (a + 1)); [lia|exact J].
Qed.

Lemma zfrom_cons a n x l : zfrom a n = x :: l -> exists m, n = S m /\ x = a /\ l = zfrom (a + 1) m.
Proof. destruct n as [|m]; cbn; [discriminate|]. intros [= <- <-]. eauto. Qed.

Ltac hinj := cbn [hs_ops hs_phase hs_logs hs_buf hs_closed hs_wait hs_busy hs_out] in *.

Lemma map_dump_cons (d : list E) (o : hop E) ops rest :
  map HDump d ++ o :: rest = ops ->
  (d = [] /\ ops = o :: rest) \/ exists e d', d = e :: d' /\ ops = HDump e :: map HDump d' ++ o :: rest.
Proof. intros <-. destruct d as [|e d']; [left; auto|right; eauto]. Qed.

Lemma zfrom_pending p n b :
  sending p -> b ++ pending p = zfrom 0 n -> p = HSend (-1) -> False.
Proof.
  intros S Z ->. cbn [pending] in Z.
  apply (zfrom_neg 0 n (b ++ [-1]) []); [lia|rewrite app_nil_r; auto|].
  apply in_or_app. right. left. reflexivity.
Qed.

Lemma hinv_step cap s o : hinv s -> hstep render cap s o -> exists s', o = Some s' /\ hinv s'.
Proof.
  intros I S.
  destruct I as [d1 d2 p b D P B|d1 d2 p k w kb b D K O P B|k w kb b p K O P B| |p P].
  - (* before streaming *)
    inversion S; subst; clear S; try discriminate; try contradiction P;
      try (match goal with H : _ ++ _ :: _ = [] |- _ => destruct (app_cons_not_nil _ _ _ (eq_sym H)) end).
    + (* dump *)
      destruct d2 as [|e' d2]; cbn [map app] in *; [discriminate|].
      match goal with H : _ :: _ = _ :: _ |- _ => injection H as -> -> end.
      eexists. split; [reflexivity|]. apply inv0; [rewrite D, <- app_assoc; reflexivity|exact Logic.I|].
      cbn [pending] in *. rewrite app_nil_r in B. rewrite app_length, B. cbn [length].
      rewrite Nat.add_1_r, zfrom_snoc, Z.add_0_l. reflexivity.
    + (* send *)
      eexists. split; [reflexivity|].
      destruct (Z.eqb_spec i (-1)) as [->|_]; [exfalso; eapply zfrom_pending; eauto|].
      apply inv0; [exact D|exact Logic.I|]. cbn [pending] in *. rewrite app_nil_r. exact B.
    + (* stream *)
      destruct d2 as [|e' d2]; cbn [map app] in *; [|discriminate].
      match goal with H : _ :: _ = _ :: _ |- _ => injection H as -> end.
      rewrite app_nil_r in D. subst d1.
      eexists. split; [reflexivity|].
      apply (inv1 pre post HIdle 0%nat 1%nat [] b); auto; [lia|left; auto|].
      cbn [pending app] in *. rewrite Nat.sub_0_r. exact B.
    + (* finish *)
      destruct d2 as [|e' d2]; cbn [map app] in *; discriminate.
  - (* streaming *)
    inversion S; subst; clear S; try discriminate; try contradiction P.
    + (* dump *)
      destruct d2 as [|e' d2]; cbn [map app] in *; [discriminate|].
      match goal with H : _ :: _ = _ :: _ |- _ => injection H as -> -> end.
      eexists. split; [reflexivity|].
      apply (inv1 (d1 ++ [e']) d2); auto.
      * rewrite D, <- app_assoc. reflexivity.
      * rewrite app_length. lia.
      * cbn [pending] in *. rewrite app_nil_r in B. rewrite app_assoc, B, app_length. cbn [length].
        replace (length d1 + 1 - k)%nat with (S (length d1 - k)) by lia.
        rewrite zfrom_snoc. do 2 f_equal. unfold zlen. lia.
    + (* send *)
      eexists. split; [reflexivity|].
      destruct (Z.eqb_spec i (-1)) as [->|_].
      { exfalso. apply (zfrom_neg (Z.of_nat k) (length d1 - k) (kb ++ b ++ [-1]) []);
          [lia|rewrite app_nil_r; auto|].
        apply in_or_app; right; apply in_or_app; right; left; reflexivity. }
      apply (inv1 d1 d2); auto. cbn [pending] in *. rewrite app_nil_r. exact B.
    + (* stream *)
      destruct d2 as [|e' d2]; cbn [map app] in *; discriminate.
    + (* finish *)
      destruct d2 as [|e' d2]; cbn [map app] in *; [|discriminate].
      match goal with H : _ :: _ = _ :: _ |- _ => injection H as -> end.
      rewrite app_nil_r in D. subst d1.
      eexists. split; [reflexivity|].
      apply (inv2 k w kb b); auto. cbn [pending] in *. rewrite app_nil_r in B.
      rewrite app_assoc, B. reflexivity.
    + (* receive *)
      eexists. split; [reflexivity|].
      assert (kb = []) as -> by (destruct O as [[_ ->]|[? _]]; [reflexivity|discriminate]).
      apply (inv1 d1 d2); auto. right. split; [destruct O as [[O _]|[O _]]; lia|eauto].
    + (* stop *)
      exfalso. assert (kb = []) as -> by (destruct O as [[_ ->]|[? _]]; [reflexivity|discriminate]).
      apply (zfrom_neg (Z.of_nat k) (length d1 - k) [-1] (b0 ++ pending p));
        [lia|symmetry; exact B|left; reflexivity].
    + (* write *)
      assert (k1 = [] /\ k2 = [] /\ w = 0%nat) as (-> & -> & ->).
      { destruct O as [[_ O]|[? [j [O NO]]]]; [destruct k1; discriminate|].
        destruct k1 as [|? [|? ?]]; cbn in O; try discriminate; injection O as ? ?; subst; auto. }
      cbn [app] in *. symmetry in B. destruct (zfrom_cons _ _ _ _ B) as (m & M & -> & L).
      eexists. split; [reflexivity|].
      destruct (string_by_next d1 d2 k) as (x & X & OX); [lia|].
      match goal with H : string_by _ _ _ = Ok out |- _ => rewrite X in H; injection H as <- end.
      fold all in D. unfold outs at 1. rewrite D, <- OX, <- D. fold (outs (S k)).
      apply (inv1 d1 d2); auto; [lia|left; auto|].
      cbn [app]. rewrite L. replace (length d1 - S k)%nat with m by lia. f_equal. lia.
    + (* write, panic *)
      exfalso.
      assert (k1 = [] /\ k2 = [] /\ w = 0%nat) as (-> & -> & ->).
      { destruct O as [[_ O]|[? [j [O NO]]]]; [destruct k1; discriminate|].
        destruct k1 as [|? [|? ?]]; cbn in O; try discriminate; injection O as ? ?; subst; auto. }
      cbn [app] in *. symmetry in B. destruct (zfrom_cons _ _ _ _ B) as (m & M & -> & L).
      destruct (string_by_next d1 d2 k) as (x & X & OX); [lia|]. congruence.
  - (* finishing *)
    inversion S; subst; clear S; try discriminate; try (destruct P; discriminate).
    + (* send *)
      destruct P as [[= ->]|]; [|discriminate].
      eexists. split; [reflexivity|]. cbn [Z.eqb]. apply inv2; auto.
      cbn [pending] in *. rewrite app_nil_r. exact B.
    + (* wait *)
      destruct O as [[? _]|[_ [? [? ?]]]]; discriminate.
    + (* receive *)
      eexists. split; [reflexivity|].
      assert (kb = []) as -> by (destruct O as [[_ ->]|[? _]]; [reflexivity|discriminate]).
      apply inv2; auto. right. split; [destruct O as [[O _]|[O _]]; lia|eauto].
    + (* stop *)
      assert (kb = []) as -> by (destruct O as [[_ ->]|[? _]]; [reflexivity|discriminate]).
      assert (w0 = 0%nat) as -> by (destruct O as [[O _]|[O _]]; lia).
      eexists. split; [reflexivity|]. cbn [app] in B. symmetry in B.
      assert (Z0 : (length all - k)%nat = 0%nat).
      { destruct (length all - k)%nat; [reflexivity|]. cbn [zfrom app] in B. injection B as B _. lia. }
      rewrite Z0 in B. cbn [zfrom app] in B. injection B as B. symmetry in B.
      apply app_eq_nil in B. destruct B as [-> B].
      assert (k = length all) as -> by lia.
      destruct P as [->| ->]; [discriminate|]. apply inv3.
    + (* write *)
      assert (k1 = [] /\ k2 = [] /\ w = 0%nat) as (-> & -> & ->).
      { destruct O as [[_ O]|[? [j [O NO]]]]; [destruct k1; discriminate|].
        destruct k1 as [|? [|? ?]]; cbn in O; try discriminate; injection O as ? ?; subst; auto. }
      cbn [app] in *.
      destruct (length all - k)%nat as [|m] eqn:M.
      * cbn [zfrom app] in B. injection B as -> B. cbn in *. discriminate.
      * cbn [zfrom app] in B. injection B as -> L.
        eexists. split; [reflexivity|].
        destruct (string_by_next all [] k) as (x & X & OX); [lia|]. rewrite app_nil_r in OX.
        match goal with H : string_by _ _ _ = Ok out |- _ => rewrite X in H; injection H as <- end.
        unfold outs at 1. rewrite <- OX. fold (outs (S k)).
        apply inv2; auto; [lia|left; auto|].
        cbn [app]. rewrite L. replace (length all - S k)%nat with m by lia.
        replace (Z.of_nat (S k)) with (Z.of_nat k + 1) by lia. reflexivity.
    + (* write, panic *)
      exfalso.
      assert (k1 = [] /\ k2 = [] /\ w = 0%nat) as (-> & -> & ->).
      { destruct O as [[_ O]|[? [j [O NO]]]]; [destruct k1; discriminate|].
        destruct k1 as [|? [|? ?]]; cbn in O; try discriminate; injection O as ? ?; subst; auto. }
      cbn [app] in *.
      destruct (length all - k)%nat as [|m] eqn:M.
      * cbn [zfrom app] in B. injection B as -> B.
        destruct O as [[_ O]|[_ [j [O NO]]]]; [discriminate|]. injection O as <-. contradiction.
      * cbn [zfrom app] in B. injection B as -> L.
        destruct (string_by_next all [] k) as (x & X & OX); [lia|]. congruence.
  - (* stopped *)
    inversion S; subst; clear S; try discriminate;
      try (match goal with H : _ ++ _ :: _ = [] |- _ => destruct (app_cons_not_nil _ _ _ (eq_sym H)) end).
    eexists. split; [reflexivity|]. apply inv4. auto.
  - (* finished *)
    inversion S; subst; clear S; try discriminate; try (destruct P; discriminate);
      try (match goal with H : _ ++ _ :: _ = [] |- _ => destruct (app_cons_not_nil _ _ _ (eq_sym H)) end).
    eexists. split; [reflexivity|]. apply inv4. auto.
Qed.

Lemma hinv_runs cap n s s' : hruns render cap n s s' -> hinv s -> hinv s'.
Proof.
  induction 1 as [|n s s1 s2 S R IH]; intros I; [exact I|]. apply IH.
  destruct (hinv_step cap _ _ I S) as (s'' & [= <-] & I'). exact I'.
Qed.

Lemma hist_no_panic cap n s :
  hruns render cap n (hist_start (session pre post)) s -> ~ hstep render cap s None.
Proof.
  intros R S. destruct (hinv_step cap s None (hinv_runs _ _ _ _ R hinv_start) S) as (s' & ? & _).
  discriminate.
Qed.

Lemma outs_prefix k : prefix_of (outs k) (texts render None all).
Proof.
  unfold outs. rewrite <- (firstn_skipn k all) at 2. rewrite texts_app. eexists. reflexivity.
Qed.

Lemma outs_all : outs (length all) = texts render None all.
Proof. unfold outs. rewrite firstn_all. reflexivity. Qed.

Lemma hist_prefix cap n s :
  hruns render cap n (hist_start (session pre post)) s ->
  prefix_of (hs_out s) (texts render None (pre ++ post)).
Proof.
  intros R. destruct (hinv_runs _ _ _ _ R hinv_start); hinj; try apply outs_prefix.
  eexists. reflexivity.
Qed.

Lemma hinv_progress cap s :
  0 < cap -> zlen pre <= cap -> hinv s -> finished s \/ exists s', hstep render cap s (Some s').
Proof.
  intros C L I.
  destruct I as [d1 d2 p b D P B|d1 d2 p k w kb b D K O P B|k w kb b p K O P B| |p P].
  - right. destruct p; try contradiction P.
    + destruct d2 as [|e d2]; cbn [map app].
      * eexists. apply h_stream.
      * eexists. apply h_dump.
    + eexists. apply h_send. cbn [pending] in B.
      apply (f_equal zlen) in B. rewrite zlen_app, zlen_zfrom in B.
      rewrite D, zlen_app in L. pose proof (zlen_nonneg d2).
      change (zlen [i]) with 1 in B. unfold zlen in *. lia.
  - right. destruct O as [[-> ->]|[-> [i [-> NI]]]].
    + destruct b as [|i b].
      * destruct p; try contradiction P.
        -- destruct d2 as [|e d2]; cbn [map app]; [eexists; apply h_finish|eexists; apply h_dump].
        -- eexists. apply h_send. exact C.
      * eexists. apply h_recv. intros ->. cbn [app] in B.
        eapply (zfrom_neg (Z.of_nat k) (length d1 - k) [-1]); [lia|symmetry; exact B|left; reflexivity].
    + cbn [app] in B. symmetry in B. destruct (zfrom_cons _ _ _ _ B) as (m & M & -> & _).
      destruct (string_by_next d1 d2 k) as (x & X & _); [lia|].
      eexists. apply (h_write render cap _ _ _ _ _ _ [] _ []). exact X.
  - right. destruct O as [[-> ->]|[-> [i [-> NI]]]].
    + destruct b as [|i b].
      * destruct P as [->| ->]; [eexists; apply h_send; exact C|].
        cbn [pending app] in B. destruct (zfrom _ _); discriminate.
      * destruct (Z.eq_dec i (-1)) as [->|N]; [eexists; apply h_stop|eexists; apply h_recv, N].
    + cbn [app] in B.
      destruct (length all - k)%nat as [|m] eqn:M; cbn [zfrom app] in B; injection B as -> B;
        [contradiction NI; reflexivity|].
      destruct (string_by_next all [] k) as (x & X & _); [lia|].
      eexists. apply (h_write render cap _ _ _ _ _ _ [] _ []). exact X.
  - right. eexists. apply h_wait.
  - destruct P as [->| ->]; [right; eexists; apply h_again|].
    left. repeat split.
Qed.

Lemma hist_complete cap n s :
  0 < cap -> zlen pre <= cap ->
  hruns render cap n (hist_start (session pre post)) s ->
  (forall s', ~ hstep render cap s (Some s')) ->
  finished s /\ hs_out s = texts render None (pre ++ post).
Proof.
  intros C L R N. pose proof (hinv_runs _ _ _ _ R hinv_start) as I.
  destruct (hinv_progress cap s C L I) as [F|[s' S]]; [|destruct (N s' S)].
  split; [exact F|]. destruct F as (F1 & F2 & F3).
  destruct I; hinj; subst; try discriminate.
  exact outs_all.
Qed.

(** If more entries are dumped before streaming starts than the channel holds,
    the program can block. *)
Lemma hist_fill cap d1 : zlen d1 <= cap -> forall d0 b ops,
  zlen b + zlen d1 <= cap ->
  exists n b', zlen b' = zlen b + zlen d1 /\
    hruns render cap n (mkH (map HDump d1 ++ ops) HIdle d0 b false O [] [])
                       (mkH ops HIdle (d0 ++ d1) b' false O [] []).
Proof.
  induction d1 as [|e d1 IH]; intros L d0 b ops B.
  - exists O, b. rewrite zlen_nil, app_nil_r. split; [lia|apply hr_refl].
  - rewrite zlen_cons in *. pose proof (zlen_nonneg d1).
    destruct (IH ltac:(lia) (d0 ++ [e]) (b ++ [zlen d0]) ops) as (n & b' & Z' & R).
    { rewrite zlen_app. change (zlen [zlen d0]) with 1. lia. }
    exists (S (S n)), b'. split; [rewrite Z', zlen_app; change (zlen [zlen d0]) with 1; lia|].
    cbn [map app]. eapply hr_step; [apply h_dump|].
    eapply hr_step; [apply h_send; lia|].
    destruct (Z.eqb_spec (zlen d0) (-1)) as [Q|_]; [pose proof (zlen_nonneg d0); lia|].
    rewrite <- app_assoc in R. exact R.
Qed.

Lemma hist_blocks cap :
  0 <= cap -> cap < zlen pre ->
  exists n s, hruns render cap n (hist_start (session pre post)) s /\
    (forall o, ~ hstep render cap s o) /\ hs_out s = [].
Proof.
  intros C L. set (c := Z.to_nat cap).
  destruct (skipn c pre) as [|e d2] eqn:K.
  { apply (f_equal (@length E)) in K. rewrite skipn_length in K. cbn in K. unfold zlen in L. lia. }
  assert (D : pre = firstn c pre ++ e :: d2) by (rewrite <- K; symmetry; apply firstn_skipn).
  assert (Z1 : zlen (firstn c pre) = cap).
  { unfold zlen in *. rewrite firstn_length. lia. }
  set (d1 := firstn c pre) in *. clearbody d1. clear K. clearbody c.
  destruct (hist_fill cap d1 ltac:(lia) [] [] (HDump e :: map HDump d2 ++ HStream :: map HDump post ++ [HFinish]))
    as (n & b & B & R); [rewrite zlen_nil; lia|].
  exists (n + 1)%nat. eexists. split; [|split].
  - assert (G : forall n s0 s1 s2, hruns render cap n s0 s1 -> hstep render cap s1 (Some s2) ->
                hruns render cap (n + 1) s0 s2).
    { clear. induction 1 as [|n s s1 s3 S R IH]; intros T2; cbn [Nat.add];
        [eapply hr_step; [exact T2|apply hr_refl]|eapply hr_step; [exact S|apply IH, T2]]. }
    eapply G; [|apply h_dump].
    unfold hist_start, session. rewrite D, map_app, <- app_assoc. exact R.
  - intros o S. rewrite zlen_nil in B. inversion S; subst; try lia;
      match goal with H : _ ++ _ :: _ = [] |- _ => destruct (app_cons_not_nil _ _ _ (eq_sym H)) end.
  - reflexivity.
Qed.

End Histories.

(** A bound on the length of all schedules of any script. *)
Section Bound.
Context {E T : Type}.
Variable render : option E -> E -> T.

Definition hmeasure (s : hst E T) : nat :=
  (10 * length (hs_ops s) +
   match hs_phase s with HIdle => 0 | HSend _ => 8 | HWait => 3 | HDone => 1 end +
   4 * length (hs_buf s) + 2 * length (hs_busy s) + hs_wait s)%nat.

Lemma hmeasure_step cap s s' : hstep render cap s (Some s') -> (hmeasure s' < hmeasure s)%nat.
Proof.
  intros S. inversion S; subst; unfold hmeasure;
    cbn [hs_ops hs_phase hs_logs hs_buf hs_closed hs_wait hs_busy hs_out length];
    rewrite ?app_length; cbn [length]; try lia.
  destruct (i =? -1); lia.
Qed.

Lemma hist_bounded cap n ops s :
  hruns render cap n (hist_start ops) s -> (n <= 10 * length ops)%nat.
Proof.
  assert (G : forall m s0 s1, hruns render cap m s0 s1 -> (m + hmeasure s1 <= hmeasure s0)%nat).
  { intros m s0 s1 R. induction R as [|m s0 s1 s2 S R IH]; [lia|].
    pose proof (hmeasure_step cap _ _ S). lia. }
  intros R. specialize (G _ _ _ R). unfold hmeasure at 2 in G. cbn in G. lia.
Qed.
End Bound.
