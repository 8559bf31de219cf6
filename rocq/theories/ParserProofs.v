(** The recognizer computes the standard meaning of its grammar, and it
    terminates. *)
From Coq Require Import List Bool String Ascii Arith Lia.
From Verif Require Import GoLib ParserModel ParserSpec.
Import ListNotations.
Open Scope string_scope.
Open Scope list_scope.

(** ** Strings *)

Lemma sapp_assoc (a b c : string) : ((a ++ b) ++ c = a ++ (b ++ c))%string.
Proof. induction a; cbn [append]; congruence. Qed.

Lemma sapp_nil (a : string) : (a ++ "" = a)%string.
Proof. induction a; cbn [append]; congruence. Qed.

Lemma slen_app (a b : string) :
  String.length (a ++ b)%string = String.length a + String.length b.
Proof. induction a; cbn [append String.length]; lia. Qed.

Lemma substring_app (a b : string) : substring 0 (String.length a) (a ++ b)%string = a.
Proof.
  induction a; cbn [append String.length substring].
  - destruct b; reflexivity.
  - f_equal; exact IHa.
Qed.

Lemma consumed_app (a b : string) : consumed (a ++ b)%string b = a.
Proof.
  unfold consumed. rewrite slen_app.
  replace (String.length a + String.length b - String.length b) with (String.length a) by lia.
  apply substring_app.
Qed.

(** ** The token array *)

Lemma strip_app a b : strip (a ++ b) = strip a ++ strip b.
Proof. apply filter_app. Qed.

Lemma firstn_firstn_le {A} (l : list A) i j : i <= j -> firstn i (firstn j l) = firstn i l.
Proof. intros H. rewrite firstn_firstn. f_equal. lia. Qed.

Lemma add_tok_len t s :
  p_idx s <= List.length (p_tree s) ->
  p_idx (add_tok t s) <= List.length (p_tree (add_tok t s)).
Proof.
  intros H. unfold add_tok; cbn [p_idx p_tree].
  rewrite app_length. cbn [List.length]. rewrite firstn_length. lia.
Qed.

Lemma add_tok_keep t s i :
  i <= p_idx s -> p_idx s <= List.length (p_tree s) ->
  firstn i (p_tree (add_tok t s)) = firstn i (p_tree s).
Proof.
  intros H1 H2. unfold add_tok; cbn [p_tree].
  rewrite firstn_app, firstn_length.
  replace (i - Nat.min (p_idx s) (List.length (p_tree s))) with 0 by lia.
  cbn [firstn]. rewrite app_nil_r. apply firstn_firstn_le; lia.
Qed.

Lemma add_tok_upto t s :
  p_idx s <= List.length (p_tree s) ->
  firstn (p_idx (add_tok t s)) (p_tree (add_tok t s)) = firstn (p_idx s) (p_tree s) ++ [t].
Proof.
  intros H. unfold add_tok; cbn [p_tree p_idx].
  rewrite firstn_app, firstn_length.
  replace (S (p_idx s) - Nat.min (p_idx s) (List.length (p_tree s))) with 1 by lia.
  change (firstn 1 (t :: skipn (S (p_idx s)) (p_tree s))) with [t].
  f_equal. rewrite firstn_firstn. f_equal. lia.
Qed.

(** ** Matching consumes a prefix *)

Lemma peg_suffix e s o :
  peg e s o -> forall ts s', o = Some (ts, s') -> exists w, s = (w ++ s')%string.
Proof.
  induction 1; intros ts0 s0' E; inversion E; subst; try clear E.
  all: try (exists ""; reflexivity).
  - exists (String c ""); reflexivity.
  - exists (String c ""); reflexivity.
  - exists (String c ""); reflexivity.
  - destruct (IHpeg1 _ _ eq_refl) as [w1 ->], (IHpeg2 _ _ eq_refl) as [w2 ->].
    exists (w1 ++ w2)%string. symmetry; apply sapp_assoc.
  - eapply IHpeg; reflexivity.
  - eapply IHpeg2; reflexivity.
  - destruct (IHpeg1 _ _ eq_refl) as [w1 ->], (IHpeg2 _ _ eq_refl) as [w2 ->].
    exists (w1 ++ w2)%string. symmetry; apply sapp_assoc.
  - exists w; reflexivity.
  - eapply IHpeg; reflexivity.
Qed.

Lemma peg_text' e s s' ts :
  peg e s (Some (ts, s')) -> peg (PText e) s (Some (ts ++ [KText (consumed s s')], s')).
Proof.
  intros H. destruct (peg_suffix _ _ _ H _ _ eq_refl) as [w ->].
  rewrite consumed_app. apply peg_text. exact H.
Qed.

(** ** The meaning is a function *)

Lemma sapp_inv_tail (a b c : string) : (a ++ c = b ++ c)%string -> a = b.
Proof.
  intros H. pose proof (f_equal (fun s => consumed s c) H) as E. cbn in E.
  rewrite !consumed_app in E. exact E.
Qed.

Lemma peg_fun e s o : peg e s o -> forall o', peg e s o' -> o = o'.
Proof.
  induction 1; intros o' P; inversion P; subst; auto; try congruence.
  all: repeat match goal with
       | IH : forall o', peg ?e ?s o' -> _ = o', H : peg ?e ?s _ |- _ =>
           apply IH in H; try discriminate H; try (injection H; intros; subst)
       end; auto; try congruence.
  - match goal with H : (_ ++ _ = _ ++ _)%string |- _ => idtac end.
    match goal with H : (?a ++ ?b = w ++ s)%string, Q : peg _ (?a ++ ?b)%string _ |- _ =>
      rewrite H in Q; apply IHpeg in Q; injection Q; intros; subst;
      apply sapp_inv_tail in H; subst; reflexivity end.
Qed.

(** ** The recognizer follows the meaning *)

(** How a result of [run] from [s] corresponds to an outcome. *)
Definition follows (s : pst) (o : option (list tok * string)) (r : bool * pst) : Prop :=
  let '(b, s') := r in
  p_idx s' <= List.length (p_tree s') /\ p_idx s <= p_idx s' /\
  firstn (p_idx s) (p_tree s') = firstn (p_idx s) (p_tree s) /\
  match o with
  | None => b = false
  | Some (ts, rest) =>
      b = true /\ p_rest s' = rest /\
      strip (firstn (p_idx s') (p_tree s')) = strip (firstn (p_idx s) (p_tree s)) ++ ts
  end.

Lemma follows_restore s o s' b :
  p_idx s <= List.length (p_tree s) ->
  follows s o (b, s') ->
  p_idx (restore s s') <= List.length (p_tree (restore s s')) /\
  firstn (p_idx s) (p_tree (restore s s')) = firstn (p_idx s) (p_tree s).
Proof.
  unfold follows, restore; cbn. intros H (H1 & H2 & H3 & _). split; [lia|exact H3].
Qed.

Lemma run_complete e s o :
  peg e s o ->
  forall tree idx, idx <= List.length tree ->
  exists n r, follows (mkP s tree idx) o r /\
    forall f, n <= f -> run f e (mkP s tree idx) = Ok r.
Proof.
  induction 1; intros tree idx L.
  - exists 1, (true, mkP s tree idx). split.
    + cbn. repeat split; auto. rewrite app_nil_r; reflexivity.
    + intros [|f] F; [lia|reflexivity].
  - exists 1, (true, mkP s tree idx). split.
    + cbn. repeat split; auto. rewrite app_nil_r; reflexivity.
    + intros [|f] F; [lia|]. cbn [run p_rest]. rewrite Ascii.eqb_refl. reflexivity.
  - exists 1, (false, mkP (String c' s) tree idx). split.
    + cbn. repeat split; auto.
    + intros [|f] F; [lia|]. cbn [run p_rest].
      destruct (Ascii.eqb_spec c' c); [contradiction|reflexivity].
  - exists 1, (false, mkP "" tree idx). split.
    + cbn. repeat split; auto.
    + intros [|f] F; [lia|reflexivity].
  - exists 1, (true, mkP s tree idx). split.
    + cbn. repeat split; auto. rewrite app_nil_r; reflexivity.
    + intros [|f] F; [lia|]. cbn [run p_rest]. rewrite H. reflexivity.
  - exists 1, (false, mkP (String c s) tree idx). split.
    + cbn. repeat split; auto.
    + intros [|f] F; [lia|]. cbn [run p_rest]. rewrite H. reflexivity.
  - exists 1, (false, mkP "" tree idx). split.
    + cbn. repeat split; auto.
    + intros [|f] F; [lia|reflexivity].
  - exists 1, (true, mkP s tree idx). split.
    + cbn. repeat split; auto. rewrite app_nil_r; reflexivity.
    + intros [|f] F; [lia|reflexivity].
  - exists 1, (false, mkP "" tree idx). split.
    + cbn. repeat split; auto.
    + intros [|f] F; [lia|reflexivity].
  - (* seq *)
    destruct (IHpeg1 tree idx L) as (n1 & [b1 [r1 tr1 i1]] & F1 & R1).
    cbn in F1. destruct F1 as (A1 & B1 & C1 & -> & E1 & G1). subst r1.
    destruct (IHpeg2 tr1 i1 A1) as (n2 & [b2 [r2 tr2 i2]] & F2 & R2).
    cbn in F2. destruct F2 as (A2 & B2 & C2 & -> & E2 & G2). subst r2.
    exists (S (Nat.max n1 n2)), (true, mkP s2 tr2 i2). split.
    + cbn. repeat split; auto; try lia.
      * rewrite <- (firstn_firstn_le tr2 idx i1), C2, firstn_firstn_le by lia. exact C1.
      * rewrite G2, G1, app_assoc. reflexivity.
    + intros [|f] F; [lia|]. cbn [run]. rewrite R1 by lia. cbn [bind]. apply R2. lia.
  - destruct (IHpeg tree idx L) as (n1 & [b1 s1] & F1 & R1).
    exists (S n1), (b1, s1). split.
    + exact F1.
    + intros [|f] F; [lia|]. cbn [run]. rewrite R1 by lia. cbn [bind].
      destruct s1; cbn in F1. destruct F1 as (_ & _ & _ & ->). reflexivity.
  - destruct (IHpeg1 tree idx L) as (n1 & [b1 [r1 tr1 i1]] & F1 & R1).
    cbn in F1. destruct F1 as (A1 & B1 & C1 & -> & E1 & G1). subst r1.
    destruct (IHpeg2 tr1 i1 A1) as (n2 & [b2 [r2 tr2 i2]] & F2 & R2).
    cbn in F2. destruct F2 as (A2 & B2 & C2 & ->).
    exists (S (Nat.max n1 n2)), (false, mkP r2 tr2 i2). split.
    + cbn. repeat split; auto; try lia.
      rewrite <- (firstn_firstn_le tr2 idx i1), C2, firstn_firstn_le by lia. exact C1.
    + intros [|f] F; [lia|]. cbn [run]. rewrite R1 by lia. cbn [bind]. apply R2. lia.
  - destruct (IHpeg tree idx L) as (n1 & [b1 s1] & F1 & R1).
    exists (S n1), (b1, s1). split; [exact F1|].
    intros [|f] F; [lia|]. cbn [run]. rewrite R1 by lia. cbn [bind].
    destruct m, s1; cbn in F1. destruct F1 as (_ & _ & _ & -> & _). reflexivity.
  - destruct (IHpeg1 tree idx L) as (n1 & [b1 [r1 tr1 i1]] & F1 & R1).
    cbn in F1. destruct F1 as (A1 & B1 & C1 & ->).
    assert (L1 : idx <= List.length tr1) by lia.
    destruct (IHpeg2 tr1 idx L1) as (n2 & [b2 [r2 tr2 i2]] & F2 & R2).
    exists (S (Nat.max n1 n2)), (b2, mkP r2 tr2 i2). split.
    + cbn in F2 |- *. destruct F2 as (A2 & B2 & C2 & D2).
      rewrite C1 in C2, D2. repeat split; auto.
    + intros [|f] F; [lia|]. cbn [run]. rewrite R1 by lia. cbn [bind].
      unfold restore; cbn [p_rest p_tree p_idx]. apply R2. lia.
  - destruct (IHpeg tree idx L) as (n1 & [b1 [r1 tr1 i1]] & F1 & R1).
    cbn in F1. destruct F1 as (A1 & B1 & C1 & ->).
    exists (S n1), (true, mkP s tr1 idx). split.
    + cbn. repeat split; auto; try lia. rewrite C1, app_nil_r. reflexivity.
    + intros [|f] F; [lia|]. cbn [run]. rewrite R1 by lia. reflexivity.
  - destruct (IHpeg1 tree idx L) as (n1 & [b1 [r1 tr1 i1]] & F1 & R1).
    cbn in F1. destruct F1 as (A1 & B1 & C1 & -> & E1 & G1). subst r1.
    destruct (IHpeg2 tr1 i1 A1) as (n2 & [b2 [r2 tr2 i2]] & F2 & R2).
    cbn in F2. destruct F2 as (A2 & B2 & C2 & -> & E2 & G2). subst r2.
    exists (S (Nat.max n1 n2)), (true, mkP s2 tr2 i2). split.
    + cbn. repeat split; auto; try lia.
      * rewrite <- (firstn_firstn_le tr2 idx i1), C2, firstn_firstn_le by lia. exact C1.
      * rewrite G2, G1, app_assoc. reflexivity.
    + intros [|f] F; [lia|]. cbn [run]. rewrite R1 by lia. cbn [bind]. apply R2. lia.
  - destruct (IHpeg tree idx L) as (n1 & [b1 [r1 tr1 i1]] & F1 & R1).
    cbn in F1. destruct F1 as (A1 & B1 & C1 & ->).
    exists (S n1), (true, mkP s tr1 idx). split.
    + cbn. repeat split; auto; try lia. rewrite C1, app_nil_r. reflexivity.
    + intros [|f] F; [lia|]. cbn [run]. rewrite R1 by lia. reflexivity.
  - destruct (IHpeg tree idx L) as (n1 & [b1 [r1 tr1 i1]] & F1 & R1).
    destruct m. cbn in F1. destruct F1 as (A1 & B1 & C1 & -> & _).
    exists (S n1), (false, mkP r1 tr1 i1). split.
    + cbn. repeat split; auto.
    + intros [|f] F; [lia|]. cbn [run]. rewrite R1 by lia. reflexivity.
  - destruct (IHpeg tree idx L) as (n1 & [b1 s1] & F1 & R1).
    unfold follows in F1. cbn [p_idx p_tree] in F1.
    destruct F1 as (A1 & B1 & C1 & -> & E1 & G1).
    exists (S n1), (true, add_tok (KText w) s1). split.
    + unfold follows. cbn [p_idx p_tree].
      rewrite add_tok_upto, strip_app, G1, add_tok_keep by auto.
      split; [apply add_tok_len; auto|]. split; [cbn [add_tok p_idx]; lia|].
      repeat split; auto. symmetry; apply app_assoc.
    + intros [|f] F; [lia|]. cbn [run]. rewrite R1 by lia. cbn [bind p_rest].
      rewrite E1, consumed_app. reflexivity.
  - destruct (IHpeg tree idx L) as (n1 & [b1 s1] & F1 & R1).
    exists (S n1), (b1, s1). split; [exact F1|].
    intros [|f] F; [lia|]. cbn [run]. rewrite R1 by lia. cbn [bind].
    destruct s1; cbn in F1. destruct F1 as (_ & _ & _ & ->). reflexivity.
  - exists 1, (true, add_tok (KAct a) (mkP s tree idx)). split.
    + unfold follows.
      rewrite add_tok_upto, strip_app, add_tok_keep by auto.
      split; [apply add_tok_len; auto|]. split; [cbn [add_tok p_idx]; lia|].
      repeat split; auto.
    + intros [|f] F; [lia|]. reflexivity.
  - destruct (IHpeg tree idx L) as (n1 & [b1 s1] & F1 & R1).
    unfold follows in F1. cbn [p_idx p_tree] in F1.
    destruct F1 as (A1 & B1 & C1 & D1).
    destruct o as [[ts rest]|].
    + destruct D1 as (-> & E1 & G1).
      exists (S n1), (true, add_tok (KRule r) s1). split.
      * unfold follows. cbn [p_idx p_tree].
        rewrite add_tok_upto, strip_app, G1, add_tok_keep by auto.
        split; [apply add_tok_len; auto|]. split; [cbn [add_tok p_idx]; lia|].
        repeat split; auto. cbn [strip filter]. apply app_nil_r.
      * intros [|f] F; [lia|]. cbn [run]. rewrite R1 by lia. reflexivity.
    + subst b1. exists (S n1), (false, restore (mkP s tree idx) s1). split.
      * unfold follows, restore. cbn [p_idx p_tree]. repeat split; auto. lia.
      * intros [|f] F; [lia|]. cbn [run]. rewrite R1 by lia. reflexivity.
Qed.

(** ** More fuel does not change a result *)

Lemma run_mono f e s r : run f e s = Ok r -> forall g, f <= g -> run g e s = Ok r.
Proof.
  revert e s r. induction f as [|f IH]; [discriminate|].
  intros e s r R [|g] G; [lia|]. assert (f <= g) as G' by lia. clear G.
  destruct e; cbn [run] in *; auto;
  (destruct (run f _ s) as [[b1 s1]| |] eqn:R1; [|discriminate R|discriminate R];
   rewrite (IH _ _ _ R1 g G'); cbn [bind] in *; destruct b1; auto;
   eapply IH; eauto).
Qed.

Lemma run_no_panic f e s : run f e s <> Panic.
Proof.
  revert e s. induction f as [|f IH]; [discriminate|]. intros e s R.
  destruct e; cbn [run] in *; try discriminate;
  try (destruct (p_rest s) as [|c' rest]; [discriminate|];
       try destruct (Ascii.eqb c' c); try destruct (between lo hi c'); discriminate).
  all: destruct (run f _ s) as [[b1 s1]| |] eqn:R1; cbn [bind] in R;
    [|eapply IH; eauto|discriminate R].
  all: destruct b1; try discriminate R; eapply IH; eauto.
Qed.

(** ** Termination *)

(** A rule that matches consumes something. *)
Definition rule_consumes (r : rule) : bool :=
  match r with
  | Rspacing | Rend_of_file => false
  | _ => true
  end.

Fixpoint consumes (e : pexp) : bool :=
  match e with
  | PChar _ | PRange _ _ | PDot => true
  | PEmpty | PStar _ | PNot _ | PAct _ => false
  | PSeq e1 e2 => consumes e1 || consumes e2
  | PAlt e1 e2 => consumes e1 && consumes e2
  | PText e => consumes e
  | PRule r => rule_consumes r
  end.

Lemma rule_consumes_ok r : rule_consumes r = true -> consumes (grammar r) = true.
Proof. destruct r; try discriminate; intros _; vm_compute; reflexivity. Qed.

Lemma peg_length e s o :
  peg e s o -> forall ts s', o = Some (ts, s') ->
  String.length s' <= String.length s /\
  (consumes e = true -> String.length s' < String.length s).
Proof.
  induction 1; intros ts0 s0' E; inversion E; subst; try clear E; cbn [consumes String.length];
  repeat match goal with
  | IH : forall ts s', Some (?a, ?b) = Some (ts, s') -> _ |- _ =>
      specialize (IH a b eq_refl); destruct IH
  end; try (split; [lia|intros; try discriminate; lia]).
  - split; [lia|]. intros C. apply orb_prop in C. destruct C as [C|C]; intuition lia.
  - split; [lia|]. intros C. apply andb_prop in C. intuition.
  - split; [lia|]. intros C. apply andb_prop in C. intuition.
  - auto.
  - split; [lia|]. intros C. apply H2. apply rule_consumes_ok; exact C.
Qed.

(** Rules called at the same position have a lower rank. *)
Definition rank (r : rule) : nat :=
  match r with
  | Rend_of_line | Rident | Rmetadata | Rend_of_file | Rinteger_constant
  | Rfloat_constant_exp => 0
  | Rspace | Rcomment | Rfloat_constant | Rtypename | Rfield_type | Runion_name
  | Renum_field_type => 1
  | Rspace_comment | Rscalar => 2
  | Rspacing | Rtype => 3
  | Renum_field | Rfield_decl | Ronly_comment => 4
  | Renum_fields | Rnamespace_decl | Rinclude | Rstruct_decl | Rtable_decl
  | Rroot_decl | Rfile_extension_decl | Rfile_identifier_decl | Rattribute_decl
  | Rrpc_decl => 5
  | Rtype_decl | Renum_decl | Runion_decl => 6
  | Rstatment_decl => 7
  | Rschema => 8
  end.

Fixpoint wf (k : nat) (e : pexp) : bool :=
  match e with
  | PSeq e1 e2 => wf k e1 && wf (if consumes e1 then 9 else k) e2
  | PAlt e1 e2 => wf k e1 && wf k e2
  | PStar e => wf k e && consumes e
  | PNot e | PText e => wf k e
  | PRule r => (rank r <? k)%nat
  | _ => true
  end.

Lemma grammar_wf r : wf (rank r) (grammar r) = true.
Proof. destruct r; vm_compute; reflexivity. Qed.

Lemma wf_le e : forall k k', k <= k' -> k' <= 9 -> wf k e = true -> wf k' e = true.
Proof.
  induction e; intros k k' H H9; cbn [wf]; auto.
  - rewrite !andb_true_iff. intros [A B]. split; [eauto|].
    destruct (consumes e1); eauto.
  - rewrite !andb_true_iff. intros [A B]. split; eauto.
  - rewrite !andb_true_iff. intros [A B]. split; eauto.
  - eauto.
  - eauto.
  - rewrite !Nat.ltb_lt. lia.
Qed.

Lemma rank_le r : rank r < 9.
Proof. destruct r; cbn; lia. Qed.

Definition decides (e : pexp) (s : string) : Prop := exists o, peg e s o.

Lemma decides_step s k :
  k <= 9 ->
  (forall e s', String.length s' < String.length s -> wf 9 e = true -> decides e s') ->
  (forall r, rank r < k -> decides (PRule r) s) ->
  forall e, wf k e = true -> decides e s.
Proof.
  intros K9 IHs IHr e. unfold decides in *.
  assert (forall e, wf k e = true -> wf 9 e = true) as W9 by (intros e0; apply wf_le; lia).
  induction e; cbn [wf]; intros W.
  - destruct s as [|c' s]; [eexists; apply peg_char_end|].
    destruct (Ascii.eqb_spec c' c) as [->|N]; eexists; [apply peg_char|apply peg_char_no, N].
  - destruct s as [|c' s]; [eexists; apply peg_range_end|].
    destruct (between lo hi c') eqn:B; eexists; [apply peg_range, B|apply peg_range_no, B].
  - destruct s as [|c' s]; eexists; [apply peg_dot_end|apply peg_dot].
  - eexists; apply peg_empty.
  - apply andb_prop in W. destruct W as [W1 W2].
    destruct (IHe1 W1) as [[[t1 s1]|] P1]; [|eexists; apply peg_seq_no1, P1].
    assert (exists o, peg e2 s1 o) as [[[t2 s2]|] P2].
    { destruct (peg_length _ _ _ P1 _ _ eq_refl) as [L1 L2].
      destruct (consumes e1) eqn:C.
      - apply IHs; auto.
      - destruct (Nat.eq_dec (String.length s1) (String.length s)) as [E|NE].
        + destruct (peg_suffix _ _ _ P1 _ _ eq_refl) as [w ->].
          rewrite slen_app in E. destruct w; [cbn [append] in *; auto|cbn in E; lia].
        + apply IHs; [lia|auto]. }
    + eexists. eapply peg_seq; eauto.
    + eexists. eapply peg_seq_no2; eauto.
  - apply andb_prop in W. destruct W as [W1 W2].
    destruct (IHe1 W1) as [[m|] P1]; [eexists; apply peg_alt1, P1|].
    destruct (IHe2 W2) as [o P2]. eexists. eapply peg_alt2; eauto.
  - apply andb_prop in W. destruct W as [W1 W2].
    destruct (IHe W1) as [[[t1 s1]|] P1]; [|eexists; apply peg_star_end, P1].
    destruct (peg_length _ _ _ P1 _ _ eq_refl) as [_ L2]. specialize (L2 W2).
    destruct (IHs (PStar e) s1 L2) as [o P2].
    { cbn [wf]. rewrite W2, (W9 _ W1). reflexivity. }
    assert (exists m, o = Some m) as [[t2 s2] ->]
      by (inversion P2; subst; eauto).
    eexists. eapply peg_star_more; eauto.
  - destruct (IHe W) as [[m|] P]; eexists; [eapply peg_not_no|eapply peg_not]; eauto.
  - destruct (IHe W) as [[[t1 s1]|] P]; eexists; [eapply peg_text'|eapply peg_text_no]; eauto.
  - eexists; apply peg_act.
  - apply IHr. apply Nat.ltb_lt, W.
Qed.

Lemma decides_rules s :
  (forall e s', String.length s' < String.length s -> wf 9 e = true -> decides e s') ->
  forall k, k <= 9 -> forall r, rank r < k -> decides (PRule r) s.
Proof.
  intros IHs. induction k as [|k IHk]; [lia|]. intros K r R.
  destruct (decides_step s (rank r)) with (e := grammar r) as [o P]; auto.
  - lia.
  - intros r' R'. apply IHk; lia.
  - apply grammar_wf.
  - eexists. apply peg_rule, P.
Qed.

Lemma decides_all n : forall e s, String.length s < n -> wf 9 e = true -> decides e s.
Proof.
  induction n as [|n IH]; [lia|]. intros e s L W.
  assert (forall e s', String.length s' < String.length s -> wf 9 e = true -> decides e s') as IHs.
  { intros e0 s' L' W'. apply IH; [lia|auto]. }
  apply (decides_step s 9); auto. apply decides_rules; auto.
Qed.

Lemma schema_decides s : decides (PRule Rschema) s.
Proof. apply (decides_all (S (String.length s))); [lia|reflexivity]. Qed.

Lemma parse_follows text :
  exists o n b ts,
    peg (PRule Rschema) text o /\
    (forall f, n <= f -> parse f text = Ok (b, ts)) /\
    match o with
    | Some (ts', _) => b = true /\ strip ts = ts'
    | None => b = false
    end.
Proof.
  destruct (schema_decides text) as [o P].
  destruct (run_complete _ _ _ P [] 0 (Nat.le_0_l _)) as (n & [b s'] & F & R).
  unfold follows in F. cbn [p_idx p_tree firstn] in F. destruct F as (A & _ & _ & D).
  destruct o as [[ts' rest]|].
  - destruct D as (-> & _ & D).
    exists (Some (ts', rest)), n, true, (firstn (p_idx s') (p_tree s')). repeat split; auto.
    intros f F. unfold parse. rewrite R by auto. reflexivity.
  - subst b. exists None, n, false, (p_tree s'). repeat split; auto.
    intros f F. unfold parse. rewrite R by auto. reflexivity.
Qed.

Lemma parse_mono f text r : parse f text = Ok r -> forall g, f <= g -> parse g text = Ok r.
Proof.
  unfold parse. intros P g G.
  destruct (run f _ _) as [[b s]| |] eqn:R; try discriminate P.
  rewrite (run_mono _ _ _ _ R g G). exact P.
Qed.

Lemma parse_no_panic f text : parse f text <> Panic.
Proof.
  unfold parse. destruct (run f _ _) as [[b s]| |] eqn:R; cbn [bind].
  - destruct b; discriminate.
  - exfalso. eapply run_no_panic; eauto.
  - discriminate.
Qed.

(** Acceptance does not depend on the fuel, if it suffices. *)
Lemma parse_decides text :
  exists n b ts, (forall f, n <= f -> parse f text = Ok (b, ts)) /\
                 (forall f r, parse f text = Ok r -> r = (b, ts)).
Proof.
  destruct (parse_follows text) as (o & n & b & ts & _ & R & _).
  exists n, b, ts. split; [exact R|]. intros f r P.
  pose proof (parse_mono _ _ _ P (Nat.max n f)) as Q.
  rewrite R in Q by lia. specialize (Q (Nat.le_max_r _ _)). congruence.
Qed.
