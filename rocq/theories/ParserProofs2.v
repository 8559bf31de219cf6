(** Parsing the text of a schema: tokens, layout, names, types. *)
From Coq Require Import List Bool String Ascii Arith Lia.
From Verif Require Import GoLib ParserModel ParserSpec ParserProofs.
Import ListNotations.
Open Scope string_scope.
Open Scope list_scope.

(** ** Executing the tokens of a match *)

(** The state of [Execute]: the last captured text and the declarations. *)
Fixpoint steps (ts : list tok) (x : string * fbs) : res (string * fbs) :=
  match ts with
  | [] => Ok x
  | KRule _ :: ts' => steps ts' x
  | KText t :: ts' => steps ts' (t, snd x)
  | KAct a :: ts' => do b' <- do_action a (fst x) (snd x); steps ts' (fst x, b')
  end.

Lemma steps_app a b x : steps (a ++ b) x = do y <- steps a x; steps b y.
Proof.
  revert x. induction a as [|[r|t|ac] a IH]; intros x; cbn [app steps bind]; auto.
  destruct (do_action ac (fst x) (snd x)); cbn [bind]; auto.
Qed.

Lemma steps_strip ts x : steps (strip ts) x = steps ts x.
Proof.
  revert x. induction ts as [|[r|t|a] ts IH]; intros x; cbn [strip filter steps]; auto.
  all: fold (strip ts); try apply IH.
  destruct (do_action a (fst x) (snd x)); cbn [bind]; auto.
Qed.

Lemma execute_steps ts text b : execute ts text b = do x <- steps ts (text, b); Ok (snd x).
Proof.
  revert text b. induction ts as [|[r|t|a] ts IH]; intros text b; cbn [execute steps]; auto.
  cbn [fst snd]. destruct (do_action a text b); cbn [bind]; auto.
Qed.

(** [e] matches at [s], leaves [s'], and executing the match turns [x] into
    [x']. *)
Definition does (e : pexp) (s : string) (x : string * fbs) (s' : string) (x' : string * fbs) : Prop :=
  exists ts, peg e s (Some (ts, s')) /\ steps ts x = Ok x'.

Lemma does_empty s x : does PEmpty s x s x.
Proof. exists []. split; [apply peg_empty|reflexivity]. Qed.

Lemma does_char c s x : does (PChar c) (String c s) x s x.
Proof. exists []. split; [apply peg_char|reflexivity]. Qed.

Lemma does_seq e1 e2 s x s1 x1 s2 x2 :
  does e1 s x s1 x1 -> does e2 s1 x1 s2 x2 -> does (PSeq e1 e2) s x s2 x2.
Proof.
  intros (t1 & P1 & R1) (t2 & P2 & R2). exists (t1 ++ t2).
  split; [eapply peg_seq; eauto|]. rewrite steps_app, R1. exact R2.
Qed.

Lemma does_alt1 e1 e2 s x s' x' : does e1 s x s' x' -> does (PAlt e1 e2) s x s' x'.
Proof. intros (t & P & R). exists t. split; [apply peg_alt1, P|exact R]. Qed.

Lemma does_alt2 e1 e2 s x s' x' :
  peg e1 s None -> does e2 s x s' x' -> does (PAlt e1 e2) s x s' x'.
Proof. intros N (t & P & R). exists t. split; [eapply peg_alt2; eauto|exact R]. Qed.

Lemma does_star_end e s x : peg e s None -> does (PStar e) s x s x.
Proof. intros N. exists []. split; [apply peg_star_end, N|reflexivity]. Qed.

Lemma does_star_more e s x s1 x1 s2 x2 :
  does e s x s1 x1 -> does (PStar e) s1 x1 s2 x2 -> does (PStar e) s x s2 x2.
Proof.
  intros (t1 & P1 & R1) (t2 & P2 & R2). exists (t1 ++ t2).
  split; [eapply peg_star_more; eauto|]. rewrite steps_app, R1. exact R2.
Qed.

Lemma does_act a s text b b' :
  do_action a text b = Ok b' -> does (PAct a) s (text, b) s (text, b').
Proof.
  intros H. exists [KAct a]. split; [apply peg_act|]. cbn [steps fst snd]. rewrite H. reflexivity.
Qed.

Lemma does_rule r s x s' x' : does (grammar r) s x s' x' -> does (PRule r) s x s' x'.
Proof. intros (t & P & R). exists t. split; [apply peg_rule, P|exact R]. Qed.

Lemma does_text e w s x x' :
  does e (w ++ s)%string x s x' -> does (PText e) (w ++ s)%string x s (w, snd x').
Proof.
  intros (t & P & R). exists (t ++ [KText w]). split; [apply peg_text, P|].
  rewrite steps_app, R. reflexivity.
Qed.

(** Consuming without any action. *)
Lemma does_no_tok e s s' : peg e s (Some ([], s')) -> forall x, does e s x s' x.
Proof. intros P x. exists []. split; [exact P|reflexivity]. Qed.

Lemma does_peg e s x s' x' : does e s x s' x' -> exists m, peg e s (Some m).
Proof. intros (t & P & _). eauto. Qed.

(** ** The next character *)

Definition nxt (p : ascii -> bool) (s : string) : bool :=
  match s with EmptyString => true | String c _ => p c end.

Lemma nxt_app p a s : nxt p a = true -> a <> "" -> nxt p (a ++ s)%string = true.
Proof. destruct a; [congruence|auto]. Qed.

Lemma nxt_impl p q s : (forall c, p c = true -> q c = true) -> nxt p s = true -> nxt q s = true.
Proof. destruct s; cbn; auto. Qed.

(** ** Literals *)

Lemma lit_cons c s : lit (String c s) = match s with EmptyString => PChar c | _ => PSeq (PChar c) (lit s) end.
Proof. destruct s; reflexivity. Qed.

Lemma peg_lit w s : peg (lit w) (w ++ s)%string (Some ([], s)).
Proof.
  induction w as [|c w IH]; [apply peg_empty|].
  rewrite lit_cons. destruct w as [|c' w]; [apply peg_char|].
  cbn [append]. change (@nil tok) with (@nil tok ++ @nil tok).
  eapply peg_seq; [apply peg_char|exact IH].
Qed.

Lemma does_lit w s x : does (lit w) (w ++ s)%string x s x.
Proof. apply does_no_tok, peg_lit. Qed.

Lemma peg_lit_no w s : prefix w s = false -> peg (lit w) s None.
Proof.
  revert s. induction w as [|c w IH]; intros s P; [destruct s; discriminate P|].
  assert (N : peg (PSeq (PChar c) (lit w)) s None).
  { destruct s as [|c' s]; [apply peg_seq_no1, peg_char_end|].
    cbn [prefix] in P. destruct (ascii_dec c c') as [->|N].
    - eapply peg_seq_no2; [apply peg_char|apply IH, P].
    - apply peg_seq_no1, peg_char_no. congruence. }
  rewrite lit_cons. destruct w as [|c' w]; [|exact N].
  destruct s as [|c2 s]; [apply peg_char_end|].
  cbn [prefix] in P. destruct (ascii_dec c c2) as [->|D]; [destruct s; discriminate P|].
  apply peg_char_no. congruence.
Qed.

(** A keyword followed by more expressions. *)
Lemma peg_kw_no w e s : prefix w s = false -> peg (PSeq (lit w) e) s None.
Proof. intros P. apply peg_seq_no1, peg_lit_no, P. Qed.

Lemma peg_char_nxt c s :
  nxt (fun c' => negb (Ascii.eqb c' c)) s = true -> peg (PChar c) s None.
Proof.
  destruct s as [|c' s]; cbn [nxt]; intros H; [apply peg_char_end|].
  apply peg_char_no. destruct (Ascii.eqb_spec c' c); [discriminate|auto].
Qed.

Lemma peg_range_nxt lo hi s :
  nxt (fun c' => negb (between lo hi c')) s = true -> peg (PRange lo hi) s None.
Proof.
  destruct s as [|c' s]; cbn [nxt]; intros H; [apply peg_range_end|].
  apply peg_range_no. destruct (between lo hi c'); [discriminate|auto].
Qed.

(** ** Repeating a character class *)

(** [e] is a class: it matches exactly one character satisfying [p]. *)
Definition class (e : pexp) (p : ascii -> bool) : Prop :=
  (forall c s, p c = true -> peg e (String c s) (Some ([], s))) /\
  (forall s, nxt (fun c => negb (p c)) s = true -> peg e s None).

Lemma class_char c : class (PChar c) (fun c' => Ascii.eqb c' c).
Proof.
  split.
  - intros c' s H. apply Ascii.eqb_eq in H. subst. apply peg_char.
  - intros s H. apply peg_char_nxt, H.
Qed.

Lemma class_range lo hi : class (PRange lo hi) (between lo hi).
Proof.
  split.
  - intros c s H. apply peg_range, H.
  - intros s H. apply peg_range_nxt, H.
Qed.

Lemma class_alt e1 e2 p1 p2 :
  class e1 p1 -> class e2 p2 -> class (PAlt e1 e2) (fun c => p1 c || p2 c).
Proof.
  intros [A1 B1] [A2 B2]. split.
  - intros c s H. destruct (p1 c) eqn:P1; [apply peg_alt1, A1, P1|].
    apply peg_alt2; [apply B1; cbn [nxt]; rewrite P1; reflexivity|apply A2, H].
  - intros s H. apply peg_alt2; [apply B1|apply B2];
      (eapply nxt_impl; [|exact H]); intros c; cbn; destruct (p1 c), (p2 c); auto.
Qed.

(** Any character but [c]. *)
Lemma class_not c : class (PSeq (PNot (PChar c)) PDot) (fun c' => negb (Ascii.eqb c' c)).
Proof.
  split.
  - intros c' s H. change (@nil tok) with (@nil tok ++ @nil tok). eapply peg_seq; [|apply peg_dot].
    apply peg_not, peg_char_nxt. exact H.
  - intros [|c' s] H; cbn [nxt] in H.
    + eapply peg_seq_no2; [apply peg_not, peg_char_end|apply peg_dot_end].
    + apply peg_seq_no1. rewrite negb_involutive in H. apply Ascii.eqb_eq in H. subst.
      eapply peg_not_no, peg_char.
Qed.

Lemma class_ext e p q : (forall c, p c = q c) -> class e p -> class e q.
Proof.
  intros E [A B]. split.
  - intros c s H. apply A. rewrite E. exact H.
  - intros s H. apply B. eapply nxt_impl; [|exact H]. intros c. rewrite E. auto.
Qed.

Lemma class_star e p w s :
  class e p -> all_chars p w = true -> nxt (fun c => negb (p c)) s = true ->
  peg (PStar e) (w ++ s)%string (Some ([], s)).
Proof.
  intros [A B] W N. induction w as [|c w IH]; cbn [append all_chars] in *.
  - apply peg_star_end, B, N.
  - apply andb_prop in W. destruct W as [W1 W2].
    change (@nil tok) with (@nil tok ++ @nil tok).
    eapply peg_star_more; [apply A, W1|apply IH, W2].
Qed.

Lemma class_plus e p w s :
  class e p -> w <> "" -> all_chars p w = true -> nxt (fun c => negb (p c)) s = true ->
  peg (PPlus e) (w ++ s)%string (Some ([], s)).
Proof.
  intros C N W S. destruct w as [|c w]; [congruence|].
  cbn [append all_chars] in *. apply andb_prop in W. destruct W as [W1 W2].
  change (@nil tok) with (@nil tok ++ @nil tok).
  eapply peg_seq; [apply C, W1|eapply class_star; eauto].
Qed.

(** ** Names *)

Lemma class_name_char :
  class (alts [PRange "a" "z"; PRange "A" "Z"; PRange "0" "9"; PChar "_"]) name_char.
Proof.
  cbn [alts].
  eapply class_ext;
    [|apply class_alt; [apply class_range|apply class_alt;
       [apply class_range|apply class_alt; [apply class_range|apply class_char]]]].
  intros c. unfold name_char, letter. cbn beta.
  destruct (between "a" "z" c), (between "A" "Z" c), (between "0" "9" c), (Ascii.eqb c "_"); reflexivity.
Qed.

Lemma class_letter : class (alts [PRange "a" "z"; PRange "A" "Z"; PChar "_"]) letter.
Proof.
  cbn [alts].
  eapply class_ext;
    [|apply class_alt; [apply class_range|apply class_alt; [apply class_range|apply class_char]]].
  intros c. unfold letter. cbn beta.
  destruct (between "a" "z" c), (between "A" "Z" c), (Ascii.eqb c "_"); reflexivity.
Qed.

Definition no_name (c : ascii) : bool := negb (name_char c).

Lemma does_ident n s x :
  name_ok n = true -> nxt no_name s = true ->
  does (PRule Rident) (n ++ s)%string x s (n, snd x).
Proof.
  intros N S. apply does_rule. cbn [grammar]. apply does_text, does_no_tok.
  destruct n as [|c n]; [discriminate|]. cbn [name_ok] in N.
  apply andb_prop in N. destruct N as [N1 N2]. cbn [append].
  change (@nil tok) with (@nil tok ++ @nil tok).
  eapply peg_seq; [apply class_letter, N1|].
  eapply class_star; [apply class_name_char|exact N2|exact S].
Qed.

Lemma peg_ident_no s : nxt (fun c => negb (letter c)) s = true -> peg (PRule Rident) s None.
Proof.
  intros S. apply peg_rule. cbn [grammar]. apply peg_text_no, peg_seq_no1, class_letter, S.
Qed.

(** ** Layout *)

Definition no_blank (c : ascii) : bool :=
  negb (Ascii.eqb c " ") && negb (Ascii.eqb c c_tab) && negb (Ascii.eqb c c_lf) &&
  negb (Ascii.eqb c c_cr) && negb (Ascii.eqb c "/").

Lemma peg_eol_no s :
  nxt (fun c => negb (Ascii.eqb c c_lf) && negb (Ascii.eqb c c_cr)) s = true ->
  peg (PRule Rend_of_line) s None.
Proof.
  intros S. apply peg_rule. cbn [grammar alts].
  assert (N1 : nxt (fun c => negb (Ascii.eqb c c_lf)) s = true).
  { eapply nxt_impl; [|exact S]. cbn beta. intros c. rewrite andb_true_iff. tauto. }
  assert (N2 : nxt (fun c => negb (Ascii.eqb c c_cr)) s = true).
  { eapply nxt_impl; [|exact S]. cbn beta. intros c. rewrite andb_true_iff. tauto. }
  apply peg_alt2; [apply peg_seq_no1, peg_char_nxt, N2|].
  apply peg_alt2; apply peg_char_nxt; auto.
Qed.

Lemma peg_eol_lf s : peg (PRule Rend_of_line) (String c_lf s) (Some ([], s)).
Proof.
  apply peg_rule. cbn [grammar alts].
  apply peg_alt2; [apply peg_seq_no1, peg_char_no; discriminate|].
  apply peg_alt1, peg_char.
Qed.

Lemma peg_eol_crlf s : peg (PRule Rend_of_line) (String c_cr (String c_lf s)) (Some ([], s)).
Proof.
  apply peg_rule. cbn [grammar alts]. apply peg_alt1.
  change (@nil tok) with (@nil tok ++ @nil tok). eapply peg_seq; apply peg_char.
Qed.

Lemma peg_eol_cr s :
  nxt (fun c => negb (Ascii.eqb c c_lf)) s = true ->
  peg (PRule Rend_of_line) (String c_cr s) (Some ([], s)).
Proof.
  intros S. apply peg_rule. cbn [grammar alts].
  apply peg_alt2; [eapply peg_seq_no2; [apply peg_char|apply peg_char_nxt, S]|].
  apply peg_alt2; [apply peg_char_no; discriminate|apply peg_char].
Qed.

(** An end of line, whatever follows: either exactly [e] is consumed or, for a
    lone CR in front of a LF, both. *)
Lemma peg_eol e s :
  peg (PRule Rend_of_line) (eol_text e ++ s)%string (Some ([], s)) \/
  exists s', s = String c_lf s' /\
             peg (PRule Rend_of_line) (eol_text e ++ s)%string (Some ([], s')).
Proof.
  destruct e; cbn [eol_text append].
  - left. apply peg_eol_lf.
  - destruct s as [|c s].
    + left. apply peg_eol_cr. reflexivity.
    + destruct (Ascii.eqb_spec c c_lf) as [->|N].
      * right. exists s. split; [reflexivity|apply peg_eol_crlf].
      * left. apply peg_eol_cr. cbn [nxt].
        destruct (Ascii.eqb_spec c c_lf); [contradiction|reflexivity].
  - left. apply peg_eol_crlf.
Qed.

Lemma peg_not_eol_star t s m :
  all_chars (fun c => negb (Ascii.eqb c c_lf) && negb (Ascii.eqb c c_cr)) t = true ->
  peg (PRule Rend_of_line) s (Some m) ->
  peg (PStar (PSeq (PNot (PRule Rend_of_line)) PDot)) (t ++ s)%string (Some ([], s)).
Proof.
  intros T E. induction t as [|c t IH]; cbn [append all_chars] in *.
  - apply peg_star_end, peg_seq_no1. eapply peg_not_no, E.
  - apply andb_prop in T. destruct T as [T1 T2].
    change (@nil tok) with ((@nil tok ++ @nil tok) ++ @nil tok).
    eapply peg_star_more; [|apply IH, T2].
    eapply peg_seq; [apply peg_not, peg_eol_no, T1|apply peg_dot].
Qed.

(** One blank: consumes it, or it and a LF that follows. *)
Lemma peg_blank b s :
  blank_ok b = true ->
  peg (PRule Rspace_comment) (blank_text b ++ s)%string (Some ([], s)) \/
  exists s', s = String c_lf s' /\
             peg (PRule Rspace_comment) (blank_text b ++ s)%string (Some ([], s')).
Proof.
  intros B.
  assert (SP : forall w m, peg (PRule Rend_of_line) (w ++ s)%string (Some m) ->
                 nxt (fun c => negb (Ascii.eqb c " ") && negb (Ascii.eqb c c_tab)) (w ++ s)%string = true ->
                 peg (PRule Rspace_comment) (w ++ s)%string (Some m)).
  { intros w m P N. apply peg_rule. cbn [grammar]. apply peg_alt1, peg_rule. cbn [grammar alts].
    apply peg_alt2; [apply peg_char_nxt; eapply nxt_impl; [|exact N]; cbn beta; intros c; rewrite andb_true_iff; tauto|].
    apply peg_alt2; [apply peg_char_nxt; eapply nxt_impl; [|exact N]; cbn beta; intros c; rewrite andb_true_iff; tauto|].
    exact P. }
  destruct b as [| |e|t e]; cbn [blank_text append].
  - left. apply peg_rule. cbn [grammar]. apply peg_alt1, peg_rule. cbn [grammar alts].
    apply peg_alt1, peg_char.
  - left. apply peg_rule. cbn [grammar]. apply peg_alt1, peg_rule. cbn [grammar alts].
    apply peg_alt2; [apply peg_char_no; discriminate|]. apply peg_alt1, peg_char.
  - destruct (peg_eol e s) as [P|(s' & -> & P)].
    + left. apply SP; [exact P|]. destruct e; reflexivity.
    + right. exists s'. split; [reflexivity|]. apply SP; [exact P|]. destruct e; reflexivity.
  - assert (CM : forall s' m, peg (PRule Rend_of_line) (eol_text e ++ s)%string (Some ([], s')) ->
                  m = (@nil tok, s') ->
                  peg (PRule Rspace_comment) (String "/" (String "/" ((t ++ eol_text e) ++ s)%string)) (Some m)).
    { intros s' m P ->. apply peg_rule. cbn [grammar]. apply peg_alt2.
      - apply peg_rule. cbn [grammar alts].
        apply peg_alt2; [apply peg_char_no; discriminate|].
        apply peg_alt2; [apply peg_char_no; discriminate|]. apply peg_eol_no. reflexivity.
      - apply peg_rule. cbn [grammar seqs]. rewrite sapp_assoc.
        change (@nil tok) with (@nil tok ++ (@nil tok ++ @nil tok)).
        eapply peg_seq; [apply (peg_lit "//")|].
        eapply peg_seq; [|exact P].
        eapply peg_not_eol_star; [exact B|exact P]. }
    destruct (peg_eol e s) as [P|(s' & -> & P)].
    + left. eapply CM; eauto.
    + right. exists s'. split; [reflexivity|]. eapply CM; eauto.
Qed.

Lemma peg_spacing_end s : nxt no_blank s = true -> peg (PRule Rspace_comment) s None.
Proof.
  intros S.
  assert (forall p, (forall c, no_blank c = true -> p c = true) -> nxt p s = true) as I
    by (intros p I; eapply nxt_impl; [exact I|exact S]).
  apply peg_rule. cbn [grammar]. apply peg_alt2; apply peg_rule; cbn [grammar alts].
  - apply peg_alt2; [apply peg_char_nxt, I|apply peg_alt2; [apply peg_char_nxt, I|apply peg_eol_no, I]];
    intros c; unfold no_blank; rewrite !andb_true_iff; tauto.
  - cbn [seqs]. apply peg_kw_no.
    destruct s as [|c s]; [reflexivity|]. cbn [nxt prefix] in *.
    destruct (ascii_dec "/" c) as [<-|N]; [discriminate S|reflexivity].
Qed.

Lemma peg_spacing l s :
  layout_ok l = true -> nxt no_blank s = true ->
  peg (PStar (PRule Rspace_comment)) (blanks l ++ s)%string (Some ([], s)).
Proof.
  remember (List.length l) as n eqn:E. revert l E.
  induction n as [n IH] using lt_wf_ind. intros l -> L S.
  destruct l as [|b l]; cbn [blanks append].
  - apply peg_star_end, peg_spacing_end, S.
  - cbn [layout_ok forallb] in L. apply andb_prop in L. destruct L as [L1 L2].
    rewrite sapp_assoc.
    destruct (peg_blank b (blanks l ++ s)%string L1) as [P|(s' & E & P)].
    + change (@nil tok) with (@nil tok ++ @nil tok).
      eapply peg_star_more; [exact P|]. eapply IH; [|reflexivity|exact L2|exact S]. cbn; lia.
    + (* a LF follows: it begins the next blank *)
      destruct l as [|b2 l].
      { cbn [blanks append] in E. subst s. discriminate S. }
      assert (exists e, b2 = BEol e /\ e = EolLF) as (e & -> & ->).
      { cbn [blanks] in E. destruct b2 as [| |[]|]; try (cbn in E; discriminate E); eauto. }
      cbn [blanks blank_text eol_text append] in E.
      assert (E' : (blanks l ++ s)%string = s') by (inversion E; reflexivity). subst s'.
      change (@nil tok) with (@nil tok ++ @nil tok).
      eapply peg_star_more; [exact P|].
      cbn [layout_ok forallb] in L2. apply andb_prop in L2. destruct L2 as [_ L2].
      eapply IH; [|reflexivity|exact L2|exact S]. cbn; lia.
Qed.

Lemma does_spacing l s x :
  layout_ok l = true -> nxt no_blank s = true ->
  does (PRule Rspacing) (blanks l ++ s)%string x s x.
Proof. intros L S. apply does_rule. cbn [grammar]. apply does_no_tok, peg_spacing; auto. Qed.

Lemma does_spacing0 s x : nxt no_blank s = true -> does (PRule Rspacing) s x s x.
Proof. intros S. apply (does_spacing [] s x eq_refl S). Qed.

Lemma nxt_blanks p l s :
  p " "%char = true -> p c_tab = true -> p c_lf = true -> p c_cr = true -> p "/"%char = true ->
  nxt p s = true -> nxt p (blanks l ++ s)%string = true.
Proof.
  intros P1 P2 P3 P4 P5 S. destruct l as [|[| |[]|t e] l]; cbn; auto.
Qed.

Lemma nxt_no_name_blanks l s : nxt no_name s = true -> nxt no_name (blanks l ++ s)%string = true.
Proof. apply nxt_blanks; reflexivity. Qed.

(** ** Attributes in parentheses *)

Lemma does_metas ms s text b :
  forallb meta_ok ms = true -> nxt (fun c => negb (Ascii.eqb c "(")) s = true ->
  exists text', does (PStar (PRule Rmetadata)) (metas ms ++ s)%string (text, b) s (text', b).
Proof.
  revert text. induction ms as [|m ms IH]; intros text M S; cbn [metas append].
  - exists text. apply does_star_end. apply peg_rule. cbn [grammar seqs].
    apply peg_seq_no1, peg_char_nxt, S.
  - cbn [forallb] in M. apply andb_prop in M. destruct M as [M1 M2].
    destruct (IH m M2 S) as [text' D]. exists text'.
    eapply does_star_more; [|exact D].
    apply does_rule. cbn [grammar seqs].
    eapply does_seq; [apply does_char|].
    rewrite sapp_assoc. cbn [append].
    eapply does_seq; [|apply does_char].
    apply (does_text _ m _ (text, b) (text, b)). apply does_no_tok.
    eapply class_star; [apply class_not|exact M1|reflexivity].
Qed.

(** ** Types *)

Lemma prefix_no_name k n s :
  all_chars name_char k = true -> nxt no_name s = true ->
  prefix k (n ++ s)%string = true -> prefix k n = true.
Proof.
  revert n. induction k as [|c k IH]; intros n K S P; [destruct n; reflexivity|].
  cbn [all_chars] in K. apply andb_prop in K. destruct K as [K1 K2].
  destruct n as [|c' n].
  - cbn [append] in P. destruct s as [|c' s]; [discriminate P|].
    cbn [prefix] in P. destruct (ascii_dec c c') as [->|]; [|discriminate P].
    cbn [nxt] in S. unfold no_name in S. rewrite K1 in S. discriminate S.
  - cbn [append prefix] in *. destruct (ascii_dec c c'); [|discriminate P]. eauto.
Qed.

Lemma kw_chars k : all_chars name_char (kw_text k) = true.
Proof. destruct k; reflexivity. Qed.

Lemma peg_kw_type_no k w a s :
  prefix (kw_text k) w = false -> nxt no_name s = true ->
  peg (kw_type (kw_text k) a) (w ++ s)%string None.
Proof.
  intros P S. unfold kw_type. cbn [seqs]. apply peg_kw_no.
  destruct (prefix (kw_text k) (w ++ s)%string) eqn:E; [|reflexivity].
  apply prefix_no_name in E; auto using kw_chars. congruence.
Qed.

Lemma does_kw_type w a s text b b' l :
  layout_ok l = true -> nxt no_blank s = true -> do_action a text b = Ok b' ->
  does (kw_type w a) (w ++ blanks l ++ s)%string (text, b) s (text, b').
Proof.
  intros L S A. unfold kw_type. cbn [seqs].
  eapply does_seq; [apply does_lit|].
  eapply does_seq; [apply does_spacing; auto|].
  apply does_act, A.
Qed.

(** What comes after a type: neither layout nor part of a name. *)
Definition after_type (s : string) : Prop := nxt no_blank s = true /\ nxt no_name s = true.

Ltac skip_kw k := apply does_alt2; [apply (peg_kw_type_no k); [reflexivity|assumption]|].

Lemma does_type t : forall s text b,
  ty_ok t = true -> after_type s ->
  exists text', does (PRule Rtype) (ty_text t ++ s)%string (text, b) s
                     (text', set_fvalue (ty_go t) b).
Proof.
  induction t as [k l|n l|t IH l]; intros s text b T [S1 S2]; cbn [ty_ok] in T.
  - apply andb_prop in T. destruct T as [T1 T2]. exists text.
    cbn [ty_text]. rewrite sapp_assoc.
    pose proof (nxt_no_name_blanks l _ S2) as SB.
    assert (D : forall w a, do_action a text b = Ok (set_fvalue (kw_go k) b) -> w = kw_text k ->
                does (kw_type w a) (kw_text k ++ blanks l ++ s)%string (text, b) s
                     (text, set_fvalue (kw_go k) b)).
    { intros w a A ->. apply does_kw_type; auto. }
    apply does_rule. cbn [grammar alts].
    destruct k; try discriminate T1; cbn [kw_text] in D |- *.
    + apply does_alt1, D; reflexivity.
    + skip_kw KBool. apply does_alt1, D; reflexivity.
    + skip_kw KBool. skip_kw KInt8. apply does_alt1, D; reflexivity.
    + skip_kw KBool. skip_kw KInt8. skip_kw KUint8. apply does_alt1, D; reflexivity.
    + skip_kw KBool. skip_kw KInt8. skip_kw KUint8. skip_kw KInt16. apply does_alt1, D; reflexivity.
    + skip_kw KBool. skip_kw KInt8. skip_kw KUint8. skip_kw KInt16. skip_kw KUint16.
      apply does_alt1, D; reflexivity.
    + skip_kw KBool. skip_kw KInt8. skip_kw KUint8. skip_kw KInt16. skip_kw KUint16. skip_kw KInt32.
      apply does_alt1, D; reflexivity.
    + skip_kw KBool. skip_kw KInt8. skip_kw KUint8. skip_kw KInt16. skip_kw KUint16. skip_kw KInt32.
      skip_kw KUint32. apply does_alt1, D; reflexivity.
    + skip_kw KBool. skip_kw KInt8. skip_kw KUint8. skip_kw KInt16. skip_kw KUint16. skip_kw KInt32.
      skip_kw KUint32. skip_kw KInt64. apply does_alt1, D; reflexivity.
    + skip_kw KBool. skip_kw KInt8. skip_kw KUint8. skip_kw KInt16. skip_kw KUint16. skip_kw KInt32.
      skip_kw KUint32. skip_kw KInt64. skip_kw KUint64. apply does_alt1, D; reflexivity.
    + skip_kw KBool. skip_kw KInt8. skip_kw KUint8. skip_kw KInt16. skip_kw KUint16. skip_kw KInt32.
      skip_kw KUint32. skip_kw KInt64. skip_kw KUint64. skip_kw KFloat32. apply does_alt1, D; reflexivity.
    + skip_kw KBool. skip_kw KInt8. skip_kw KUint8. skip_kw KInt16. skip_kw KUint16. skip_kw KInt32.
      skip_kw KUint32. skip_kw KInt64. skip_kw KUint64. skip_kw KFloat32. skip_kw KFloat64. skip_kw KByte.
      apply does_alt1, D; reflexivity.
    + skip_kw KBool. skip_kw KInt8. skip_kw KUint8. skip_kw KInt16. skip_kw KUint16. skip_kw KInt32.
      skip_kw KUint32. skip_kw KInt64. skip_kw KUint64. skip_kw KFloat32. skip_kw KFloat64. skip_kw KByte.
      skip_kw KUbyte. apply does_alt1, D; reflexivity.
    + skip_kw KBool. skip_kw KInt8. skip_kw KUint8. skip_kw KInt16. skip_kw KUint16. skip_kw KInt32.
      skip_kw KUint32. skip_kw KInt64. skip_kw KUint64. skip_kw KFloat32. skip_kw KFloat64. skip_kw KByte.
      skip_kw KUbyte. skip_kw KShort. apply does_alt1, D; reflexivity.
    + skip_kw KBool. skip_kw KInt8. skip_kw KUint8. skip_kw KInt16. skip_kw KUint16. skip_kw KInt32.
      skip_kw KUint32. skip_kw KInt64. skip_kw KUint64. skip_kw KFloat32. skip_kw KFloat64. skip_kw KByte.
      skip_kw KUbyte. skip_kw KShort. skip_kw KUshort. apply does_alt1, D; reflexivity.
    + skip_kw KBool. skip_kw KInt8. skip_kw KUint8. skip_kw KInt16. skip_kw KUint16. skip_kw KInt32.
      skip_kw KUint32. skip_kw KInt64. skip_kw KUint64. skip_kw KFloat32. skip_kw KFloat64. skip_kw KByte.
      skip_kw KUbyte. skip_kw KShort. skip_kw KUshort. skip_kw KInt. apply does_alt1, D; reflexivity.
    + skip_kw KBool. skip_kw KInt8. skip_kw KUint8. skip_kw KInt16. skip_kw KUint16. skip_kw KInt32.
      skip_kw KUint32. skip_kw KInt64. skip_kw KUint64. skip_kw KFloat32. skip_kw KFloat64. skip_kw KByte.
      skip_kw KUbyte. skip_kw KShort. skip_kw KUshort. skip_kw KInt. skip_kw KUint. skip_kw KFloat.
      apply does_alt1, D; reflexivity.
    + skip_kw KBool. skip_kw KInt8. skip_kw KUint8. skip_kw KInt16. skip_kw KUint16. skip_kw KInt32.
      skip_kw KUint32. skip_kw KInt64. skip_kw KUint64. skip_kw KFloat32. skip_kw KFloat64. skip_kw KByte.
      skip_kw KUbyte. skip_kw KShort. skip_kw KUshort. skip_kw KInt. skip_kw KUint. skip_kw KFloat.
      skip_kw KLong. apply does_alt1, D; reflexivity.
    + skip_kw KBool. skip_kw KInt8. skip_kw KUint8. skip_kw KInt16. skip_kw KUint16. skip_kw KInt32.
      skip_kw KUint32. skip_kw KInt64. skip_kw KUint64. skip_kw KFloat32. skip_kw KFloat64. skip_kw KByte.
      skip_kw KUbyte. skip_kw KShort. skip_kw KUshort. skip_kw KInt. skip_kw KUint. skip_kw KFloat.
      skip_kw KLong. skip_kw KUlong. apply does_alt1, D; reflexivity.
    + skip_kw KBool. skip_kw KInt8. skip_kw KUint8. skip_kw KInt16. skip_kw KUint16. skip_kw KInt32.
      skip_kw KUint32. skip_kw KInt64. skip_kw KUint64. skip_kw KFloat32. skip_kw KFloat64. skip_kw KByte.
      skip_kw KUbyte. skip_kw KShort. skip_kw KUshort. skip_kw KInt. skip_kw KUint. skip_kw KFloat.
      skip_kw KLong. skip_kw KUlong. skip_kw KDouble. apply does_alt1, D; reflexivity.
  - apply andb_prop in T. destruct T as [T T3]. apply andb_prop in T. destruct T as [T1 T2].
    exists n. cbn [ty_text ty_go]. rewrite sapp_assoc.
    pose proof (nxt_no_name_blanks l _ S2) as SB.
    assert (K : forall k a, peg (kw_type (kw_text k) a) (n ++ blanks l ++ s)%string None).
    { intros k a. apply peg_kw_type_no; auto. unfold clear_of_keywords in T2.
      rewrite forallb_forall in T2. specialize (T2 k).
      destruct (prefix (kw_text k) n); [|reflexivity].
      discriminate T2. destruct k; cbn; tauto. }
    apply does_rule. cbn [grammar alts].
    apply does_alt2; [apply (K KBool)|]. apply does_alt2; [apply (K KInt8)|].
    apply does_alt2; [apply (K KUint8)|]. apply does_alt2; [apply (K KInt16)|].
    apply does_alt2; [apply (K KUint16)|]. apply does_alt2; [apply (K KInt32)|].
    apply does_alt2; [apply (K KUint32)|]. apply does_alt2; [apply (K KInt64)|].
    apply does_alt2; [apply (K KUint64)|]. apply does_alt2; [apply (K KFloat32)|].
    apply does_alt2; [apply (K KFloat64)|]. apply does_alt2; [apply (K KByte)|].
    apply does_alt2; [apply (K KUbyte)|]. apply does_alt2; [apply (K KShort)|].
    apply does_alt2; [apply (K KUshort)|]. apply does_alt2; [apply (K KInt)|].
    apply does_alt2; [apply (K KUint)|]. apply does_alt2; [apply (K KFloat)|].
    apply does_alt2; [apply (K KLong)|]. apply does_alt2; [apply (K KUlong)|].
    apply does_alt2; [apply (K KDouble)|]. apply does_alt2; [apply (K KString)|].
    apply does_alt1. cbn [seqs].
    eapply does_seq; [apply does_ident; auto|].
    eapply does_seq; [apply does_spacing; auto|].
    cbn [snd]. apply does_act. reflexivity.
  - apply andb_prop in T. destruct T as [T1 T2].
    assert (AT : after_type ("]" ++ blanks l ++ s)%string) by (split; reflexivity).
    destruct (IH ("]" ++ blanks l ++ s)%string text b T1 AT) as [text' D].
    exists text'. cbn [ty_text append]. rewrite sapp_assoc. cbn [append] in D |- *.
    assert (K : forall k a, peg (kw_type (kw_text k) a)
                   (String "[" (ty_text t ++ String "]" (blanks l ++ s))%string) None).
    { intros k a. unfold kw_type. cbn [seqs]. apply peg_kw_no. destruct k; reflexivity. }
    apply does_rule. cbn [grammar alts].
    apply does_alt2; [apply (K KBool)|]. apply does_alt2; [apply (K KInt8)|].
    apply does_alt2; [apply (K KUint8)|]. apply does_alt2; [apply (K KInt16)|].
    apply does_alt2; [apply (K KUint16)|]. apply does_alt2; [apply (K KInt32)|].
    apply does_alt2; [apply (K KUint32)|]. apply does_alt2; [apply (K KInt64)|].
    apply does_alt2; [apply (K KUint64)|]. apply does_alt2; [apply (K KFloat32)|].
    apply does_alt2; [apply (K KFloat64)|]. apply does_alt2; [apply (K KByte)|].
    apply does_alt2; [apply (K KUbyte)|]. apply does_alt2; [apply (K KShort)|].
    apply does_alt2; [apply (K KUshort)|]. apply does_alt2; [apply (K KInt)|].
    apply does_alt2; [apply (K KUint)|]. apply does_alt2; [apply (K KFloat)|].
    apply does_alt2; [apply (K KLong)|]. apply does_alt2; [apply (K KUlong)|].
    apply does_alt2; [apply (K KDouble)|]. apply does_alt2; [apply (K KString)|].
    apply does_alt2; [cbn [seqs]; apply peg_seq_no1, peg_ident_no; reflexivity|].
    cbn [seqs].
    eapply does_seq; [apply does_char|].
    eapply does_seq; [exact D|].
    eapply does_seq; [apply does_char|].
    eapply does_seq; [apply does_spacing; auto|].
    apply does_act. cbn [do_action String.eqb ty_go]. reflexivity.
Qed.
