(** Parsing the text of a schema: camel case, fields, declarations, schemas. *)
From Coq Require Import List Bool String Ascii Arith Lia.
From Verif Require Import GoLib ParserModel ParserSpec ParserProofs ParserProofs2.
Import ListNotations.
Open Scope string_scope.
Open Scope list_scope.

(** ** Camel case *)

Lemma split_us_nonempty s : split_us s <> [].
Proof.
  destruct s as [|c s]; cbn [split_us]; [discriminate|].
  destruct (Ascii.eqb c "_"); [discriminate|]. destruct (split_us s); discriminate.
Qed.

Lemma camel_split s :
  (single_us true s = true -> capitalize_all (split_us s) = Ok (camel_from true s)) /\
  (single_us true s = false -> capitalize_all (split_us s) = Panic) /\
  match split_us s with
  | [] => True
  | w :: ws =>
      (single_us false s = true ->
       exists r, capitalize_all ws = Ok r /\ (map_s lower w ++ r)%string = camel_from false s) /\
      (single_us false s = false -> capitalize_all ws = Panic)
  end.
Proof.
  induction s as [|c s (IH1 & IH2 & IH3)].
  - cbn. repeat split; try discriminate; try reflexivity. intros _. exists "". split; reflexivity.
  - cbn [split_us single_us camel_from]. destruct (Ascii.eqb c "_") eqn:U.
    + cbn [negb andb]. split; [discriminate|]. split.
      * intros _. reflexivity.
      * split.
        -- intros H. exists (camel_from true s). split; [apply IH1, H|reflexivity].
        -- intros H. apply IH2, H.
    + pose proof (split_us_nonempty s) as NE.
      destruct (split_us s) as [|w ws]; [congruence|]. destruct IH3 as [IH3 IH4].
      split; [|split; [|split]].
      * intros H. destruct (IH3 H) as (r & R & E).
        cbn [capitalize_all capitalize map_s]. rewrite R. cbn [bind append]. rewrite E. reflexivity.
      * intros H. cbn [capitalize_all capitalize map_s bind]. rewrite (IH4 H). reflexivity.
      * intros H. destruct (IH3 H) as (r & R & E). exists r. split; [exact R|].
        cbn [map_s append]. rewrite E. reflexivity.
      * exact IH4.
Qed.

Lemma to_camel_ok s : plain_name s = true -> to_camel_case s = Ok (camel s).
Proof. apply (proj1 (camel_split s)). Qed.

Lemma to_camel_panic s : plain_name s = false -> to_camel_case s = Panic.
Proof. apply (proj1 (proj2 (camel_split s))). Qed.

(** ** Fields *)

Definition add_field_of (f : fld) (b : fbs) : fbs :=
  add_field (set_fvalue (ty_go (fl_type f)) (set_fname (camel (fl_name f)) b)).

Lemma does_scalar d s text b :
  default_ok d = true -> nxt (fun c => negb (between "0" "9" c)) s = true ->
  exists text', does (PRule Rscalar) (default_text d ++ s)%string (text, b) s (text', b).
Proof.
  intros D S. destruct d as [ds| |]; cbn [default_ok default_text] in *.
  - apply andb_prop in D. destruct D as [D1 D2]. exists ds.
    apply does_rule. cbn [grammar]. apply does_alt1, does_rule. cbn [grammar alts].
    apply does_alt1. apply (does_text _ ds s (text, b) (text, b)). apply does_no_tok.
    eapply class_plus; [apply class_range| |exact D2|exact S].
    intros ->. discriminate D1.
  - exists text. apply does_rule. cbn [grammar]. apply does_alt1, does_rule. cbn [grammar alts].
    apply does_alt2.
    + apply peg_text_no. apply peg_seq_no1, peg_range_nxt. reflexivity.
    + apply does_alt1. apply (does_lit "true").
  - exists text. apply does_rule. cbn [grammar]. apply does_alt1, does_rule. cbn [grammar alts].
    apply does_alt2.
    + apply peg_text_no. apply peg_seq_no1, peg_range_nxt. reflexivity.
    + apply does_alt2; [apply peg_lit_no; reflexivity|]. apply (does_lit "false").
Qed.

Lemma nxt_metas p ms s : p "("%char = true -> nxt p s = true -> nxt p (metas ms ++ s)%string = true.
Proof. intros P S. destruct ms; cbn; auto. Qed.

(** What precedes the end of a field: the name, the colon and the type. *)
Lemma does_field f s x :
  fld_ok f = true -> nxt no_blank s = true ->
  exists text', does (PRule Rfield_decl) (fld_text f ++ s)%string x s (text', add_field_of f (snd x)).
Proof.
  destruct x as [text b]. intros F S. unfold fld_ok in F.
  repeat (apply andb_prop in F; destruct F as [F ?]).
  rename H into Fpost, H0 into Fm, H1 into Fd, H2 into Ft, H3 into Fp.
  unfold fld_text, add_field_of. cbn [snd].
  rewrite !sapp_assoc. cbn [append]. rewrite ?sapp_assoc.
  destruct f as [n t d ms post]; cbn [fl_name fl_type fl_default fl_metas fl_post] in *.
  set (REST := (blanks post ++ s)%string).
  assert (NM : nxt no_blank (n ++ String ":" (ty_text t ++ (match d with None => "" | Some d => "=" ++ default_text d end)
              ++ metas ms ++ String ";" REST))%string = true).
  { destruct n as [|c n]; [discriminate F|]. cbn [append nxt]. cbn [name_ok] in F.
    apply andb_prop in F. destruct F as [F _]. unfold no_blank.
    destruct (Ascii.eqb_spec c " ") as [->|]; [discriminate F|].
    destruct (Ascii.eqb_spec c c_tab) as [->|]; [discriminate F|].
    destruct (Ascii.eqb_spec c c_lf) as [->|]; [discriminate F|].
    destruct (Ascii.eqb_spec c c_cr) as [->|]; [discriminate F|].
    destruct (Ascii.eqb_spec c "/") as [->|]; [discriminate F|]. reflexivity. }
  set (b1 := set_fname (camel n) b).
  assert (HEAD : does (PRule Rfield_type)
            (n ++ String ":" (ty_text t ++ (match d with None => "" | Some d => "=" ++ default_text d end)
              ++ metas ms ++ String ";" REST))%string (text, b)
            (String ":" (ty_text t ++ (match d with None => "" | Some d => "=" ++ default_text d end)
              ++ metas ms ++ String ";" REST))%string (n, b1)).
  { apply does_rule. cbn [grammar].
    eapply does_seq; [apply does_ident; [exact F|reflexivity]|].
    cbn [snd]. apply does_act. cbn [do_action]. rewrite (to_camel_ok n Fp). reflexivity. }
  destruct d as [d|].
  - (* with a default value *)
    assert (AT : after_type (("=" ++ default_text d) ++ metas ms ++ String ";" REST)%string)
      by (split; reflexivity).
    destruct (does_type t _ n b1 Ft AT) as [text1 DT].
    assert (SC : nxt (fun c => negb (between "0" "9" c)) (metas ms ++ String ";" REST)%string = true)
      by (apply nxt_metas; reflexivity).
    destruct (does_scalar d (metas ms ++ String ";" REST)%string "" (set_fvalue (ty_go t) b1) Fd SC)
      as [text2 DS].
    destruct (does_metas ms (String ";" REST) text2 (set_fvalue (ty_go t) b1) Fm eq_refl) as [text3 DM].
    exists text3. apply does_rule. cbn [grammar]. apply does_alt2.
    + (* the first form fails at the equals sign *)
      cbn [seqs].
      destruct (does_spacing0 _ (text, b) NM) as (? & P0 & _).
      eapply peg_seq_no2; [exact P0|].
      destruct HEAD as (? & P1 & _). eapply peg_seq_no2; [exact P1|].
      eapply peg_seq_no2; [apply peg_char|].
      destruct DT as (? & P2 & _). eapply peg_seq_no2; [exact P2|].
      eapply peg_seq_no2.
      * apply peg_star_end. apply peg_rule. cbn [grammar seqs]. apply peg_seq_no1, peg_char_nxt. reflexivity.
      * apply peg_seq_no1, peg_char_nxt; reflexivity.
    + cbn [seqs].
      eapply does_seq; [apply does_spacing0, NM|].
      eapply does_seq; [exact HEAD|].
      eapply does_seq; [apply does_char|].
      eapply does_seq; [exact DT|].
      eapply does_seq.
      { apply (does_text _ "" _ (text1, set_fvalue (ty_go t) b1) (text1, set_fvalue (ty_go t) b1)). apply does_star_end.
        apply peg_alt2; apply peg_char_nxt; reflexivity. }
      cbn [snd append].
      eapply does_seq; [apply does_char|].
      assert (BT : peg blank_tab (default_text d ++ metas ms ++ String ";" REST)%string None).
      { apply peg_alt2; apply peg_char_nxt;
        (destruct d as [ds| |]; cbn [default_text]; [|reflexivity|reflexivity]);
        cbn [default_ok] in Fd; apply andb_prop in Fd; destruct Fd as [Fd1 Fd2];
        (destruct ds as [|c ds]; [discriminate Fd1|]); cbn [append nxt all_chars] in *;
        apply andb_prop in Fd2; destruct Fd2 as [Fd2 _].
        - destruct (Ascii.eqb_spec c " ") as [->|]; [discriminate Fd2|reflexivity].
        - destruct (Ascii.eqb_spec c c_tab) as [->|]; [discriminate Fd2|reflexivity]. }
      eapply does_seq.
      { apply (does_text _ "" _ ("", set_fvalue (ty_go t) b1) ("", set_fvalue (ty_go t) b1)). apply does_star_end. exact BT. }
      cbn [snd append].
      eapply does_seq; [exact DS|].
      eapply does_seq; [exact DM|].
      eapply does_seq; [apply does_char|].
      eapply does_seq; [apply does_spacing; auto|].
      apply does_act. reflexivity.
  - cbn [append] in *.
    assert (AT : after_type (metas ms ++ String ";" REST)%string)
      by (split; apply nxt_metas; reflexivity).
    destruct (does_type t _ n b1 Ft AT) as [text1 DT].
    destruct (does_metas ms (String ";" REST) text1 (set_fvalue (ty_go t) b1) Fm eq_refl) as [text3 DM].
    exists text3. apply does_rule. cbn [grammar]. apply does_alt1. cbn [seqs].
    eapply does_seq; [apply does_spacing0, NM|].
    eapply does_seq; [exact HEAD|].
    eapply does_seq; [apply does_char|].
    eapply does_seq; [exact DT|].
    eapply does_seq; [exact DM|].
    eapply does_seq; [apply does_char|].
    eapply does_seq; [apply does_spacing; auto|].
    apply does_act. reflexivity.
Qed.

(** Spacing in front of the first field is skipped by [field_decl] itself. *)
Lemma field_pre l s x s' x' :
  layout_ok l = true -> nxt no_blank s = true ->
  does (PRule Rfield_decl) s x s' x' ->
  does (PRule Rfield_decl) (blanks l ++ s)%string x s' x'.
Proof.
  intros L S (ts & P & R). exists ts. split; [|exact R]. clear R.
  assert (G : peg (grammar Rfield_decl) s (Some (ts, s'))) by (inversion P; assumption). clear P.
  apply peg_rule. cbn [grammar seqs] in G |- *.
  assert (PRE : peg (PRule Rspacing) (blanks l ++ s)%string (Some ([], s))).
  { apply peg_rule. cbn [grammar]. apply peg_spacing; auto. }
  assert (PRE0 : peg (PRule Rspacing) s (Some ([], s))).
  { apply peg_rule. cbn [grammar]. apply (peg_spacing [] s); auto. }
  assert (SQ : forall e o, peg (PSeq (PRule Rspacing) e) s o ->
                           peg (PSeq (PRule Rspacing) e) (blanks l ++ s)%string o).
  { intros e o Q. inversion Q; subst; clear Q.
    - match goal with H : peg (PRule Rspacing) s (Some (?t, ?r)) |- _ =>
        pose proof (peg_fun _ _ _ PRE0 _ H) as E; injection E; intros; subst end.
      eapply peg_seq; eauto.
    - match goal with H : peg (PRule Rspacing) s None |- _ =>
        pose proof (peg_fun _ _ _ PRE0 _ H) as E; discriminate E end.
    - match goal with H : peg (PRule Rspacing) s (Some (?t, ?r)) |- _ =>
        pose proof (peg_fun _ _ _ PRE0 _ H) as E; injection E; intros; subst end.
      eapply peg_seq_no2; eauto. }
  inversion G; subst; clear G.
  - apply peg_alt1, SQ. assumption.
  - apply peg_alt2; apply SQ; assumption.
Qed.

Definition add_fields_of (fs : list fld) (b : fbs) : fbs := fold_left (fun b f => add_field_of f b) fs b.

Lemma name_nxt_no_blank n s : name_ok n = true -> nxt no_blank (n ++ s)%string = true.
Proof.
  destruct n as [|c n]; [discriminate|]. cbn [append nxt name_ok]. intros F.
  apply andb_prop in F. destruct F as [F _]. unfold no_blank.
  destruct (Ascii.eqb_spec c " ") as [->|]; [discriminate F|].
  destruct (Ascii.eqb_spec c c_tab) as [->|]; [discriminate F|].
  destruct (Ascii.eqb_spec c c_lf) as [->|]; [discriminate F|].
  destruct (Ascii.eqb_spec c c_cr) as [->|]; [discriminate F|].
  destruct (Ascii.eqb_spec c "/") as [->|]; [discriminate F|]. reflexivity.
Qed.

Lemma fld_ok_name f : fld_ok f = true -> name_ok (fl_name f) = true.
Proof. unfold fld_ok. rewrite !andb_true_iff. tauto. Qed.

Lemma fld_nxt f s : fld_ok f = true -> nxt no_blank (fld_text f ++ s)%string = true.
Proof.
  intros F. unfold fld_text. rewrite sapp_assoc. apply name_nxt_no_blank, fld_ok_name, F.
Qed.

Lemma field_stop s : peg (PRule Rfield_decl) (String "}" s) None.
Proof.
  assert (N : forall e, peg (PSeq (PRule Rspacing) (PSeq (PRule Rfield_type) e)) (String "}" s) None).
  { intros e. eapply peg_seq_no2.
    - apply peg_rule. cbn [grammar]. apply (peg_spacing [] (String "}" s)); reflexivity.
    - apply peg_seq_no1, peg_rule. cbn [grammar]. apply peg_seq_no1, peg_ident_no. reflexivity. }
  apply peg_rule. cbn [grammar seqs]. apply peg_alt2; apply N.
Qed.

Lemma does_fields_star fs s text b :
  forallb fld_ok fs = true ->
  exists text', does (PStar (PRule Rfield_decl)) (flds_text fs ++ String "}" s)%string (text, b)
                     (String "}" s) (text', add_fields_of fs b).
Proof.
  revert text b. induction fs as [|f fs IH]; intros text b F; cbn [flds_text append forallb] in *.
  - exists text. apply does_star_end, field_stop.
  - apply andb_prop in F. destruct F as [F1 F2]. rewrite sapp_assoc.
    assert (S : nxt no_blank (flds_text fs ++ String "}" s)%string = true).
    { destruct fs as [|g fs]; [reflexivity|]. cbn [flds_text]. rewrite sapp_assoc.
      apply fld_nxt. cbn [forallb] in F2. apply andb_prop in F2. tauto. }
    destruct (does_field f _ (text, b) F1 S) as [text1 D1].
    destruct (IH text1 (add_field_of f b) F2) as [text2 D2].
    exists text2. eapply does_star_more; [exact D1|exact D2].
Qed.

Lemma does_fields pre fs s text b :
  layout_ok pre = true -> fs <> [] -> forallb fld_ok fs = true ->
  exists text', does (PPlus (PRule Rfield_decl)) (blanks pre ++ flds_text fs ++ String "}" s)%string (text, b)
                     (String "}" s) (text', add_fields_of fs b).
Proof.
  intros L N F. destruct fs as [|f fs]; [congruence|]. cbn [flds_text forallb] in *.
  apply andb_prop in F. destruct F as [F1 F2]. rewrite sapp_assoc.
  assert (S : nxt no_blank (flds_text fs ++ String "}" s)%string = true).
  { destruct fs as [|g fs]; [reflexivity|]. cbn [flds_text]. rewrite sapp_assoc.
    apply fld_nxt. cbn [forallb] in F2. apply andb_prop in F2. tauto. }
  destruct (does_field f _ (text, b) F1 S) as [text1 D1].
  destruct (does_fields_star fs s text1 (add_field_of f b) F2) as [text2 D2].
  exists text2. eapply does_seq; [|exact D2].
  apply field_pre; [exact L|apply fld_nxt, F1|exact D1].
Qed.

(** ** Union members *)

Definition add_member_of (m : member) (b : fbs) : fbs := add_field (set_fname (mb_name m) b).
Definition add_members_of (ms : list member) (b : fbs) : fbs :=
  fold_left (fun b m => add_member_of m b) ms b.

Lemma does_enum_field m s x :
  member_ok m = true -> nxt no_blank s = true -> nxt no_name s = true ->
  does (PRule Renum_field) (mb_name m ++ blanks (mb_post m) ++ s)%string x s
       (mb_name m, add_member_of m (snd x)).
Proof.
  destruct x as [text b]. unfold member_ok. intros M S1 S2.
  apply andb_prop in M. destruct M as [M M3]. apply andb_prop in M. destruct M as [M1 M2].
  apply does_rule. cbn [grammar]. apply does_alt1. cbn [seqs].
  eapply does_seq.
  { apply does_rule. cbn [grammar].
    eapply does_seq; [apply does_ident; [exact M2|apply nxt_no_name_blanks, S2]|].
    cbn [snd]. apply does_act. reflexivity. }
  eapply does_seq; [apply does_spacing; auto|].
  apply does_act. reflexivity.
Qed.

Lemma member_spacing m s x :
  member_ok m = true ->
  does (PRule Rspacing) (member_text m ++ s)%string x
       (mb_name m ++ blanks (mb_post m) ++ s)%string x.
Proof.
  unfold member_ok, member_text. intros M.
  apply andb_prop in M. destruct M as [M M3]. apply andb_prop in M. destruct M as [M1 M2].
  rewrite !sapp_assoc. apply does_spacing; [exact M1|]. apply name_nxt_no_blank, M2.
Qed.

Lemma does_member_comma m s x :
  member_ok m = true ->
  does (PRule Renum_fields) (member_text m ++ String "," s)%string x s
       (mb_name m, add_member_of m (snd x)).
Proof.
  intros M. apply does_rule. cbn [grammar]. apply does_alt1. cbn [seqs].
  eapply does_seq; [apply member_spacing, M|].
  eapply does_seq; [apply does_enum_field; [exact M|reflexivity|reflexivity]|].
  apply does_char.
Qed.

Lemma does_member_last m s x :
  member_ok m = true ->
  does (PRule Renum_fields) (member_text m ++ String "}" s)%string x (String "}" s)
       (mb_name m, add_member_of m (snd x)).
Proof.
  intros M. apply does_rule. cbn [grammar]. cbn [seqs].
  destruct (member_spacing m (String "}" s) x M) as (t1 & P1 & R1).
  destruct (does_enum_field m (String "}" s) x M eq_refl eq_refl) as (t2 & P2 & R2).
  apply does_alt2.
  - eapply peg_seq_no2; [exact P1|]. eapply peg_seq_no2; [exact P2|].
    apply peg_char_nxt. reflexivity.
  - eapply does_seq; [apply member_spacing, M|].
    apply does_enum_field; [exact M|reflexivity|reflexivity].
Qed.

Lemma member_stop s : peg (PRule Renum_fields) (String "}" s) None.
Proof.
  assert (SP : peg (PRule Rspacing) (String "}" s) (Some ([], String "}" s))).
  { apply peg_rule. cbn [grammar]. apply (peg_spacing [] (String "}" s)); reflexivity. }
  assert (EF : peg (PRule Renum_field) (String "}" s) None).
  { apply peg_rule. cbn [grammar seqs].
    assert (peg (PRule Renum_field_type) (String "}" s) None) as E.
    { apply peg_rule. cbn [grammar]. apply peg_seq_no1, peg_ident_no. reflexivity. }
    apply peg_alt2; apply peg_seq_no1; exact E. }
  apply peg_rule. cbn [grammar seqs]. apply peg_alt2.
  - eapply peg_seq_no2; [exact SP|]. apply peg_seq_no1, EF.
  - eapply peg_seq_no2; [exact SP|exact EF].
Qed.

Lemma does_members_star ms s text b :
  forallb member_ok ms = true -> ms <> [] ->
  exists text', does (PStar (PRule Renum_fields)) (members_text ms ++ String "}" s)%string (text, b)
                     (String "}" s) (text', add_members_of ms b).
Proof.
  revert text b. induction ms as [|m ms IH]; intros text b M N; [congruence|].
  cbn [forallb] in M. apply andb_prop in M. destruct M as [M1 M2].
  destruct ms as [|m2 ms].
  - exists (mb_name m). cbn [members_text].
    eapply does_star_more; [apply does_member_last, M1|]. apply does_star_end, member_stop.
  - destruct (IH (mb_name m) (add_member_of m b) M2) as [text' D]; [discriminate|].
    exists text'. change (members_text (m :: m2 :: ms)) with
      (member_text m ++ "," ++ members_text (m2 :: ms))%string.
    rewrite sapp_assoc. cbn [append].
    eapply does_star_more; [apply does_member_comma, M1|exact D].
Qed.

Lemma does_members ms s text b :
  forallb member_ok ms = true -> ms <> [] ->
  exists text', does (PPlus (PRule Renum_fields)) (members_text ms ++ String "}" s)%string (text, b)
                     (String "}" s) (text', add_members_of ms b).
Proof.
  intros M N. destruct ms as [|m ms]; [congruence|].
  cbn [forallb] in M. apply andb_prop in M. destruct M as [M1 M2].
  destruct ms as [|m2 ms].
  - exists (mb_name m). cbn [members_text].
    eapply does_seq; [apply does_member_last, M1|]. apply does_star_end, member_stop.
  - destruct (does_members_star (m2 :: ms) s (mb_name m) (add_member_of m b) M2) as [text' D]; [discriminate|].
    exists text'. change (members_text (m :: m2 :: ms)) with
      (member_text m ++ "," ++ members_text (m2 :: ms))%string.
    rewrite sapp_assoc. cbn [append].
    eapply does_seq; [apply does_member_comma, M1|exact D].
Qed.
