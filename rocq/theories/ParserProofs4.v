(** Parsing the text of a schema: declarations and whole schemas. *)
From Coq Require Import List Bool String Ascii Arith Lia.
From Verif Require Import GoLib ParserModel ParserSpec ParserProofs ParserProofs2 ParserProofs3.
Import ListNotations.
Open Scope string_scope.
Open Scope list_scope.

(** ** Effect of the fields on the state *)

Definition same_decls (b b' : fbs) : Prop :=
  f_namespace b' = f_namespace b /\ f_typename b' = f_typename b /\ f_root b' = f_root b /\
  f_structs b' = f_structs b /\ f_unions b' = f_unions b /\ f_uname b' = f_uname b.

Lemma add_fields_of_spec fs b :
  same_decls b (add_fields_of fs b) /\
  f_fields (add_fields_of fs b) =
    f_fields b ++ map (fun f => (camel (fl_name f), ty_go (fl_type f))) fs.
Proof.
  revert b. induction fs as [|f fs IH]; intros b; cbn [add_fields_of fold_left map].
  - split; [repeat split|symmetry; apply app_nil_r].
  - fold (add_fields_of fs (add_field_of f b)).
    destruct (IH (add_field_of f b)) as [(E1 & E2 & E3 & E4 & E5 & E6) F].
    split.
    + repeat split; [rewrite E1|rewrite E2|rewrite E3|rewrite E4|rewrite E5|rewrite E6]; reflexivity.
    + rewrite F. cbn. rewrite <- app_assoc. reflexivity.
Qed.

Lemma add_members_of_spec ms b :
  same_decls b (add_members_of ms b) /\
  map fst (f_fields (add_members_of ms b)) = map fst (f_fields b) ++ map mb_name ms.
Proof.
  revert b. induction ms as [|m ms IH]; intros b; cbn [add_members_of fold_left map].
  - split; [repeat split|symmetry; apply app_nil_r].
  - fold (add_members_of ms (add_member_of m b)).
    destruct (IH (add_member_of m b)) as [(E1 & E2 & E3 & E4 & E5 & E6) F].
    split.
    + repeat split; [rewrite E1|rewrite E2|rewrite E3|rewrite E4|rewrite E5|rewrite E6]; reflexivity.
    + rewrite F. cbn. rewrite map_app, <- app_assoc. reflexivity.
Qed.

(** ** Declarations *)

(** The state after a declaration. *)
Definition after (b : fbs) (d : adecl) (b' : fbs) : Prop :=
  f_fields b' = [] /\
  f_structs b' = f_structs b ++ structs_in (f_namespace b) [d] /\
  f_unions b' = f_unions b ++ unions_in (f_namespace b) [d] /\
  f_namespace b' = match d with ANamespace p => p | _ => f_namespace b end /\
  f_root b' = match d with ARoot p => p | _ => f_root b end.

Lemma class_path : class path_char (fun c => name_char c || Ascii.eqb c "." || Ascii.eqb c "-" ||
                                             between "A" "z" c).
Proof.
  unfold path_char. cbn [alts].
  eapply class_ext;
    [|apply class_alt; [apply class_range|apply class_alt; [apply class_range|
      apply class_alt; [apply class_char|apply class_alt; apply class_char]]]].
  intros c. cbn beta. unfold name_char, letter.
  destruct (between "A" "z" c) eqn:R; cbn [orb]; [symmetry; apply orb_true_r|].
  assert (Z : between "a" "z" c = false /\ between "A" "Z" c = false).
  { unfold between in *.
    change (nat_of_ascii "A") with 65 in *. change (nat_of_ascii "z") with 122 in *.
    change (nat_of_ascii "a") with 97 in *. change (nat_of_ascii "Z") with 90 in *.
    set (k := nat_of_ascii c) in *. clearbody k. clear c.
    destruct (Nat.leb_spec 65 k), (Nat.leb_spec k 122), (Nat.leb_spec 97 k), (Nat.leb_spec k 90);
      cbn [andb] in *; try discriminate R; try lia; auto. }
  destruct Z as [-> ->]. cbn [orb].
  destruct (between "0" "9" c), (Ascii.eqb c "_"), (Ascii.eqb c "."), (Ascii.eqb c "-"); reflexivity.
Qed.

Lemma path_text p s x :
  path_ok p = true -> does (PText (PPlus path_char)) (p ++ String ";" s)%string x (String ";" s) (p, snd x).
Proof.
  intros P. apply (does_text _ p _ x x). apply does_no_tok.
  eapply class_plus; [apply class_path| | |reflexivity].
  - intros ->. discriminate P.
  - destruct p as [|c p]; [reflexivity|]. unfold path_ok in P.
    set (q := String c p) in *. clearbody q. clear c p.
    induction q as [|c q IH]; [reflexivity|]. cbn [all_chars] in *.
    apply andb_prop in P. destruct P as [P1 P2]. rewrite P1, IH; auto.
Qed.

Lemma path_nxt p s : path_ok p = true -> nxt no_blank (p ++ s)%string = true.
Proof.
  destruct p as [|c p]; [discriminate|]. unfold path_ok. cbn [append nxt all_chars]. intros F.
  apply andb_prop in F. destruct F as [F _]. unfold no_blank.
  destruct (Ascii.eqb_spec c " ") as [->|]; [discriminate F|].
  destruct (Ascii.eqb_spec c c_tab) as [->|]; [discriminate F|].
  destruct (Ascii.eqb_spec c c_lf) as [->|]; [discriminate F|].
  destruct (Ascii.eqb_spec c c_cr) as [->|]; [discriminate F|].
  destruct (Ascii.eqb_spec c "/") as [->|]; [discriminate F|]. reflexivity.
Qed.

(** The head of a struct, table or union: keyword, name, layout, attributes
    and the opening brace. *)
Lemma head_nxt l2 ms s : nxt no_name (blanks l2 ++ metas ms ++ String "{" s)%string = true.
Proof.
  apply nxt_no_name_blanks, nxt_metas; reflexivity.
Qed.

Lemma metas_nxt_blank ms s : nxt no_blank (metas ms ++ String "{" s)%string = true.
Proof. apply nxt_metas; reflexivity. Qed.

Lemma app_single_struct ns n t fs rest :
  structs_in ns [AStruct t n fs] ++ rest = mkSI ns n t fs [] [] :: rest.
Proof. reflexivity. Qed.

Lemma nonempty_ne {A} (l : list A) : nonempty l = true -> l <> [].
Proof. destruct l; [discriminate|discriminate]. Qed.

Lemma does_struct_body (t : bool) l1 n l2 ms pre fs post s text b kwd :
  kwd = (if t then "table" else "struct") ->
  decl_ok (DStruct t l1 n l2 ms pre fs post) = true -> nxt no_blank s = true -> f_fields b = [] ->
  exists text' b',
    does (seqs [lit kwd; PRule Rspacing; PRule Rtypename; PRule Rspacing;
                PStar (PRule Rmetadata); PChar "{"; PPlus (PRule Rfield_decl);
                PChar "}"; PRule Rspacing; PAct (AExtractStruct t)])
         (kwd ++ blanks l1 ++ n ++ blanks l2 ++ metas ms ++
          String "{" (blanks pre ++ flds_text fs ++ String "}" (blanks post ++ s)))%string
         (text, b) s (text', b') /\
    after b (erase (DStruct t l1 n l2 ms pre fs post)) b'.
Proof.
  intros _ D S FE. cbn [decl_ok] in D.
  repeat (apply andb_prop in D; destruct D as [D ?]).
  set (b1 := mkFbs (f_namespace b) n (f_root b) (f_structs b) (f_unions b)
                   (f_fields b) (f_fname b) (f_fvalue b) (f_uname b)).
  set (TAIL := (blanks post ++ s)%string).
  destruct (does_metas ms (String "{" (blanks pre ++ flds_text fs ++ String "}" TAIL)%string) n b1)
    as [text1 DM]; [assumption|reflexivity|].
  destruct (does_fields pre fs TAIL text1 b1) as [text2 DF];
    [assumption|apply nonempty_ne; assumption|assumption|].
  destruct (add_fields_of_spec fs b1) as [(E1 & E2 & E3 & E4 & E5 & E6) EF].
  eexists text2, _. split.
  - cbn [seqs].
    eapply does_seq; [apply does_lit|].
    eapply does_seq; [apply does_spacing; [assumption|apply name_nxt_no_blank; assumption]|].
    eapply does_seq.
    { apply does_rule. cbn [grammar].
      eapply does_seq; [apply does_ident; [assumption|apply head_nxt]|].
      cbn [snd]. apply does_act. cbn [do_action]. reflexivity. }
    eapply does_seq; [apply does_spacing; [assumption|apply metas_nxt_blank]|].
    eapply does_seq; [exact DM|].
    eapply does_seq; [apply does_char|].
    eapply does_seq; [exact DF|].
    eapply does_seq; [apply does_char|].
    eapply does_seq; [apply does_spacing; assumption|].
    apply does_act. cbn [do_action]. reflexivity.
  - unfold after. cbn [f_fields f_structs f_unions f_namespace f_root erase structs_in unions_in].
    rewrite E1, E2, E3, E4, E5, EF. cbn [b1 f_fields f_structs f_unions f_namespace f_root f_typename].
    rewrite FE, app_nil_r. repeat split; auto.
Qed.

Lemma does_decl d s text b :
  decl_ok d = true -> nxt no_blank s = true -> f_fields b = [] ->
  exists text' b',
    does (PRule Rstatment_decl) (decl_text d ++ s)%string (text, b) s (text', b') /\
    after b (erase d) b'.
Proof.
  intros D S FE. destruct d as [l1 p post|t l1 n l2 ms pre fs post|l1 n l2 ms mbs post|
                               l1 p post|q post|q post|q post|n q post].
  - (* namespace *)
    cbn [decl_ok] in D. repeat (apply andb_prop in D; destruct D as [D ?]).
    exists p, (mkFbs p (f_typename b) (f_root b) (f_structs b) (f_unions b)
                (f_fields b) (f_fname b) (f_fvalue b) (f_uname b)).
    split.
    + cbn [decl_text]. rewrite !sapp_assoc. cbn [append]. rewrite ?sapp_assoc.
      apply does_rule. cbn [grammar alts]. apply does_alt1, does_rule. cbn [grammar seqs].
      eapply does_seq; [apply (does_lit "namespace")|].
      eapply does_seq; [apply does_spacing; [assumption|apply path_nxt; assumption]|].
      eapply does_seq; [apply path_text; assumption|].
      eapply does_seq; [apply does_act; reflexivity|].
      eapply does_seq; [apply does_char|].
      apply does_spacing; assumption.
    + unfold after. cbn. rewrite !app_nil_r. auto.
  - (* struct, table *)
    cbn [decl_text]. rewrite !sapp_assoc. cbn [append]. rewrite ?sapp_assoc.
    cbn [append].
    destruct t.
    + destruct (does_struct_body true l1 n l2 ms pre fs post s text b "table" eq_refl D S FE)
        as (text' & b' & DD & A).
      exists text', b'. split; [|exact A].
      apply does_rule. cbn [grammar alts].
      apply does_alt2; [apply peg_rule; cbn [grammar seqs]; apply peg_kw_no; reflexivity|].
      apply does_alt2; [apply peg_rule; cbn [grammar seqs]; apply peg_kw_no; reflexivity|].
      apply does_alt1, does_rule. cbn [grammar].
      apply does_alt2; [apply peg_rule; cbn [grammar seqs]; apply peg_kw_no; reflexivity|].
      apply does_rule. cbn [grammar]. exact DD.
    + destruct (does_struct_body false l1 n l2 ms pre fs post s text b "struct" eq_refl D S FE)
        as (text' & b' & DD & A).
      exists text', b'. split; [|exact A].
      apply does_rule. cbn [grammar alts].
      apply does_alt2; [apply peg_rule; cbn [grammar seqs]; apply peg_kw_no; reflexivity|].
      apply does_alt2; [apply peg_rule; cbn [grammar seqs]; apply peg_kw_no; reflexivity|].
      apply does_alt1, does_rule. cbn [grammar].
      apply does_alt1, does_rule. cbn [grammar]. exact DD.
  - (* union *)
    cbn [decl_ok] in D. repeat (apply andb_prop in D; destruct D as [D ?]).
    set (b1 := mkFbs (f_namespace b) (f_typename b) (f_root b) (f_structs b) (f_unions b)
                     (f_fields b) (f_fname b) (f_fvalue b) n).
    set (TAIL := (blanks post ++ s)%string).
    destruct (does_metas ms (String "{" (members_text mbs ++ String "}" TAIL)%string) n b1)
      as [text1 DM]; [assumption|reflexivity|].
    destruct (does_members mbs TAIL text1 b1) as [text2 DF];
      [assumption|apply nonempty_ne; assumption|].
    destruct (add_members_of_spec mbs b1) as [(E1 & E2 & E3 & E4 & E5 & E6) EF].
    eexists text2, _. split.
    + cbn [decl_text]. rewrite !sapp_assoc. cbn [append]. rewrite ?sapp_assoc. cbn [append].
      apply does_rule. cbn [grammar alts].
      apply does_alt2; [apply peg_rule; cbn [grammar seqs]; apply peg_kw_no; reflexivity|].
      apply does_alt1, does_rule. cbn [grammar seqs].
      eapply does_seq; [apply (does_lit "union")|].
      eapply does_seq; [apply does_spacing; [assumption|apply name_nxt_no_blank; assumption]|].
      eapply does_seq.
      { apply does_rule. cbn [grammar].
        eapply does_seq; [apply does_ident; [assumption|apply head_nxt]|].
        cbn [snd]. apply does_act. cbn [do_action]. reflexivity. }
      eapply does_seq; [apply does_spacing; [assumption|apply metas_nxt_blank]|].
      eapply does_seq; [exact DM|].
      eapply does_seq; [apply does_char|].
      eapply does_seq; [exact DF|].
      eapply does_seq; [apply does_char|].
      eapply does_seq; [apply does_spacing; assumption|].
      apply does_act. cbn [do_action]. reflexivity.
    + unfold after. cbn [f_fields f_structs f_unions f_namespace f_root erase structs_in unions_in].
      rewrite E1, E3, E4, E5, E6, EF. cbn [b1 f_fields f_structs f_unions f_namespace f_root f_uname].
      rewrite FE, app_nil_r. repeat split; auto.
  - (* root_type *)
    cbn [decl_ok] in D. repeat (apply andb_prop in D; destruct D as [D ?]).
    exists p, (mkFbs (f_namespace b) (f_typename b) p (f_structs b) (f_unions b)
                (f_fields b) (f_fname b) (f_fvalue b) (f_uname b)).
    split.
    + cbn [decl_text]. rewrite !sapp_assoc. cbn [append]. rewrite ?sapp_assoc.
      apply does_rule. cbn [grammar alts].
      do 2 (apply does_alt2; [apply peg_rule; cbn [grammar seqs]; apply peg_kw_no; reflexivity|]).
      apply does_alt2.
      { apply peg_rule. cbn [grammar].
        apply peg_alt2; apply peg_rule; cbn [grammar seqs]; apply peg_kw_no; reflexivity. }
      apply does_alt2.
      { apply peg_rule. cbn [grammar seqs]. apply peg_alt2; apply peg_kw_no; reflexivity. }
      apply does_alt1, does_rule. cbn [grammar seqs].
      eapply does_seq; [apply (does_lit "root_type")|].
      eapply does_seq; [apply does_spacing; [assumption|apply path_nxt; assumption]|].
      eapply does_seq; [apply path_text; assumption|].
      eapply does_seq; [apply does_act; reflexivity|].
      eapply does_seq; [apply does_char|].
      apply does_spacing; assumption.
    + unfold after. cbn. rewrite !app_nil_r. auto.
  - (* file_extension *)
    cbn [decl_ok] in D. apply andb_prop in D; destruct D as [D L].
    exists q, b. split.
    + cbn [decl_text]. rewrite !sapp_assoc. cbn [append]. rewrite ?sapp_assoc.
      apply does_rule. cbn [grammar alts].
      do 2 (apply does_alt2; [apply peg_rule; cbn [grammar seqs]; apply peg_kw_no; reflexivity|]).
      apply does_alt2.
      { apply peg_rule. cbn [grammar].
        apply peg_alt2; apply peg_rule; cbn [grammar seqs]; apply peg_kw_no; reflexivity. }
      apply does_alt2.
      { apply peg_rule. cbn [grammar seqs]. apply peg_alt2; apply peg_kw_no; reflexivity. }
      do 1 (apply does_alt2; [apply peg_rule; cbn [grammar seqs]; apply peg_kw_no; reflexivity|]).
      apply does_alt1, does_rule. cbn [grammar seqs].
      eapply does_seq; [apply (does_lit "file_extension")|].
      destruct q as [|c q]; [discriminate D|]. cbn [quoted_ok] in D.
      apply andb_prop in D. destruct D as [D D3]. apply andb_prop in D. destruct D as [D1 D2].
      eapply does_seq.
      { apply (does_text _ " " _ (text, b) (text, b)). apply does_no_tok.
        eapply class_star; [apply class_alt; apply class_char|reflexivity|].
        cbn [append nxt]. destruct (Ascii.eqb c " "), (Ascii.eqb c c_tab); auto. }
      cbn [snd].
      eapply does_seq.
      { apply (does_text _ (String c q) _ (" ", b) (" ", b)). apply does_no_tok.
        eapply class_plus; [apply class_not|discriminate|exact D3|reflexivity]. }
      cbn [snd].
      eapply does_seq; [apply does_char|]. apply does_spacing; assumption.
    + unfold after. cbn. rewrite !app_nil_r. auto.
  - (* file_identifier *)
    cbn [decl_ok] in D. apply andb_prop in D; destruct D as [D L].
    exists q, b. split.
    + cbn [decl_text]. rewrite !sapp_assoc. cbn [append]. rewrite ?sapp_assoc.
      apply does_rule. cbn [grammar alts].
      do 2 (apply does_alt2; [apply peg_rule; cbn [grammar seqs]; apply peg_kw_no; reflexivity|]).
      apply does_alt2.
      { apply peg_rule. cbn [grammar].
        apply peg_alt2; apply peg_rule; cbn [grammar seqs]; apply peg_kw_no; reflexivity. }
      apply does_alt2.
      { apply peg_rule. cbn [grammar seqs]. apply peg_alt2; apply peg_kw_no; reflexivity. }
      do 2 (apply does_alt2; [apply peg_rule; cbn [grammar seqs]; apply peg_kw_no; reflexivity|]).
      apply does_alt1, does_rule. cbn [grammar seqs].
      eapply does_seq; [apply (does_lit "file_identifier")|].
      destruct q as [|c q]; [discriminate D|]. cbn [quoted_ok] in D.
      apply andb_prop in D. destruct D as [D D3]. apply andb_prop in D. destruct D as [D1 D2].
      eapply does_seq.
      { apply (does_text _ " " _ (text, b) (text, b)). apply does_no_tok.
        eapply class_star; [apply class_alt; apply class_char|reflexivity|].
        cbn [append nxt]. destruct (Ascii.eqb c " "), (Ascii.eqb c c_tab); auto. }
      cbn [snd].
      eapply does_seq.
      { apply (does_text _ (String c q) _ (" ", b) (" ", b)). apply does_no_tok.
        eapply class_plus; [apply class_not|discriminate|exact D3|reflexivity]. }
      cbn [snd].
      eapply does_seq; [apply does_char|]. apply does_spacing; assumption.
    + unfold after. cbn. rewrite !app_nil_r. auto.
  - (* attribute *)
    cbn [decl_ok] in D. apply andb_prop in D; destruct D as [D L].
    exists q, b. split.
    + cbn [decl_text]. rewrite !sapp_assoc. cbn [append]. rewrite ?sapp_assoc.
      apply does_rule. cbn [grammar alts].
      do 2 (apply does_alt2; [apply peg_rule; cbn [grammar seqs]; apply peg_kw_no; reflexivity|]).
      apply does_alt2.
      { apply peg_rule. cbn [grammar].
        apply peg_alt2; apply peg_rule; cbn [grammar seqs]; apply peg_kw_no; reflexivity. }
      apply does_alt2.
      { apply peg_rule. cbn [grammar seqs]. apply peg_alt2; apply peg_kw_no; reflexivity. }
      do 3 (apply does_alt2; [apply peg_rule; cbn [grammar seqs]; apply peg_kw_no; reflexivity|]).
      apply does_alt1, does_rule. cbn [grammar seqs].
      eapply does_seq; [apply (does_lit "attribute")|].
      destruct q as [|c q]; [discriminate D|]. cbn [quoted_ok] in D.
      apply andb_prop in D. destruct D as [D D3]. apply andb_prop in D. destruct D as [D1 D2].
      eapply does_seq.
      { apply (does_text _ " " _ (text, b) (text, b)). apply does_no_tok.
        eapply class_star; [apply class_alt; apply class_char|reflexivity|].
        cbn [append nxt]. destruct (Ascii.eqb c " "), (Ascii.eqb c c_tab); auto. }
      cbn [snd].
      eapply does_seq.
      { apply (does_text _ (String c q) _ (" ", b) (" ", b)). apply does_no_tok.
        eapply class_plus; [apply class_not|discriminate|exact D3|reflexivity]. }
      cbn [snd].
      eapply does_seq; [apply does_char|]. apply does_spacing; assumption.
    + unfold after. cbn. rewrite !app_nil_r. auto.
  - (* rpc_service *)
    cbn [decl_ok] in D. repeat (apply andb_prop in D; destruct D as [D ?]).
    exists q, b. split.
    + cbn [decl_text]. rewrite !sapp_assoc. cbn [append]. rewrite ?sapp_assoc. cbn [append].
      apply does_rule. cbn [grammar alts].
      do 2 (apply does_alt2; [apply peg_rule; cbn [grammar seqs]; apply peg_kw_no; reflexivity|]).
      apply does_alt2.
      { apply peg_rule. cbn [grammar].
        apply peg_alt2; apply peg_rule; cbn [grammar seqs]; apply peg_kw_no; reflexivity. }
      apply does_alt2.
      { apply peg_rule. cbn [grammar seqs]. apply peg_alt2; apply peg_kw_no; reflexivity. }
      do 4 (apply does_alt2; [apply peg_rule; cbn [grammar seqs]; apply peg_kw_no; reflexivity|]).
      apply does_alt1, does_rule. cbn [grammar seqs].
      eapply does_seq; [apply (does_lit "rpc_service")|].
      assert (NB : nxt no_blank (n ++ String "{" (q ++ String "}" (blanks post ++ s)))%string = true)
        by (apply name_nxt_no_blank; assumption).
      eapply does_seq.
      { apply (does_text _ " " _ (text, b) (text, b)). apply does_no_tok.
        eapply class_star; [apply class_alt; apply class_char|reflexivity|].
        eapply nxt_impl; [|exact NB]. intros c. unfold no_blank.
        destruct (Ascii.eqb c " "), (Ascii.eqb c c_tab); auto. }
      cbn [snd].
      eapply does_seq; [apply does_ident; [assumption|reflexivity]|].
      cbn [snd].
      eapply does_seq; [apply does_char|].
      eapply does_seq.
      { apply (does_text _ q _ (n, b) (n, b)). apply does_no_tok.
        eapply class_plus; [apply class_not| |eassumption|reflexivity].
        intros ->. discriminate. }
      cbn [snd].
      eapply does_seq; [apply does_char|]. apply does_spacing; assumption.
    + unfold after. cbn. rewrite !app_nil_r. auto.
Qed.

(** ** Schemas *)

Lemma decl_nxt d s : nxt no_blank (decl_text d ++ s)%string = true.
Proof. destruct d as [| []| | | | | |]; reflexivity. Qed.

Lemma schema_nxt ds : nxt no_blank (schema_text ds) = true.
Proof. destruct ds as [|d ds]; [reflexivity|]. cbn [schema_text]. apply decl_nxt. Qed.

Lemma statement_end : peg (PRule Rstatment_decl) "" None.
Proof.
  apply peg_rule. cbn [grammar alts].
  do 2 (apply peg_alt2; [apply peg_rule; cbn [grammar seqs]; apply peg_kw_no; reflexivity|]).
  apply peg_alt2.
  { apply peg_rule. cbn [grammar].
    apply peg_alt2; apply peg_rule; cbn [grammar seqs]; apply peg_kw_no; reflexivity. }
  apply peg_alt2.
  { apply peg_rule. cbn [grammar seqs]. apply peg_alt2; apply peg_kw_no; reflexivity. }
  do 5 (apply peg_alt2; [apply peg_rule; cbn [grammar seqs]; apply peg_kw_no; reflexivity|]).
  apply peg_rule. cbn [grammar].
  eapply peg_seq_no2; [|apply peg_char_end].
  apply peg_rule. cbn [grammar]. apply (peg_spacing [] ""); reflexivity.
Qed.

(** The state after several declarations. *)
Fixpoint afters (b : fbs) (ds : list adecl) (b' : fbs) : Prop :=
  match ds with
  | [] => b' = b
  | d :: ds' => exists b1, after b d b1 /\ afters b1 ds' b'
  end.

Lemma does_decls_star ds text b :
  forallb decl_ok ds = true -> f_fields b = [] ->
  exists text' b', does (PStar (PRule Rstatment_decl)) (schema_text ds) (text, b) "" (text', b') /\
                   afters b (map erase ds) b'.
Proof.
  revert text b. induction ds as [|d ds IH]; intros text b D FE; cbn [schema_text forallb map] in *.
  - exists text, b. split; [apply does_star_end, statement_end|reflexivity].
  - apply andb_prop in D. destruct D as [D1 D2].
    destruct (does_decl d (schema_text ds) text b D1 (schema_nxt ds) FE) as (text1 & b1 & DD & A).
    destruct (IH text1 b1 D2) as (text2 & b2 & DS & AS); [apply A|].
    exists text2, b2. split; [eapply does_star_more; eauto|].
    exists b1. auto.
Qed.

Lemma afters_declares b ds b' :
  afters b ds b' ->
  f_structs b' = f_structs b ++ structs_in (f_namespace b) ds /\
  f_unions b' = f_unions b ++ unions_in (f_namespace b) ds /\
  f_namespace b' = fold_left (fun s d => match d with ANamespace p => p | _ => s end) ds (f_namespace b) /\
  f_root b' = fold_left (fun s d => match d with ARoot p => p | _ => s end) ds (f_root b).
Proof.
  revert b. induction ds as [|d ds IH]; intros b; cbn [afters fold_left].
  - intros ->. cbn [structs_in unions_in]. rewrite !app_nil_r. auto.
  - intros (b1 & (A1 & A2 & A3 & A4 & A5) & A). destruct (IH b1 A) as (E1 & E2 & E3 & E4).
    rewrite E1, E2, E3, E4, A2, A3, A4, A5. rewrite <- !app_assoc.
    destruct d; cbn [structs_in unions_in app]; auto.
Qed.

Lemma does_schema ds :
  ds <> [] -> forallb decl_ok ds = true ->
  exists text b, does (PRule Rschema) (schema_text ds) ("", empty_fbs) "" (text, b) /\
                 declares (map erase ds) b.
Proof.
  intros N D. destruct ds as [|d ds]; [congruence|].
  cbn [forallb] in D. apply andb_prop in D. destruct D as [D1 D2].
  destruct (does_decl d (schema_text ds) "" empty_fbs D1 (schema_nxt ds) eq_refl) as (text1 & b1 & DD & A).
  destruct (does_decls_star ds text1 b1 D2) as (text2 & b2 & DS & AS); [apply A|].
  exists text2, b2. split.
  - assert (IN : forall e, peg (PSeq (PRule Rinclude) e) (schema_text (d :: ds)) None).
    { intros e. apply peg_seq_no1, peg_rule. cbn [grammar seqs]. apply peg_kw_no.
      destruct d as [| []| | | | | |]; reflexivity. }
    apply does_rule. cbn [grammar alts seqs].
    apply does_alt2; [apply IN|]. apply does_alt2; [apply IN|].
    eapply does_seq.
    + eapply does_seq; [exact DD|exact DS].
    + apply does_rule. cbn [grammar]. apply does_no_tok, peg_not, peg_dot_end.
  - assert (AA : afters empty_fbs (map erase (d :: ds)) b2) by (cbn [map afters]; eauto).
    apply afters_declares in AA. cbn [empty_fbs f_structs f_unions f_namespace f_root app] in AA.
    exact AA.
Qed.

Lemma parse_schema_text ds :
  ds <> [] -> forallb decl_ok ds = true ->
  exists n b, declares (map erase ds) b /\
    forall f, n <= f -> parse_schema f (schema_text ds) = Ok (Some b).
Proof.
  intros N D. destruct (does_schema ds N D) as (text & b & (ts & P & R) & DC).
  destruct (parse_follows (schema_text ds)) as (o & n & ok & ts' & P' & RN & M).
  assert (E := peg_fun _ _ _ P _ P'). subst o. destruct M as [-> M].
  exists n, b. split; [exact DC|]. intros f F. unfold parse_schema. rewrite (RN f F). cbn [bind].
  rewrite execute_steps, <- steps_strip, M, R. reflexivity.
Qed.

(** The result does not depend on the fuel, if it suffices. *)
Lemma parse_schema_mono f text r :
  parse_schema f text = Ok r -> forall g, f <= g -> parse_schema g text = Ok r.
Proof.
  unfold parse_schema. intros P g G.
  destruct (parse f text) as [[b ts]| |] eqn:R; try discriminate P.
  rewrite (parse_mono _ _ _ R g G). exact P.
Qed.

Lemma parse_schema_unique text r n :
  (forall f, n <= f -> parse_schema f text = Ok r) ->
  forall f r', parse_schema f text = Ok r' -> r' = r.
Proof.
  intros H f r' P. pose proof (parse_schema_mono _ _ _ P (Nat.max n f) (Nat.le_max_r _ _)) as Q.
  rewrite H in Q by lia. congruence.
Qed.

Lemma layout_free ds1 ds2 :
  ds1 <> [] -> forallb decl_ok ds1 = true -> forallb decl_ok ds2 = true ->
  map erase ds1 = map erase ds2 ->
  exists b1 b2 n, 
    (forall f, n <= f -> parse_schema f (schema_text ds1) = Ok (Some b1) /\
                         parse_schema f (schema_text ds2) = Ok (Some b2)) /\
    f_structs b1 = f_structs b2 /\ f_unions b1 = f_unions b2 /\
    f_namespace b1 = f_namespace b2 /\ f_root b1 = f_root b2.
Proof.
  intros N D1 D2 E.
  assert (N2 : ds2 <> []) by (destruct ds1, ds2; cbn in E; congruence).
  destruct (parse_schema_text ds1 N D1) as (n1 & b1 & (A1 & A2 & A3 & A4) & R1).
  destruct (parse_schema_text ds2 N2 D2) as (n2 & b2 & (B1 & B2 & B3 & B4) & R2).
  exists b1, b2, (Nat.max n1 n2). split.
  - intros f F. split; [apply R1|apply R2]; lia.
  - rewrite A1, A2, A3, A4, B1, B2, B3, B4, E. auto.
Qed.
