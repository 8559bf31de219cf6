(** Proofs about the generated package as a whole, from the text of a schema
    to the tables it fills. *)
From Coq Require Import ZArith List Bool String Ascii Lia FinFun Permutation.
From Verif Require Import GoLib TableModel NameModel NameSpec NameProofs ParserModel ParserSpec
  ParserProofs5 GenModel GenSpec GenProofs GenProofs2 GenProofs3 GenProofs4.
Import ListNotations.
Open Scope string_scope.
Open Scope list_scope.

(** ** Members of unions keep their order *)

Lemma flat_map_empty : forall A B (f : A -> list B) l, (forall x, In x l -> f x = []) -> flat_map f l = [].
Proof.
  induction l as [|a l IH]; intros H; [reflexivity|]. cbn [flat_map]. rewrite H by (left; reflexivity).
  apply IH. intros x X. apply H. right; exact X.
Qed.

Lemma flat_map_one : forall A B (f : A -> list B) l x, NoDup l -> In x l ->
  (forall y, In y l -> f y <> [] -> y = x) -> flat_map f l = f x.
Proof.
  intros A B f l x N I U. apply in_split in I. destruct I as (l1 & l2 & ->).
  apply NoDup_remove_2 in N. rewrite flat_map_app. cbn [flat_map].
  rewrite (flat_map_empty _ _ f l1), (flat_map_empty _ _ f l2); [rewrite app_nil_r; reflexivity| |].
  - intros y Y. destruct (f y) eqn:E; [reflexivity|]. exfalso. apply N.
    rewrite <- (U y); [apply in_or_app; right; exact Y|apply in_or_app; right; right; exact Y|congruence].
  - intros y Y. destruct (f y) eqn:E; [reflexivity|]. exfalso. apply N.
    rewrite <- (U y); [apply in_or_app; left; exact Y|apply in_or_app; left; exact Y|congruence].
Qed.

Lemma alias_only : forall u d, aliases_of u (init_of d) <> [] -> g_in d = "../genny/union-alias.go".
Proof.
  intros u d H. unfold init_of in H. destruct (bindings (g_arg d)) as [bs|]; [|contradiction H; reflexivity].
  destruct (String.eqb (g_in d) "../genny/node.go").
  - exfalso. apply H. unfold aliases_of. apply flat_map_empty. intros x X.
    apply in_flat_map in X. destruct X as (n & _ & X). apply in_map_iff in X. destruct X as (y & <- & _). reflexivity.
  - destruct (String.eqb (g_in d) "../genny/field.go").
    + exfalso. apply H. unfold aliases_of. apply flat_map_empty. intros x X.
      repeat (apply in_flat_map in X; destruct X as (? & _ & X)).
      apply in_map_iff in X. destruct X as (y & <- & _). reflexivity.
    + destruct (String.eqb_spec (g_in d) "../genny/union-alias.go"); [assumption|].
      contradiction H; reflexivity.
Qed.

Lemma fields_in : forall ss name fs k ds d, field_dirs ss name k fs = Ok ds -> In d ds ->
  exists f j, In f fs /\ field_dir ss name j f = Ok d.
Proof.
  intros ss name. induction fs as [|f fs IH]; intros k ds d E I; cbn [field_dirs] in E.
  - injection E as <-. contradiction.
  - destruct (field_dir ss name k f) as [e| |] eqn:D; try discriminate. cbn [bind] in E.
    destruct (field_dirs ss name (S k) fs) as [r| |] eqn:R; try discriminate. cbn [bind] in E.
    injection E as <-. destruct I as [<-|I]; [exists f, k; split; [left; reflexivity|exact D]|].
    destruct (IH _ _ _ R I) as (g & j & G & J). exists g, j. split; [right; exact G|exact J].
Qed.

Lemma field_dir_in : forall ss name k f d, field_dir ss name k f = Ok d -> g_in d = "../genny/field.go".
Proof.
  intros ss name k f d E. unfold field_dir in E. destruct (result_type (snd f)); try discriminate.
  cbn [bind] in E. injection E as <-. reflexivity.
Qed.

Lemma Forall2_right : forall A B (R : A -> B -> Prop) l l' y, Forall2 R l l' -> In y l' ->
  exists x, In x l /\ R x y.
Proof.
  intros A B R l l' y H. induction H as [|a b l l' E F IH]; intros I; [contradiction|].
  destruct I as [->|I]; [exists a; split; [left; reflexivity|exact E]|].
  destruct (IH I) as (x & X & Y). exists x. split; [right; exact X|exact Y].
Qed.

Lemma Forall2_left : forall A B (R : A -> B -> Prop) l l' x, Forall2 R l l' -> In x l ->
  exists y, In y l' /\ R x y.
Proof.
  intros A B R l l' x H. induction H as [|a b l l' E F IH]; intros I; [contradiction|].
  destruct I as [->|I]; [exists b; split; [left; reflexivity|exact E]|].
  destruct (IH I) as (y & X & Y). exists y. split; [right; exact X|exact Y].
Qed.

(** The directives of a schema, one by one. *)
Lemma make_gen_in : forall b ds d, fbs_ok b -> make_gen "" b = Ok ds -> In d ds ->
  d = root_dir (f_root b) \/
  (exists i, In i (f_structs b) /\
     (d = node_dir (f_structs b) (f_root b) (si_name i) \/ d = list_dir (si_name i) \/
      exists f k, In f (si_fields i) /\ field_dir (f_structs b) (si_name i) k f = Ok d)) \/
  (exists u, In u (f_unions b) /\
     (d = mkDir "../genny/union.go" ("../" ++ ui_name u ++ ".union.gen.go") " " ("UnionName=" ++ ui_name u) \/
      d = mkDir "../genny/union-alias.go" ("../" ++ ui_name u ++ ".union-alias.gen.go") ""
            ("UnionName=" ++ ui_name u ++ " AliasName=" ++ join "," (ui_aliases u)))).
Proof.
  intros b ds d OK E I. destruct (make_gen_blocks "" b OK) as (bs & B & E'). rewrite E in E'. injection E' as ->.
  destruct I as [I|I]; [left; auto|]. right. apply in_app_or in I. destruct I as [I|I].
  - left. apply in_concat in I. destruct I as (blk & BI & DI).
    assert (exists i, In i (f_structs b) /\ block (f_structs b) (f_root b) i blk) as (i & II & BB).
    { rewrite (filter_all _ si_name) in B. exact (Forall2_right _ _ _ _ _ _ B BI). }
    exists i. split; [exact II|]. destruct BB as [fs F]. destruct DI as [<-|[<-|DI]]; auto.
    right. right. destruct (fields_in _ _ _ _ _ _ F DI) as (f & k & FI & FD). eauto.
  - right. unfold union_dirs in I. apply in_flat_map in I. destruct I as (u & U & D). exists u. split; [exact U|].
    change (passes "" (ui_name u)) with true in D. destruct D as [<-|[<-|[]]]; auto.
Qed.

Lemma make_gen_has_alias : forall b ds u, make_gen "" b = Ok ds -> In u (f_unions b) ->
  In (mkDir "../genny/union-alias.go" ("../" ++ ui_name u ++ ".union-alias.gen.go") ""
            ("UnionName=" ++ ui_name u ++ " AliasName=" ++ join "," (ui_aliases u))) ds.
Proof.
  intros b ds u E U. unfold make_gen in E.
  destruct (struct_dirs "" (f_root b) (f_structs b) (f_structs b)) as [r| |]; try discriminate.
  cbn [bind] in E. injection E as <-. right. apply in_or_app. right. unfold union_dirs.
  apply in_flat_map. exists u. split; [exact U|]. change (passes "" (ui_name u)) with true. right; left; reflexivity.
Qed.

Lemma alias_init : forall u, name_ok (ui_name u) = true -> ui_aliases u <> [] ->
  Forall (fun a => name_ok a = true) (ui_aliases u) ->
  init_of (mkDir "../genny/union-alias.go" ("../" ++ ui_name u ++ ".union-alias.gen.go") ""
            ("UnionName=" ++ ui_name u ++ " AliasName=" ++ join "," (ui_aliases u))) = union_steps u.
Proof.
  intros u U A F. unfold init_of. cbn [g_arg g_in]. rewrite (alias_bindings _ _ U A F).
  cbn -[exported]. rewrite app_nil_r. reflexivity.
Qed.

Lemma union_members : forall b ds files u, fbs_ok b -> NoDup (map g_out ds) ->
  Forall (fun s => plain s /\ capital s = true) (struct_names b ++ union_names b) ->
  NoDup (struct_names b ++ union_names b) ->
  make_gen "" b = Ok ds -> Permutation ds files -> In u (f_unions b) ->
  aliases_of (ui_name u) (flat_map init_of files) = map first_upper (ui_aliases u).
Proof.
  intros b ds files u OK ND CAP NN E P U. pose proof OK as (_ & _ & UO).
  rewrite Forall_forall in UO. destruct (UO u U) as (N & A & M).
  rewrite aliases_of_flat.
  set (d := mkDir "../genny/union-alias.go" ("../" ++ ui_name u ++ ".union-alias.gen.go") ""
            ("UnionName=" ++ ui_name u ++ " AliasName=" ++ join "," (ui_aliases u))).
  assert (DI : In d ds) by (apply (make_gen_has_alias b); auto).
  assert (NF : NoDup files) by (eapply Permutation_NoDup; [exact P|eapply NoDup_map_inv, ND]).
  rewrite (flat_map_one _ _ _ _ d NF).
  - unfold d. rewrite alias_init by auto. rewrite (aliases_of_union b) by auto.
    rewrite String.eqb_refl. reflexivity.
  - eapply Permutation_in; [exact P|exact DI].
  - intros y Y H. apply (Permutation_in _ (Permutation_sym P)) in Y.
    pose proof (alias_only _ _ H) as G.
    destruct (make_gen_in _ _ _ OK E Y) as [->|[(i & I & [->|[->|(f & k & F & D)]])|(v & V & [->| ->])]];
      try discriminate G.
    + rewrite (field_dir_in _ _ _ _ _ D) in G. discriminate G.
    + destruct (UO v V) as (N' & A' & M'). rewrite alias_init in H by auto.
      rewrite (aliases_of_union b) in H by auto.
      destruct (String.eqb_spec (ui_name v) (ui_name u)); [|contradiction H; reflexivity].
      apply (map_inj_in _ _ g_out ds); auto. unfold d. cbn [g_out]. rewrite e. reflexivity.
Qed.

(** ** The tables *)

Lemma package_serves : forall b ds files, named_ok b -> types_long b -> distinct_names b -> separate b ->
  capital_fields b -> all_types (served (f_structs b) (f_unions b)) b ->
  make_gen "" b = Ok ds -> Permutation (written ds) files -> serves b files.
Proof.
  intros b ds files NM T (ND & CAP) SEP FC SV E P.
  destruct (files_separate "" b ds NM T SEP E) as [NO W]. rewrite W in P.
  destruct (generated_steps "" b NM T) as (ds' & E' & G).
  { apply NoDup_app_parts in ND. apply ND. }
  rewrite E in E'. injection E' as <-.
  pose proof SEP as (_ & _ & NF).
  destruct (steps_run b CAP FC files ds G P T) as (n & R).
  destruct (apply_total _ _ R) as (n' & EA & _ & H1 & H2 & H3 & H4 & H5 & _ & _).
  destruct (applied_groups _ _ R) as (n2 & EA2 & _ & GR). rewrite EA in EA2. injection EA2 as <-.
  exists n, n'. split; [exact R|]. split; [exact EA|]. pose proof NM as (_ & _ & UO).
  assert (MEM : Forall (fun u => ui_aliases u <> []) (f_unions b)).
  { rewrite Forall_forall in *. intros u U. apply (UO u U). }
  split.
  - intros i k f I K. unfold registered. rewrite H4, H5.
    destruct (steps_index b CAP FC ND NF files ds G P n i k f R I K) as [X1 X2].
    split; [exact X1|]. split; [exact X2|]. intros cl FCL.
    destruct (GR (si_name i) (Z.of_nat k) (first_upper (snd f))) as (g & G1 & G2).
    { apply declared_of with (f := fst f).
      - apply (steps_keys b CAP ND files ds G P).
      - apply (steps_in b files ds G P). apply (package_field b CAP FC). exists i, k, f. auto 10. }
    exists g. split; [exact G1|].
    assert (S : served (f_structs b) (f_unions b) (snd f)).
    { unfold all_types in SV. rewrite Forall_forall in SV. specialize (SV i I). rewrite Forall_forall in SV.
      apply SV. eapply nth_error_In, K. }
    destruct (class_group b CAP ND files ds G P MEM n (snd f) cl R S FCL) as (g' & G3 & G4).
    rewrite (group_ext n' n) in G2 by (rewrite ?H1, ?H2; reflexivity). rewrite G3 in G2. injection G2 as <-. exact G4.
  - intros u U. rewrite H2. destruct (run_tables _ _ R) as (TU & _). rewrite TU.
    rewrite (union_members b ds files u); auto.
    + unfold as_found. rewrite Forall_forall in MEM. specialize (MEM u U). cbv beta in MEM.
      destruct (ui_aliases u); [congruence|reflexivity].
    + apply fbs_ok_of; auto.
Qed.

(** ** Result types *)

Lemma plain_no_type : forall s, plain s -> has_name_type s = false.
Proof.
  intros s (_ & _ & P & _). unfold has_name_type. rewrite lookup_none by exact P. reflexivity.
Qed.

Lemma scalar_type : forall t, t <> SUint8 -> has_name_type (scalar_name t false) = true.
Proof. intros t H. destruct t; try reflexivity. congruence. Qed.

Lemma replace_none : forall s, all_chars (other "[") s = true -> replace_from 0 "[]byte" "CommonNode" s = s.
Proof.
  induction s as [|c s IH]; intros H; [reflexivity|]. cbn [all_chars] in H. apply andb_prop in H.
  destruct H as [H1 H2]. unfold other in H1. apply negb_true_iff in H1.
  cbn [replace_from]. replace (prefix "[]byte" (String c s)) with false.
  - rewrite IH by exact H2. reflexivity.
  - cbn [prefix]. destruct (ascii_dec "[" c); [subst; discriminate H1|reflexivity].
Qed.

Lemma name_no_bracket : forall s, name_ok s = true -> all_chars (other "[") s = true.
Proof.
  intros s H. assert (N : all_chars name_char s = true).
  { destruct s; [discriminate|]. cbn in *. apply andb_prop in H. destruct H as [H1 H2].
    unfold name_char at 1. rewrite H1. exact H2. }
  eapply all_chars_imp; [|exact N]. intros c C. unfold other.
  destruct (Ascii.eqb_spec c "["); [subst; discriminate|reflexivity].
Qed.

Lemma conv_name : forall s, name_ok s = true -> capital s = true ->
  conv_result_type ("[]" ++ s) = (s ++ "List")%string.
Proof.
  intros s N C. unfold conv_result_type, replace_all. cbn [append].
  assert (E : replace_from 0 "[]byte" "CommonNode" (String "[" (String "]" s)) = ("[]" ++ s)%string).
  { change (String "[" (String "]" s)) with ("[]" ++ s)%string.
    cbn [append]. cbn [replace_from]. change (String "[" (String "]" s)) with ("[]" ++ s)%string.
    rewrite prefix_byte. replace (prefix "byte" s) with false.
    - replace (prefix "[]byte" (String "]" s)) with false by reflexivity.
      rewrite replace_none by (apply name_no_bracket, N). reflexivity.
    - destruct s as [|c s]; [discriminate C|]. cbn [prefix]. destruct (ascii_dec "b" c); [|reflexivity].
      subst. discriminate C. }
  rewrite E. rewrite prefix_cons2. reflexivity.
Qed.

Lemma tail_name : forall s, substring 2 (String.length ("[]" ++ s) - 2) ("[]" ++ s) = s.
Proof.
  intros s. cbn [append String.length substring].
  replace (S (S (String.length s)) - 2)%nat with (String.length s) by lia.
  rewrite sub_full. reflexivity.
Qed.

Lemma result_of_type : forall b t r, named_ok b ->
  Forall (fun s => plain s /\ capital s = true) (struct_names b ++ union_names b) ->
  resolved (f_structs b) (f_unions b) t -> result_type t = Ok r ->
  In r ["CommonNode"; "CommonNodeList"; "List"] \/ In r (struct_names b) \/ In r (union_names b) \/
  exists s, In s (struct_names b) /\ r = (s ++ "List")%string.
Proof.
  intros b t r (_ & SN & _) CAP RS E. rewrite Forall_forall in CAP, SN.
  assert (V : forall i, In i (f_structs b) -> t = ("[]" ++ si_name i)%string ->
    In r ["CommonNode"; "CommonNodeList"; "List"] \/ In r (struct_names b) \/ In r (union_names b) \/
    exists s, In s (struct_names b) /\ r = (s ++ "List")%string).
  { intros i I ->. right. right. right. exists (si_name i). split; [apply in_map, I|].
    destruct (CAP (si_name i)) as [P C]; [apply in_or_app; left; apply in_map, I|].
    destruct (SN i I) as [N _].
    rewrite result_type_cases in E by (cbn; lia). rewrite tail_name, prefix_cons2, (plain_no_type _ P) in E.
    rewrite conv_name in E by auto.
    replace (has_name_type ("[]" ++ si_name i)) with false in E; [injection E; auto|].
    unfold has_name_type. rewrite lookup_none; [reflexivity|]. intros v H. cbn in H. intuition discriminate. }
  assert (W : forall s, In s (struct_names b ++ union_names b) -> t = s -> r = s).
  { intros s I ->. destruct (CAP s I) as [P C]. pose proof P as (L & PV & _).
    rewrite result_type_cases, (plain_no_type _ P), PV in E by exact L. injection E; auto. }
  destruct RS as [t SV|i I]; [|apply (V i I); reflexivity].
  destruct SV as [t T|t T| |i I|u U|i I T].
  - left. rewrite result_type_cases, scalar_type in E by (auto; destruct t; cbn; lia).
    injection E as <-. left; reflexivity.
  - left. rewrite result_type_cases in E by (destruct t; cbn; lia).
    rewrite tail_name, prefix_cons2, scalar_type in E by auto.
    replace (has_name_type ("[]" ++ scalar_name t false)) with false in E by (destruct t; reflexivity).
    injection E as <-. cbn; auto.
  - left. vm_compute in E. injection E as <-. cbn; auto.
  - right. left. rewrite (W (si_name i)); [apply in_map, I| |reflexivity]. apply in_or_app. left. apply in_map, I.
  - right. right. left. rewrite (W (ui_name u)); [apply in_map, U| |reflexivity]. apply in_or_app. right. apply in_map, U.
  - apply (V i I); reflexivity.
Qed.

Lemma provided : forall b ds, fbs_ok b -> make_gen "" b = Ok ds ->
  incl (["CommonNode"; "CommonNodeList"; "List"] ++ struct_names b ++
        map (fun s => s ++ "List")%string (struct_names b) ++ union_names b)
       (flat_map types_of ds).
Proof.
  intros b ds OK E. destruct (make_gen_blocks "" b OK) as (bs & B & E'). rewrite E in E'. injection E' as ->.
  rewrite (filter_all _ si_name) in B. destruct OK as (R & S & U).
  assert (BI : forall i, In i (f_structs b) -> exists fs,
    In (node_dir (f_structs b) (f_root b) (si_name i) :: list_dir (si_name i) :: fs) bs).
  { intros i I. destruct (Forall2_left _ _ _ _ _ _ B I) as (blk & K & BB).
    destruct BB as [fs F]. exists fs. exact K. }
  assert (T : forall d, In d (List.concat bs) -> In d (root_dir (f_root b) :: List.concat bs ++ union_dirs "" (f_unions b))).
  { intros d D. right. apply in_or_app. left. exact D. }
  rewrite Forall_forall in S, U.
  intros x X. apply in_flat_map. apply in_app_or in X. destruct X as [X|X]; [|apply in_app_or in X; destruct X as [X|X];
    [|apply in_app_or in X; destruct X as [X|X]]].
  - exists (root_dir (f_root b)). split; [left; reflexivity|]. unfold types_of.
    rewrite root_bindings by exact R. exact X.
  - apply in_map_iff in X. destruct X as (i & <- & I). destruct (BI i I) as (fs & F).
    exists (node_dir (f_structs b) (f_root b) (si_name i)). split.
    + apply T, in_concat. eexists. split; [exact F|]. left; reflexivity.
    + unfold types_of. rewrite node_bindings by (auto; apply (S i I)). left; reflexivity.
  - apply in_map_iff in X. destruct X as (s & <- & I). apply in_map_iff in I. destruct I as (i & <- & I).
    destruct (BI i I) as (fs & F). exists (list_dir (si_name i)). split.
    + apply T, in_concat. eexists. split; [exact F|]. right; left; reflexivity.
    + unfold types_of. rewrite list_bindings by (apply (S i I)). left; reflexivity.
  - apply in_map_iff in X. destruct X as (u & <- & I). destruct (U u I) as (N & _).
    eexists. split; [right; apply in_or_app; right; unfold union_dirs; apply in_flat_map; exists u; split; [exact I|];
      change (passes "" (ui_name u)) with true; left; reflexivity|].
    unfold types_of. cbn [g_arg g_in]. rewrite union_bindings by exact N. left; reflexivity.
Qed.

Lemma results_provided : forall b ds, named_ok b -> types_long b ->
  Forall (fun s => plain s /\ capital s = true) (struct_names b ++ union_names b) ->
  all_types (resolved (f_structs b) (f_unions b)) b -> make_gen "" b = Ok ds ->
  forall d r, In d ds -> In r (results_of d) -> In r (flat_map types_of ds).
Proof.
  intros b ds NM T CAP RS E d r D RI. pose proof (fbs_ok_of b NM T) as OK.
  apply (provided b ds OK E). rewrite !in_app_iff.
  assert (G : g_in d = "../genny/field.go").
  { unfold results_of in RI. destruct (bindings (g_arg d)); [|contradiction].
    destruct (String.eqb_spec (g_in d) "../genny/field.go"); [assumption|contradiction]. }
  destruct (make_gen_in _ _ _ OK E D) as [->|[(i & I & [->|[->|(f & k & F & FD)]])|(v & V & [->| ->])]];
    try discriminate G.
  destruct OK as (_ & S & _). rewrite Forall_forall in S. destruct (S i I) as [N FO].
  rewrite Forall_forall in FO.
  destruct (field_init (f_structs b) (si_name i) k f N (FO f F)) as (d' & r' & FD' & _ & _ & _ & _ & RT & RO & _).
  rewrite FD in FD'. injection FD' as <-. rewrite RO in RI. destruct RI as [<-|[]].
  unfold all_types in RS. rewrite Forall_forall in RS. specialize (RS i I). rewrite Forall_forall in RS.
  destruct (result_of_type b (snd f) r' NM CAP (RS f F) RT) as [H|[H|[H|(s & H & ->)]]]; auto.
  right. right. left. apply (in_map (fun s => (s ++ "List")%string)) in H. exact H.
Qed.
