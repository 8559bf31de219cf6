(** Proofs from the text of a schema to the tables of the generated package. *)
From Coq Require Import ZArith List Bool String Ascii Lia Permutation.
From Verif Require Import GoLib TableModel NameModel NameSpec NameProofs ParserModel ParserSpec
  ParserProofs5 GenModel GenSpec GenProofs GenProofs2 GenProofs3 GenProofs4 GenProofs5.
Import ListNotations.
Open Scope string_scope.
Open Scope list_scope.

(** ** The generator looks at names, kinds and fields only *)

Definition core (i : struct_info) : string * bool * list field := (si_name i, si_table i, si_fields i).

Lemma is_struct_core : forall ss ss' s, map core ss = map core ss' ->
  is_struct_name ss s = is_struct_name ss' s.
Proof.
  induction ss as [|i ss IH]; intros [|i' ss'] s E; try discriminate E; [reflexivity|].
  cbn [map] in E. injection E as N T _ E. unfold is_struct_name in *. cbn [existsb].
  rewrite N, T. f_equal. apply IH, E.
Qed.

Lemma field_dirs_core : forall ss ss' name fs k, map core ss = map core ss' ->
  field_dirs ss name k fs = field_dirs ss' name k fs.
Proof.
  intros ss ss' name fs. induction fs as [|f fs IH]; intros k E; [reflexivity|].
  cbn [field_dirs]. unfold field_dir. rewrite (is_struct_core ss ss' _ E). rewrite (IH _ E). reflexivity.
Qed.

Lemma struct_dirs_core : forall filter root ss ss' l l', map core ss = map core ss' -> map core l = map core l' ->
  struct_dirs filter root ss l = struct_dirs filter root ss' l'.
Proof.
  intros filter root ss ss'. induction l as [|i l IH]; intros [|i' l'] E F; try discriminate F; [reflexivity|].
  cbn [map] in F. injection F as N T FS F. cbn [struct_dirs]. rewrite N, FS.
  rewrite (field_dirs_core ss ss' _ _ _ E). unfold node_dir. rewrite (is_struct_core ss ss' _ E).
  rewrite (IH l' E F). reflexivity.
Qed.

Lemma make_gen_core : forall filter b b', f_root b = f_root b' -> f_unions b = f_unions b' ->
  map core (f_structs b) = map core (f_structs b') -> make_gen filter b = make_gen filter b'.
Proof.
  intros filter b b' R U S. unfold make_gen. rewrite R, U.
  rewrite (struct_dirs_core filter (f_root b') _ (f_structs b') _ (f_structs b') S S). reflexivity.
Qed.

Lemma same_core : forall ads l, Forall2 (same_struct (map ui_name (unions_in "" ads))) (structs_in "" ads) l ->
  map core l = map core (slotted ads).
Proof.
  intros ads l H. unfold slotted. induction H as [|s s' r r' (P & N & T & F & _) _ IH]; [reflexivity|].
  cbn [map]. f_equal; [|exact IH]. unfold core. cbn [si_name si_table si_fields]. rewrite N, T, F. reflexivity.
Qed.

(** ** What the grammar admits *)

Lemma camel_char : forall c, letter c = true -> c <> "_"%char ->
  letter (upper (lower c)) = true /\ between "A" "Z" (upper (lower c)) = true.
Proof.
  intros c. destruct c as [[|] [|] [|] [|] [|] [|] [|] [|]]; vm_compute; intros H N;
    try discriminate H; try (contradiction N; reflexivity); split; reflexivity.
Qed.

Lemma camel_chars : forall c, name_char c = true ->
  name_char (lower c) = true /\ name_char (upper (lower c)) = true.
Proof.
  intros c. destruct c as [[|] [|] [|] [|] [|] [|] [|] [|]]; vm_compute; intros H;
    try discriminate H; split; reflexivity.
Qed.

Lemma camel_from_chars : forall s b, all_chars name_char s = true -> all_chars name_char (camel_from b s) = true.
Proof.
  induction s as [|c s IH]; intros b H; [reflexivity|]. cbn [all_chars] in H. apply andb_prop in H.
  destruct H as [H1 H2]. cbn [camel_from]. destruct (Ascii.eqb c "_"); [apply IH, H2|].
  cbn [all_chars]. rewrite IH by exact H2. destruct (camel_chars c H1) as [A B]. destruct b; [rewrite B|rewrite A]; reflexivity.
Qed.

Lemma camel_name : forall s, name_ok s = true -> plain_name s = true ->
  name_ok (camel s) = true /\ capital (camel s) = true.
Proof.
  intros [|c s] N P; [discriminate N|]. cbn [name_ok] in N. apply andb_prop in N. destruct N as [L A].
  unfold plain_name in P. cbn [single_us] in P. unfold camel. cbn [camel_from].
  destruct (Ascii.eqb_spec c "_") as [->|D]; [discriminate P|].
  destruct (camel_char c L D) as [U B]. cbn [name_ok capital]. rewrite U, B, camel_from_chars by exact A.
  split; reflexivity.
Qed.

Lemma word_of_name : forall s, all_chars name_char s = true -> all_chars word_char s = true.
Proof.
  intros s H. eapply all_chars_imp; [|exact H]. intros c C. unfold word_char. rewrite C. reflexivity.
Qed.

Lemma name_chars : forall s, name_ok s = true -> all_chars name_char s = true.
Proof.
  intros [|c s] H; [discriminate|]. cbn in *. apply andb_prop in H. destruct H as [H1 H2].
  unfold name_char at 1. rewrite H1. exact H2.
Qed.

Lemma type_word : forall t, ty_ok t = true -> all_chars word_char (ty_go t) = true.
Proof.
  induction t as [k l|n l|t IH l]; intros H; cbn [ty_ok ty_go] in *.
  - destruct k; reflexivity.
  - apply andb_prop in H. destruct H as [H _]. apply andb_prop in H. destruct H as [H _].
    apply word_of_name, name_chars, H.
  - apply andb_prop in H. destruct H as [H _]. cbn [append all_chars]. rewrite IH by exact H. reflexivity.
Qed.

(** A slot the grammar admits. *)
Definition slot_ok (f : field) : Prop :=
  name_ok (fst f) = true /\ capital (fst f) = true /\ all_chars word_char (snd f) = true /\
  (2 <= String.length (snd f))%nat.

Lemma name_type : forall s, name_ok s = true -> name_ok (s ++ "Type") = true.
Proof.
  intros [|c s] H; [discriminate|]. cbn [append name_ok] in *. apply andb_prop in H. destruct H as [-> H].
  cbn [andb]. revert H. induction s as [|d s IH]; intros H; [reflexivity|]. cbn [append all_chars] in *.
  apply andb_prop in H. destruct H as [-> H]. apply IH, H.
Qed.

Lemma slots_ok : forall us fs, Forall slot_ok fs -> Forall slot_ok (slots us fs).
Proof.
  intros us fs H. unfold slots. induction H as [|f fs (N & C & W & L) _ IH]; [constructor|].
  cbn [flat_map]. destruct (existsb (String.eqb (snd f)) us).
  - cbn [app]. constructor; [|constructor; [repeat split; assumption|exact IH]].
    split; [apply name_type, N|]. split; [|split; [reflexivity|cbn; lia]].
    destruct f as [[|c n] t]; [discriminate C|exact C].
  - cbn [app]. constructor; [repeat split; assumption|exact IH].
Qed.

Lemma declared_slots : forall ds ns, forallb decl_ok ds = true -> forallb adecl_fits (map erase ds) = true ->
  Forall (fun i => name_ok (si_name i) = true /\ Forall slot_ok (si_fields i)) (structs_in ns (map erase ds)).
Proof.
  induction ds as [|d ds IH]; intros ns D F; [constructor|]. cbn [map forallb] in D, F.
  apply andb_prop in D. destruct D as [D1 D2]. apply andb_prop in F. destruct F as [F1 F2].
  destruct d; cbn [erase structs_in map]; auto.
  constructor; [|apply IH; assumption]. cbn [si_name si_fields].
  cbn [decl_ok] in D1. repeat (apply andb_prop in D1; destruct D1 as [D1 ?]).
  split; [assumption|]. cbn [erase adecl_fits] in F1. clear -F1 H0.
  rewrite forallb_forall in F1, H0. apply Forall_forall. intros f I. apply in_map_iff in I.
  destruct I as (x & <- & I). specialize (H0 x I). unfold fld_ok in H0.
  repeat (apply andb_prop in H0; destruct H0 as [H0 ?]).
  destruct (camel_name (fl_name x)) as [N C]; [assumption|assumption|].
  split; [exact N|]. split; [exact C|]. split; [apply type_word; assumption|].
  specialize (F1 (camel (fl_name x), ty_go (fl_type x))). cbn [snd] in *.
  assert (T : type_fits (ty_go (fl_type x)) = true).
  { apply F1. apply (in_map (fun f => (camel (fl_name f), ty_go (fl_type f)))) in I. exact I. }
  unfold type_fits in T. apply andb_prop in T. destruct T as [T _]. apply Nat.leb_le in T. exact T.
Qed.

Lemma declared_unions : forall ds ns, forallb decl_ok ds = true ->
  Forall (fun u => name_ok (ui_name u) = true /\ ui_aliases u <> [] /\
                   Forall (fun a => name_ok a = true) (ui_aliases u)) (unions_in ns (map erase ds)).
Proof.
  induction ds as [|d ds IH]; intros ns D; [constructor|]. cbn [map forallb] in D.
  apply andb_prop in D. destruct D as [D1 D2].
  destruct d; cbn [erase unions_in map]; auto.
  constructor; [|apply IH; assumption]. cbn [ui_name ui_aliases].
  cbn [decl_ok] in D1. repeat (apply andb_prop in D1; destruct D1 as [D1 ?]).
  split; [assumption|]. split; [destruct mbs; [discriminate|discriminate]|].
  rewrite forallb_forall in H0. apply Forall_forall. intros a I. apply in_map_iff in I.
  destruct I as (m & <- & I). specialize (H0 m I). unfold member_ok in H0.
  repeat (apply andb_prop in H0; destruct H0 as [H0 ?]). assumption.
Qed.

Lemma root_word : forall ds, forallb decl_ok ds = true -> all_chars word_char (last_root (map erase ds)) = true.
Proof.
  intros ds D. unfold last_root.
  assert (G : forall s, all_chars word_char s = true ->
    all_chars word_char (fold_left (fun s d => match d with ARoot p => p | _ => s end) (map erase ds) s) = true).
  { induction ds as [|d ds IH]; intros s S; [exact S|]. cbn [forallb] in D. apply andb_prop in D.
    destruct D as [D1 D2]. cbn [map fold_left]. apply IH; [exact D2|].
    destruct d; cbn [erase]; try exact S. cbn [decl_ok] in D1.
    repeat (apply andb_prop in D1; destruct D1 as [D1 ?]).
    destruct path as [|c p]; [reflexivity|]. unfold path_ok in H0.
    eapply all_chars_imp; [|exact H0]. cbv beta. intros x X. unfold word_char.
    destruct (name_char x), (Ascii.eqb x "."), (Ascii.eqb x "-"); try discriminate X;
      rewrite ?orb_true_r; reflexivity. }
  apply G. reflexivity.
Qed.

Lemma slotted_ok : forall ds, forallb decl_ok ds = true -> forallb adecl_fits (map erase ds) = true ->
  Forall (fun i => name_ok (si_name i) = true /\ Forall slot_ok (si_fields i)) (slotted (map erase ds)).
Proof.
  intros ds D F. unfold slotted. pose proof (declared_slots ds "" D F) as H.
  induction H as [|i l [N S] _ IH]; [constructor|]. cbn [map]. constructor; [|exact IH].
  cbn [si_name si_fields]. split; [exact N|apply slots_ok, S].
Qed.

Lemma schema_fbs_ok : forall ds, forallb decl_ok ds = true -> forallb adecl_fits (map erase ds) = true ->
  named_ok (schema_fbs (map erase ds)) /\ types_long (schema_fbs (map erase ds)) /\
  capital_fields (schema_fbs (map erase ds)).
Proof.
  intros ds D F. pose proof (slotted_ok ds D F) as S. rewrite Forall_forall in S.
  split; [split; [apply root_word, D|split; [|apply declared_unions, D]]|split].
  - apply Forall_forall. intros i I. destruct (S i I) as [N FS]. split; [exact N|].
    eapply Forall_impl; [|exact FS]. intros f (A & B & C & E). auto.
  - apply Forall_forall. intros i I. destruct (S i I) as [N FS].
    eapply Forall_impl; [|exact FS]. intros f (A & B & C & E). exact E.
  - apply Forall_forall. intros i I. destruct (S i I) as [N FS].
    eapply Forall_impl; [|exact FS]. intros f (A & B & C & E). exact B.
Qed.

(** ** From the text *)

Lemma schema_generates : forall filter ds, ds <> [] -> forallb decl_ok ds = true ->
  forallb adecl_fits (map erase ds) = true ->
  exists n b, (forall f, (n <= f)%nat -> main_schema f (schema_text ds) = Ok (true, b)) /\
    make_gen filter b = make_gen filter (schema_fbs (map erase ds)).
Proof.
  intros filter ds N D F. destruct (main_schema_text ds N D F) as (n & b & M & U & R & S).
  exists n, b. split; [exact M|]. apply make_gen_core; [exact R|exact U|]. apply same_core, S.
Qed.

Lemma schema_serves : forall ds, let s := schema_fbs (map erase ds) in
  ds <> [] -> forallb decl_ok ds = true -> forallb adecl_fits (map erase ds) = true ->
  distinct_names s -> separate s -> all_types (served (f_structs s) (f_unions s)) s ->
  exists n b dirs, (forall f, (n <= f)%nat -> main_schema f (schema_text ds) = Ok (true, b)) /\
    make_gen "" b = Ok dirs /\ forall files, Permutation (written dirs) files -> serves s files.
Proof.
  intros ds s N D F DN SEP SV. destruct (schema_generates "" ds N D F) as (n & b & M & G).
  destruct (schema_fbs_ok ds D F) as (NM & T & C).
  destruct (generated_steps "" s NM T) as (dirs & E & _).
  { destruct DN as [ND _]. apply NoDup_app_parts in ND. apply ND. }
  exists n, b, dirs. split; [exact M|]. split; [rewrite G; exact E|].
  intros files P. eapply package_serves; eauto.
Qed.

Lemma schema_steps : forall filter ds, let s := schema_fbs (map erase ds) in
  ds <> [] -> forallb decl_ok ds = true -> forallb adecl_fits (map erase ds) = true ->
  NoDup (struct_names s) ->
  exists n b dirs, (forall f, (n <= f)%nat -> main_schema f (schema_text ds) = Ok (true, b)) /\
    make_gen filter b = Ok dirs /\ flat_map init_of dirs = package_steps filter s.
Proof.
  intros filter ds s N D F ND. destruct (schema_generates filter ds N D F) as (n & b & M & G).
  destruct (schema_fbs_ok ds D F) as (NM & T & C).
  destruct (generated_steps filter s NM T ND) as (dirs & E & Q).
  exists n, b, dirs. split; [exact M|]. split; [rewrite G; exact E|exact Q].
Qed.

(** ** Lines *)

Lemma lines_split : forall ds, Forall readable ds ->
  exists ws, split_on c_lf (join "" (map line ds)) = ws ++ [""] /\ Forall2 commanded ws ds.
Proof.
  intros ds H. induction H as [|d ds (w & E & N & C) _ (ws & S & F)].
  - exists []. split; [reflexivity|constructor].
  - exists (w :: ws). split; [|constructor; assumption]. cbn [map].
    assert (J : join "" (line d :: map line ds) = (line d ++ join "" (map line ds))%string).
    { cbn [join]. destruct (map line ds); [rewrite str_app_nil; reflexivity|reflexivity]. }
    rewrite J, E, str_app_assoc. cbn [append]. rewrite split_next by exact N. rewrite S. reflexivity.
Qed.

Lemma generated_lines : forall filter b, named_ok b -> types_long b ->
  exists t ds ws, gen_text filter b = Ok t /\ make_gen filter b = Ok ds /\
    split_on c_lf t = ws ++ [""] /\ Forall2 commanded ws ds /\
    Forall (fun d => bindings (g_arg d) <> None) ds.
Proof.
  intros filter b NM T. pose proof (fbs_ok_of b NM T) as OK.
  destruct (make_gen_blocks filter b OK) as (bs & _ & E).
  pose proof (generated_readable filter b _ NM T E) as R.
  destruct (lines_split (root_dir (f_root b) :: List.concat bs ++ union_dirs filter (f_unions b))) as (ws & S & F).
  { eapply Forall_impl; [|exact R]. intros d D. apply D. }
  eexists _, _, ws. split; [unfold gen_text; rewrite E; reflexivity|]. split; [exact E|].
  split; [exact S|]. split; [exact F|]. eapply Forall_impl; [|exact R]. intros d D. apply D.
Qed.

Lemma schema_lines : forall filter ds, let s := schema_fbs (map erase ds) in
  ds <> [] -> forallb decl_ok ds = true -> forallb adecl_fits (map erase ds) = true ->
  exists n b t dirs ws, (forall f, (n <= f)%nat -> main_schema f (schema_text ds) = Ok (true, b)) /\
    gen_text filter b = Ok t /\ make_gen filter b = Ok dirs /\
    split_on c_lf t = ws ++ [""] /\ Forall2 commanded ws dirs /\
    Forall (fun d => bindings (g_arg d) <> None) dirs.
Proof.
  intros filter ds s N D F. destruct (schema_generates filter ds N D F) as (n & b & M & G).
  destruct (schema_fbs_ok ds D F) as (NM & T & C).
  destruct (generated_lines filter s NM T) as (t & dirs & ws & X1 & X2 & X3 & X4 & X5).
  exists n, b, t, dirs, ws. split; [exact M|].
  split; [unfold gen_text; rewrite G; exact X1|]. split; [rewrite G; exact X2|]. auto.
Qed.

Lemma schema_files : forall filter ds, let s := schema_fbs (map erase ds) in
  ds <> [] -> forallb decl_ok ds = true -> forallb adecl_fits (map erase ds) = true -> separate s ->
  exists n b dirs, (forall f, (n <= f)%nat -> main_schema f (schema_text ds) = Ok (true, b)) /\
    make_gen filter b = Ok dirs /\ NoDup (map g_out dirs) /\ written dirs = dirs.
Proof.
  intros filter ds s N D F SEP. destruct (schema_generates filter ds N D F) as (n & b & M & G).
  destruct (schema_fbs_ok ds D F) as (NM & T & C).
  destruct (make_gen_blocks filter s (fbs_ok_of s NM T)) as (bs & _ & E).
  destruct (files_separate filter s _ NM T SEP E) as [A B].
  eexists n, b, _. split; [exact M|]. rewrite G. eauto.
Qed.

Lemma schema_results : forall ds, let s := schema_fbs (map erase ds) in
  ds <> [] -> forallb decl_ok ds = true -> forallb adecl_fits (map erase ds) = true ->
  Forall (fun s => plain s /\ capital s = true) (struct_names s ++ union_names s) ->
  all_types (resolved (f_structs s) (f_unions s)) s ->
  exists n b dirs, (forall f, (n <= f)%nat -> main_schema f (schema_text ds) = Ok (true, b)) /\
    make_gen "" b = Ok dirs /\
    forall d r, In d dirs -> In r (results_of d) -> In r (flat_map types_of dirs).
Proof.
  intros ds s N D F CAP RS. destruct (schema_generates "" ds N D F) as (n & b & M & G).
  destruct (schema_fbs_ok ds D F) as (NM & T & C).
  destruct (make_gen_blocks "" s (fbs_ok_of s NM T)) as (bs & _ & E).
  pose proof (results_provided s _ NM T CAP RS E) as R.
  eexists n, b, _. split; [exact M|]. rewrite G. eauto.
Qed.
