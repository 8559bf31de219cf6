(** Proofs about the text of the generator's directives. *)
From Coq Require Import ZArith List Bool String Ascii Lia DecimalString DecimalNat.
From Verif Require Import GoLib TableModel NameModel NameSpec ParserModel ParserSpec GenModel GenSpec.
Import ListNotations.
Open Scope string_scope.
Open Scope list_scope.

(** ** Strings *)

Lemma str_app_nil : forall s, (s ++ "")%string = s.
Proof. induction s; cbn; congruence. Qed.

Lemma str_app_assoc : forall a b c, ((a ++ b) ++ c)%string = (a ++ b ++ c)%string.
Proof. induction a; cbn; intros; congruence. Qed.

Lemma all_chars_app : forall p a b, all_chars p (a ++ b)%string = all_chars p a && all_chars p b.
Proof. induction a; cbn; intros; [reflexivity|]. rewrite IHa, andb_assoc. reflexivity. Qed.

Lemma all_chars_imp : forall (p q : ascii -> bool) s, (forall c, p c = true -> q c = true) ->
  all_chars p s = true -> all_chars q s = true.
Proof.
  induction s; cbn; intros H F; [reflexivity|]. apply andb_prop in F. destruct F as [F1 F2].
  rewrite H, IHs; auto.
Qed.

Definition other (x c : ascii) : bool := negb (Ascii.eqb c x).

Lemma word_char_other : forall x, word_char x = false -> forall c, word_char c = true -> other x c = true.
Proof.
  intros x X c C. unfold other. destruct (Ascii.eqb_spec c x); [subst; congruence|reflexivity].
Qed.

Lemma name_word : forall s, name_ok s = true -> all_chars word_char s = true.
Proof.
  destruct s as [|c s]; [discriminate|]. cbn. intros H. apply andb_prop in H. destruct H as [H1 H2].
  unfold word_char at 1. unfold name_char. rewrite H1. cbn.
  eapply all_chars_imp; [|exact H2]. intros d D. unfold word_char. rewrite D. reflexivity.
Qed.

(** ** Splitting *)

Lemma split_one : forall x s, all_chars (other x) s = true -> split_on x s = [s].
Proof.
  induction s as [|c s IH]; cbn; intros H; [reflexivity|]. apply andb_prop in H. destruct H as [H1 H2].
  unfold other in H1. apply negb_true_iff in H1. rewrite H1, (IH H2). reflexivity.
Qed.

Lemma split_next : forall x s r, all_chars (other x) s = true ->
  split_on x (s ++ String x r)%string = s :: split_on x r.
Proof.
  induction s as [|c s IH]; cbn; intros r H.
  - rewrite Ascii.eqb_refl. reflexivity.
  - apply andb_prop in H. destruct H as [H1 H2].
    unfold other in H1. apply negb_true_iff in H1. rewrite H1, (IH r H2). reflexivity.
Qed.

Fixpoint pairs_text (l : list (string * string)) : string :=
  match l with
  | [] => ""
  | [(k, v)] => (k ++ "=" ++ v)%string
  | (k, v) :: l' => ((k ++ "=" ++ v) ++ " " ++ pairs_text l')%string
  end.

(** A value: words separated by commas. *)
Definition value_char (c : ascii) : bool := word_char c || Ascii.eqb c ",".

Lemma value_other : forall x s, value_char x = false -> all_chars value_char s = true ->
  all_chars (other x) s = true.
Proof.
  intros x s X. apply all_chars_imp. intros c C. unfold other.
  destruct (Ascii.eqb_spec c x); [subst; congruence|reflexivity].
Qed.

Lemma word_value : forall s, all_chars word_char s = true -> all_chars value_char s = true.
Proof. intros s. apply all_chars_imp. intros c C. unfold value_char. rewrite C. reflexivity. Qed.

Definition pair_ok (kv : string * string) : Prop :=
  all_chars word_char (fst kv) = true /\ all_chars value_char (snd kv) = true.

Lemma pair_split : forall k v, pair_ok (k, v) -> split_on "=" (k ++ "=" ++ v)%string = [k; v].
Proof.
  intros k v [K V]. cbn in K, V. cbn [append].
  rewrite split_next by (apply value_other; [reflexivity|apply word_value; exact K]).
  rewrite split_one by (apply value_other; [reflexivity|exact V]). reflexivity.
Qed.

Lemma pair_blank : forall k v, pair_ok (k, v) ->
  all_chars (other " ") (k ++ "=" ++ v)%string = true.
Proof.
  intros k v [K V]. cbn in K, V. cbn [append].
  rewrite all_chars_app. cbn [all_chars].
  rewrite (value_other " " k), (value_other " " v);
    first [reflexivity | exact V | apply word_value; exact K].
Qed.

Lemma bindings_text : forall l, l <> [] -> Forall pair_ok l ->
  bindings (pairs_text l) = Some (map (fun kv => (fst kv, split_on "," (snd kv))) l).
Proof.
  unfold bindings. induction l as [|[k v] l IH]; [congruence|]. intros _ F.
  inversion F as [|? ? P FR]; subst. destruct l as [|kv l].
  - cbn [pairs_text]. rewrite (split_one " "%char) by (apply pair_blank; exact P).
    cbn [bindings_of]. rewrite pair_split by exact P. reflexivity.
  - change (pairs_text ((k, v) :: kv :: l)) with
      ((k ++ "=" ++ v) ++ String " " (pairs_text (kv :: l)))%string.
    rewrite split_next by (apply pair_blank; exact P).
    cbn [bindings_of]. rewrite pair_split by exact P.
    rewrite IH by (try congruence; exact FR). reflexivity.
Qed.

(** The argument of a directive: pairs of words. *)
Definition paired (d : directive) : Prop :=
  exists l, g_arg d = pairs_text l /\ Forall pair_ok l.

Lemma pairs_other : forall x l, value_char x = false -> x <> "="%char -> x <> " "%char -> Forall pair_ok l ->
  all_chars (other x) (pairs_text l) = true.
Proof.
  intros x l X XE XB.
  assert (OE : other x "=" = true) by (unfold other; destruct (Ascii.eqb_spec "=" x); [congruence|reflexivity]).
  assert (OB : other x " " = true) by (unfold other; destruct (Ascii.eqb_spec " " x); [congruence|reflexivity]).
  assert (P : forall k v, pair_ok (k, v) -> all_chars (other x) (k ++ "=" ++ v)%string = true).
  { intros k v [K V]. cbn in K, V. cbn [append]. rewrite all_chars_app. cbn [all_chars].
    rewrite (value_other x k), (value_other x v), OE;
      first [reflexivity | exact V | exact X | apply word_value; exact K]. }
  induction l as [|[k v] l IH]; intros F; [reflexivity|]. inversion F; subst.
  destruct l as [|kv l]; [apply P; assumption|].
  change (pairs_text ((k, v) :: kv :: l)) with
    ((k ++ "=" ++ v) ++ String " " (pairs_text (kv :: l)))%string.
  rewrite all_chars_app, P by assumption. cbn [all_chars]. rewrite OB, IH by assumption. reflexivity.
Qed.

(** ** Words *)

Lemma words_plain : forall s w r,
  all_chars (other " ") s = true -> all_chars (other """") s = true ->
  words_from false w (s ++ r)%string = words_from false (w ++ s)%string r.
Proof.
  induction s as [|c s IH]; cbn; intros w r H1 H2; [rewrite str_app_nil; reflexivity|].
  apply andb_prop in H1. apply andb_prop in H2. destruct H1 as [H1 H1'], H2 as [H2 H2'].
  unfold other in H1, H2. apply negb_true_iff in H1, H2. rewrite H1, H2. cbn.
  rewrite IH by auto. rewrite str_app_assoc. reflexivity.
Qed.

Lemma words_quoted : forall s w r, all_chars (other """") s = true ->
  words_from true w (s ++ String """" r)%string =
  match words_from false "" r with Some l => Some ((w ++ s)%string :: l) | None => None end.
Proof.
  induction s as [|c s IH]; cbn; intros w r H; [rewrite str_app_nil; reflexivity|].
  apply andb_prop in H. destruct H as [H1 H2].
  unfold other in H1. apply negb_true_iff in H1. rewrite H1.
  rewrite IH by auto. rewrite str_app_assoc. reflexivity.
Qed.

Definition path_word (s : string) : Prop :=
  all_chars (other " ") s = true /\ all_chars (other """") s = true /\ all_chars (other c_lf) s = true.

Lemma line_words : forall d, path_word (g_in d) -> path_word (g_out d) ->
  g_gap d = "" \/ g_gap d = " " -> all_chars (other """") (g_arg d) = true ->
  all_chars (other c_lf) (g_arg d) = true ->
  exists w, line d = (w ++ String c_lf "")%string /\ all_chars (other c_lf) w = true /\ commanded w d.
Proof.
  intros d (I1 & I2 & I3) (O1 & O2 & O3) G A A'.
  exists ("//go:generate go run github.com/cheekybits/genny -in=" ++ g_in d ++ " -out=" ++ g_out d
   ++ "  gen " ++ g_gap d ++ """" ++ g_arg d ++ """")%string.
  split; [|split; [|exists ("go run github.com/cheekybits/genny -in=" ++ g_in d ++ " -out=" ++ g_out d
   ++ "  gen " ++ g_gap d ++ """" ++ g_arg d ++ """")%string; split; [reflexivity|]]].
  - unfold line. cbn [append]. rewrite !str_app_assoc. cbn [append].
    rewrite !str_app_assoc. cbn [append]. rewrite !str_app_assoc. cbn [append].
    rewrite !str_app_assoc. reflexivity.
  - repeat (rewrite all_chars_app || cbn [append all_chars]). rewrite I3, O3, A'.
    destruct G as [-> | ->]; reflexivity.
  - unfold words. cbn. rewrite words_plain by auto. cbn. rewrite words_plain by auto. cbn.
    destruct G as [-> | ->]; cbn; rewrite words_quoted by auto; reflexivity.
Qed.

(** ** Numbers *)

Lemma dec_digits : forall u, all_chars (between "0" "9") (NilEmpty.string_of_uint u) = true.
Proof. induction u; cbn [NilEmpty.string_of_uint all_chars]; rewrite ?IHu; reflexivity. Qed.

Lemma dec_word : forall n, all_chars word_char (dec n) = true.
Proof.
  intros n. eapply all_chars_imp; [|apply dec_digits]. intros c C.
  unfold word_char, name_char. rewrite C, orb_true_r. reflexivity.
Qed.

Lemma atoi_dec : forall n, atoi (exported (dec n)) = Z.of_nat n.
Proof.
  intros n. unfold atoi, dec.
  replace (exported _) with (NilEmpty.string_of_uint (Nat.to_uint n))
    by (destruct (Nat.to_uint n); reflexivity).
  rewrite NilEmpty.usu, Unsigned.of_to. reflexivity.
Qed.

(** ** Result types *)

Lemma replace_chars : forall p old new s k, all_chars p new = true -> all_chars p s = true ->
  all_chars p (replace_from k old new s) = true.
Proof.
  induction s as [|c s IH]; intros k N S; [reflexivity|].
  cbn [all_chars] in S. apply andb_prop in S. destruct S as [S1 S2].
  cbn [replace_from]. destruct k; [|apply IH; auto].
  destruct (prefix old (String c s)).
  - rewrite all_chars_app, N, IH; auto.
  - cbn [all_chars]. rewrite S1, IH; auto.
Qed.

Lemma conv_chars : forall s, all_chars word_char s = true ->
  all_chars word_char (conv_result_type s) = true.
Proof.
  intros s S. unfold conv_result_type.
  assert (R : all_chars word_char (replace_all s "[]byte" "CommonNode") = true)
    by (apply replace_chars; [reflexivity|exact S]).
  destruct (prefix "[]" _); [|exact R].
  destruct (replace_all s "[]byte" "CommonNode") as [|c [|c' r]]; try exact R.
  cbn [all_chars] in R. rewrite !andb_true_iff in R. rewrite all_chars_app.
  destruct R as (_ & _ & R). rewrite R. reflexivity.
Qed.

Lemma str_upto_ok : forall n s, (n <= String.length s)%nat -> str_upto n s = Ok (substring 0 n s).
Proof. intros n s H. unfold str_upto. destruct (Nat.ltb_spec (String.length s) n); [lia|reflexivity]. Qed.

Lemma str_from_ok : forall n s, (n <= String.length s)%nat ->
  str_from n s = Ok (substring n (String.length s - n) s).
Proof. intros n s H. unfold str_from. destruct (Nat.ltb_spec (String.length s) n); [lia|reflexivity]. Qed.

Lemma sub_full : forall s, substring 0 (String.length s) s = s.
Proof. induction s; cbn; congruence. Qed.

Lemma prefix_vec : forall s, prefix "[]" s = true <-> exists e, s = ("[]" ++ e)%string.
Proof.
  intros s. split.
  - destruct s as [|a [|b s]]; [discriminate| |]; cbn [prefix]; destruct (ascii_dec "[" a); try discriminate.
    destruct (ascii_dec "]" b); try discriminate.
    subst. intros _. exists s. reflexivity.
  - intros [e ->]. destruct e; reflexivity.
Qed.

Lemma is_slice_spec : forall s, (2 <= String.length s)%nat -> is_slice s = Ok (prefix "[]" s).
Proof.
  intros s H. unfold is_slice. rewrite str_upto_ok by auto. cbn [bind]. f_equal.
  destruct s as [|a [|b s]]; cbn in H; try lia.
  destruct (prefix "[]" (String a (String b s))) eqn:P.
  - apply prefix_vec in P. destruct P as [e P]. injection P as -> -> ->. destruct e; reflexivity.
  - apply String.eqb_neq. intros Q.
    assert (a = "["%char /\ b = "]"%char) as [-> ->] by (destruct s; cbn in Q; injection Q; auto).
    change (prefix "[]" ("[]" ++ s)%string = false) in P.
    rewrite (proj2 (prefix_vec _)) in P by (exists s; reflexivity). discriminate P.
Qed.

Lemma is_basic_slice_spec : forall s, (2 <= String.length s)%nat ->
  (forall e, s = ("[]" ++ e)%string -> is_basic_slice s = Ok (has_name_type e)) /\
  (prefix "[]" s = false -> is_basic_slice s = Ok false).
Proof.
  intros s H. unfold is_basic_slice. rewrite is_slice_spec by auto. cbn [bind]. split.
  - intros e ->. rewrite (proj2 (prefix_vec _)) by (exists e; reflexivity).
    rewrite str_from_ok by auto. cbn [append String.length bind].
    replace (S (S (String.length e)) - 2)%nat with (String.length e) by lia.
    cbn [substring]. rewrite sub_full. destruct e; reflexivity.
  - intros ->. reflexivity.
Qed.

(** The result type is chosen by the form of the type. *)
Lemma result_type_cases : forall t, (2 <= String.length t)%nat ->
  result_type t = Ok
    (if has_name_type t then "CommonNode"
     else if prefix "[]" t
          then if has_name_type (substring 2 (String.length t - 2) t) then "List"
               else conv_result_type t
          else t).
Proof.
  intros t H. unfold result_type. destruct (has_name_type t); [reflexivity|].
  destruct (is_basic_slice_spec t H) as [B1 B2]. rewrite is_slice_spec by auto.
  destruct (prefix "[]" t) eqn:P.
  - apply prefix_vec in P. destruct P as [e ->]. rewrite (B1 e eq_refl). cbn [bind].
    replace (substring 2 _ _) with e.
    + destruct (has_name_type e); reflexivity.
    + cbn [append String.length substring].
      replace (S (S (String.length e)) - 2)%nat with (String.length e) by lia.
      rewrite sub_full. destruct e; reflexivity.
  - rewrite B2 by auto. reflexivity.
Qed.

Lemma result_type_word : forall t, (2 <= String.length t)%nat -> all_chars word_char t = true ->
  exists r, result_type t = Ok r /\ all_chars word_char r = true.
Proof.
  intros t H W. rewrite result_type_cases by auto. eexists; split; [reflexivity|].
  destruct (has_name_type t); [reflexivity|]. destruct (prefix "[]" t); [|exact W].
  destruct (has_name_type _); [reflexivity|]. apply conv_chars, W.
Qed.

(** ** What each directive is for *)

Lemma show_word : forall b, all_chars word_char (show_bool b) = true.
Proof. destruct b; reflexivity. Qed.

Lemma bool_back : forall b, to_bool (exported (show_bool b)) = b.
Proof. destruct b; reflexivity. Qed.

Lemma word_no_comma : forall s, all_chars word_char s = true -> split_on "," s = [s].
Proof.
  intros s W. apply split_one. eapply all_chars_imp; [|exact W].
  intros c. apply word_char_other. reflexivity.
Qed.

Lemma word_app : forall a b, all_chars word_char a = true -> all_chars word_char b = true ->
  all_chars word_char (a ++ b)%string = true.
Proof. intros. rewrite all_chars_app. rewrite H, H0. reflexivity. Qed.

Ltac pairs := repeat constructor; cbn [fst snd];
  auto using word_value, show_word, dec_word, name_word, word_app.

Lemma root_bindings : forall root, all_chars word_char root = true ->
  bindings (g_arg (root_dir root)) = Some [("RootType", [root])].
Proof.
  intros root R. change (g_arg (root_dir root)) with (pairs_text [("RootType", root)]).
  rewrite bindings_text; [|discriminate|pairs]. cbn [map fst snd]. rewrite word_no_comma by auto. reflexivity.
Qed.

Lemma node_bindings : forall ss root name,
  all_chars word_char root = true -> name_ok name = true ->
  bindings (g_arg (node_dir ss root name)) =
  Some [("NodeName", [name]); ("RootType", [root]); ("IsStruct", [show_bool (is_struct_name ss name)])].
Proof.
  intros ss root name R N.
  change (g_arg (node_dir ss root name)) with
    (pairs_text [("NodeName", name); ("RootType", root); ("IsStruct", show_bool (is_struct_name ss name))]).
  rewrite bindings_text; [|discriminate|pairs]. cbn [map fst snd].
  rewrite !word_no_comma by (auto using show_word, name_word). reflexivity.
Qed.

Lemma list_bindings : forall name, name_ok name = true ->
  bindings (g_arg (list_dir name)) =
  Some [("NodeName", [name]); ("ListType", [name ++ "List"]%string)].
Proof.
  intros name N.
  change (g_arg (list_dir name)) with
    (pairs_text [("NodeName", name); ("ListType", name ++ "List")%string]).
  rewrite bindings_text; [|discriminate|pairs]. cbn [map fst snd].
  rewrite !word_no_comma by (auto using name_word, word_app). reflexivity.
Qed.

Lemma field_bindings : forall ss name k f r, name_ok name = true -> name_ok (fst f) = true ->
  all_chars word_char (snd f) = true -> all_chars word_char r = true ->
  result_type (snd f) = Ok r ->
  exists d, field_dir ss name k f = Ok d /\ g_in d = "../genny/field.go" /\
    g_out d = ("../" ++ name ++ "." ++ fst f ++ ".gen.go")%string /\ g_gap d = " " /\ paired d /\
    bindings (g_arg d) =
    Some [("NodeName", [name]); ("FieldName", [fst f]); ("FieldType", [snd f]);
          ("ResultType", [r]); ("FieldNum", [dec k]);
          ("IsStruct", [show_bool (is_struct_name ss (snd f))])].
Proof.
  intros ss name k f r N F T R E. unfold field_dir. rewrite E. cbn [bind].
  eexists; split; [reflexivity|]. cbn [g_in g_out g_gap]. do 3 (split; [reflexivity|]).
  set (l := [("NodeName", name); ("FieldName", fst f); ("FieldType", snd f);
             ("ResultType", r); ("FieldNum", dec k);
             ("IsStruct", show_bool (is_struct_name ss (snd f)))]).
  assert (L : Forall pair_ok l) by (unfold l; pairs).
  split; [exists l; split; [reflexivity|exact L]|]. cbn [g_arg].
  match goal with |- bindings ?x = _ => change x with (pairs_text l) end.
  rewrite bindings_text; [|discriminate|exact L]. cbn [map fst snd l].
  rewrite !word_no_comma by (auto using name_word, show_word, dec_word). reflexivity.
Qed.

Lemma union_bindings : forall u, name_ok u = true -> bindings ("UnionName=" ++ u) = Some [("UnionName", [u])].
Proof.
  intros u U. change ("UnionName=" ++ u)%string with (pairs_text [("UnionName", u)]).
  rewrite bindings_text; [|discriminate|pairs]. cbn [map fst snd].
  rewrite !word_no_comma by (auto using name_word). reflexivity.
Qed.

Lemma split_join : forall l, l <> [] -> Forall (fun a => name_ok a = true) l ->
  split_on "," (join "," l) = l /\ all_chars value_char (join "," l) = true.
Proof.
  induction l as [|a l IH]; [congruence|]. intros _ F. inversion F as [|? ? A FR]; subst.
  apply name_word in A. destruct l as [|b l].
  - cbn [join]. split; [apply word_no_comma; exact A|apply word_value; exact A].
  - destruct IH as [I1 I2]; [discriminate|exact FR|].
    change (join "," (a :: b :: l)) with (a ++ String "," (join "," (b :: l)))%string.
    split.
    + rewrite split_next, I1; [reflexivity|].
      eapply all_chars_imp; [|exact A]. intros c. apply word_char_other. reflexivity.
    + rewrite all_chars_app. cbn [all_chars]. rewrite I2, (word_value _ A). reflexivity.
Qed.

Lemma alias_bindings : forall u l, name_ok u = true -> l <> [] -> Forall (fun a => name_ok a = true) l ->
  bindings ("UnionName=" ++ u ++ " AliasName=" ++ join "," l) =
  Some [("UnionName", [u]); ("AliasName", l)].
Proof.
  intros u l U L F. destruct (split_join l L F) as [S V].
  change ("UnionName=" ++ u ++ " AliasName=" ++ join "," l)%string with
    (pairs_text [("UnionName", u); ("AliasName", join "," l)]).
  rewrite bindings_text; [|discriminate|pairs]. cbn [map fst snd].
  rewrite word_no_comma by (auto using name_word). rewrite S. reflexivity.
Qed.
