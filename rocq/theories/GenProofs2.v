(** Proofs about the directives of a schema and the initializers they lead
    to. *)
From Coq Require Import ZArith List Bool String Ascii Lia.
From Verif Require Import GoLib TableModel NameModel NameSpec ParserModel ParserSpec GenModel GenSpec
  GenProofs.
Import ListNotations.
Open Scope string_scope.
Open Scope list_scope.

(** ** Initializers of one directive *)

Lemma root_init : forall root, init_of (root_dir root) = [].
Proof. intros. unfold init_of. destruct (bindings _); reflexivity. Qed.

Lemma list_init : forall name, init_of (list_dir name) = [].
Proof. intros. unfold init_of. destruct (bindings _); reflexivity. Qed.

Lemma node_init : forall ss root name, all_chars word_char root = true -> name_ok name = true ->
  init_of (node_dir ss root name) = [IStruct (exported name) (is_struct_name ss name)].
Proof.
  intros. unfold init_of. rewrite node_bindings by auto. cbn -[to_bool exported].
  rewrite bool_back. reflexivity.
Qed.

Definition field_ok (f : field) : Prop :=
  name_ok (fst f) = true /\ all_chars word_char (snd f) = true /\ (2 <= String.length (snd f))%nat.

Lemma field_init : forall ss name k f, name_ok name = true -> field_ok f ->
  exists d r, field_dir ss name k f = Ok d /\ g_in d = "../genny/field.go" /\
    g_out d = ("../" ++ name ++ "." ++ fst f ++ ".gen.go")%string /\ g_gap d = " " /\ paired d /\
    result_type (snd f) = Ok r /\ results_of d = [r] /\ types_of d = [] /\
    init_of d = [IField (exported name) (exported (fst f)) (exported (snd f)) (Z.of_nat k)].
Proof.
  intros ss name k f N (F & T & L). destruct (result_type_word (snd f) L T) as (r & R & W).
  destruct (field_bindings ss name k f r N F T W R) as (d & E & I & O & G & P & B).
  exists d, r. rewrite E, I, O, G. repeat (split; [first [reflexivity|assumption]|]).
  unfold results_of, types_of, init_of. rewrite B, I. cbn -[exported atoi dec]. rewrite atoi_dec.
  auto.
Qed.

Lemma fields_init : forall ss name fs k, name_ok name = true -> Forall field_ok fs ->
  exists ds, field_dirs ss name k fs = Ok ds /\
    map g_out ds = map (fun f => "../" ++ name ++ "." ++ fst f ++ ".gen.go")%string fs /\
    Forall (fun d => g_in d = "../genny/field.go" /\ g_gap d = " " /\ paired d /\ types_of d = []) ds /\
    Forall2 (fun f d => exists r, result_type (snd f) = Ok r /\ results_of d = [r]) fs ds /\
    flat_map init_of ds =
    map (fun kf => IField (exported name) (exported (fst (snd kf))) (exported (snd (snd kf)))
                          (Z.of_nat (fst kf))) (combine (seq k (List.length fs)) fs).
Proof.
  intros ss name. induction fs as [|f fs IH]; intros k N F.
  - exists []. repeat split; constructor.
  - inversion F; subst. destruct (field_init ss name k f N H1) as (d & r & E & I & O & G & P & R & RO & TO & IN).
    destruct (IH (S k) N H2) as (ds & E' & O' & A' & R' & IN').
    exists (d :: ds). cbn [field_dirs]. rewrite E. cbn [bind]. rewrite E'. cbn [bind].
    split; [reflexivity|]. cbn [map]. rewrite O, O'. split; [reflexivity|].
    split; [constructor; auto|]. split; [constructor; eauto|].
    cbn [flat_map]. rewrite IN, IN'. reflexivity.
Qed.

Lemma union_init : forall u, name_ok (ui_name u) = true -> ui_aliases u <> [] ->
  Forall (fun a => name_ok a = true) (ui_aliases u) ->
  flat_map init_of (union_dirs "" [u]) = map (fun a => IAlias (exported (ui_name u)) (exported a)) (ui_aliases u).
Proof.
  intros u U A F. unfold union_dirs. cbn [flat_map]. change (passes "" (ui_name u)) with true.
  cbv iota. rewrite app_nil_r. cbn [flat_map]. rewrite app_nil_r.
  unfold init_of. cbn [g_arg g_in].
  rewrite (union_bindings _ U), (alias_bindings _ _ U A F).
  cbn -[exported]. rewrite !app_nil_r. reflexivity.
Qed.

(** ** Initializers of the schema *)

Lemma exported_upper : forall s, exported s = first_upper s.
Proof. reflexivity. Qed.

Lemma passes_wanted : forall f n, passes f n = wanted f n.
Proof. intros. unfold passes, wanted. rewrite (String.eqb_sym f n). reflexivity. Qed.

Lemma is_struct_in : forall ss i, NoDup (map si_name ss) -> In i ss ->
  is_struct_name ss (si_name i) = negb (si_table i).
Proof.
  intros ss i ND I. unfold is_struct_name. destruct (si_table i) eqn:T; cbn.
  - destruct (existsb _ ss) eqn:E; [|reflexivity]. exfalso. apply existsb_exists in E.
    destruct E as (j & J & E). apply andb_prop in E. destruct E as [E1 E2].
    apply String.eqb_eq in E2.
    assert (i = j); [|subst; rewrite T in E1; discriminate].
    clear -ND I J E2. induction ss as [|x ss IH]; [contradiction|].
    cbn in ND. inversion ND; subst. destruct I as [->|I], J as [->|J]; auto.
    + exfalso. apply H1. rewrite <- E2. apply in_map, J.
    + exfalso. apply H1. rewrite E2. apply in_map, I.
  - apply existsb_exists. exists i. rewrite T, String.eqb_refl. auto.
Qed.

Definition struct_ok (i : struct_info) : Prop := name_ok (si_name i) = true /\ Forall field_ok (si_fields i).

(** The directives of one struct, apart from its fields. *)
Inductive block (ss : list struct_info) (root : string) (i : struct_info) : list directive -> Prop :=
| Block : forall fs,
    field_dirs ss (si_name i) 0 (si_fields i) = Ok fs ->
    block ss root i (node_dir ss root (si_name i) :: list_dir (si_name i) :: fs).

Lemma struct_dirs_blocks : forall filter root ss l, Forall struct_ok l ->
  exists bs, Forall2 (block ss root) (List.filter (fun i => wanted filter (si_name i)) l) bs /\
    struct_dirs filter root ss l = Ok (List.concat bs).
Proof.
  induction l as [|i l IH]; intros F.
  - exists []. split; [constructor|reflexivity].
  - inversion F as [|? ? [N FF] FR]; subst. destruct (IH FR) as (bs & B & E).
    cbn [struct_dirs List.filter]. rewrite passes_wanted. destruct (wanted filter (si_name i)).
    + destruct (fields_init ss (si_name i) (si_fields i) 0 N FF) as (fs & EF & _).
      exists ((node_dir ss root (si_name i) :: list_dir (si_name i) :: fs) :: bs).
      split; [constructor; [constructor; exact EF|exact B]|].
      rewrite EF. cbn [bind]. rewrite E. reflexivity.
    + exists bs. auto.
Qed.

Lemma block_init : forall ss root i ds, all_chars word_char root = true -> struct_ok i ->
  NoDup (map si_name ss) -> In i ss -> block ss root i ds ->
  flat_map init_of ds = struct_steps i.
Proof.
  intros ss root i ds R [N F] ND I B. inversion B as [fs E]; subst.
  destruct (fields_init ss (si_name i) (si_fields i) 0 N F) as (fs' & EF & _ & _ & _ & IN).
  rewrite E in EF. injection EF as <-.
  cbn [flat_map]. rewrite node_init, list_init, IN, is_struct_in by auto. reflexivity.
Qed.

Lemma union_dirs_init : forall filter us,
  Forall (fun u => name_ok (ui_name u) = true /\ ui_aliases u <> [] /\
                   Forall (fun a => name_ok a = true) (ui_aliases u)) us ->
  flat_map init_of (union_dirs filter us) =
  flat_map union_steps (List.filter (fun u => wanted filter (ui_name u)) us).
Proof.
  induction us as [|u us IH]; intros F; [reflexivity|].
  inversion F as [|? ? (U & A & M) FR]; subst. unfold union_dirs. cbn [flat_map List.filter].
  fold (union_dirs filter us). rewrite flat_map_app, (IH FR), passes_wanted.
  destruct (wanted filter (ui_name u)) eqn:W; [|reflexivity].
  cbn [flat_map]. f_equal. pose proof (union_init u U A M) as UI. unfold union_dirs in UI.
  cbn [flat_map] in UI. change (passes "" (ui_name u)) with true in UI. cbv iota in UI.
  rewrite app_nil_r in UI. exact UI.
Qed.

Definition fbs_ok (b : fbs) : Prop :=
  all_chars word_char (f_root b) = true /\ Forall struct_ok (f_structs b) /\
  Forall (fun u => name_ok (ui_name u) = true /\ ui_aliases u <> [] /\
                   Forall (fun a => name_ok a = true) (ui_aliases u)) (f_unions b).

Lemma fbs_ok_of : forall b, named_ok b -> types_long b -> fbs_ok b.
Proof.
  intros b (R & S & U) T. split; [exact R|]. split; [|exact U].
  unfold types_long in T. rewrite Forall_forall in *. intros i I. specialize (S i I). specialize (T i I).
  cbv beta in *. destruct S as [N F]. split; [exact N|].
  rewrite Forall_forall in *. intros f Hf. specialize (F f Hf). specialize (T f Hf).
  cbv beta in *. destruct F. repeat split; auto.
Qed.

Lemma make_gen_blocks : forall filter b, fbs_ok b ->
  exists bs, Forall2 (block (f_structs b) (f_root b))
                     (List.filter (fun i => wanted filter (si_name i)) (f_structs b)) bs /\
    make_gen filter b =
    Ok (root_dir (f_root b) :: List.concat bs ++ union_dirs filter (f_unions b)).
Proof.
  intros filter b (R & S & U).
  destruct (struct_dirs_blocks filter (f_root b) (f_structs b) (f_structs b) S) as (bs & B & E).
  exists bs. split; [exact B|]. unfold make_gen. rewrite E. reflexivity.
Qed.

Lemma generated_steps : forall filter b, named_ok b -> types_long b -> NoDup (struct_names b) ->
  exists ds, make_gen filter b = Ok ds /\ flat_map init_of ds = package_steps filter b.
Proof.
  intros filter b NM T ND. pose proof (fbs_ok_of b NM T) as OK.
  destruct (make_gen_blocks filter b OK) as (bs & B & E). eexists. split; [exact E|].
  destruct OK as (R & S & U). cbn [flat_map]. rewrite root_init. cbn [app].
  rewrite flat_map_app, union_dirs_init by exact U. unfold package_steps. f_equal.
  assert (K : forall l bs, incl l (f_structs b) ->
    Forall2 (block (f_structs b) (f_root b)) l bs -> flat_map init_of (List.concat bs) = flat_map struct_steps l).
  { clear -R S ND. induction l as [|i l IH]; intros bs L F; inversion F; subst; [reflexivity|].
    cbn [List.concat flat_map]. rewrite flat_map_app.
    rewrite (block_init (f_structs b) (f_root b) i y), (IH l'); auto.
    - intros x X. apply L. right; exact X.
    - rewrite Forall_forall in S. apply S, L. left; reflexivity.
    - apply L. left; reflexivity. }
  apply K; [|exact B]. intros x X. apply filter_In in X. apply X.
Qed.

(** ** Every line is read back *)

Definition readable (d : directive) : Prop :=
  exists w, line d = (w ++ String c_lf "")%string /\ all_chars (other c_lf) w = true /\ commanded w d.

Lemma path_word_app : forall a b, path_word a -> path_word b -> path_word (a ++ b)%string.
Proof.
  intros a b (A1 & A2 & A3) (B1 & B2 & B3).
  repeat split; rewrite all_chars_app; rewrite ?A1, ?A2, ?A3, ?B1, ?B2, ?B3; reflexivity.
Qed.

Lemma path_word_word : forall a, all_chars word_char a = true -> path_word a.
Proof.
  intros a A. repeat split; (eapply all_chars_imp; [|exact A]); intros c; apply word_char_other; reflexivity.
Qed.

Lemma path_const : forall a, all_chars (other " ") a && (all_chars (other """") a && all_chars (other c_lf) a) = true ->
  path_word a.
Proof. intros a A. apply andb_prop in A. destruct A as [A B]. apply andb_prop in B. split; assumption. Qed.

Ltac path := repeat apply path_word_app; try (apply path_const; reflexivity);
  try (apply path_word_word, name_word; assumption).

Lemma paired_readable : forall d, path_word (g_in d) -> path_word (g_out d) ->
  g_gap d = "" \/ g_gap d = " " -> paired d -> readable d.
Proof.
  intros d I O G (l & E & P).
  apply line_words; auto; rewrite E; apply pairs_other; first [exact P | reflexivity | discriminate].
Qed.

Lemma union_readable : forall filter us d,
  Forall (fun u => name_ok (ui_name u) = true /\ ui_aliases u <> [] /\
                   Forall (fun a => name_ok a = true) (ui_aliases u)) us ->
  In d (union_dirs filter us) -> readable d /\ bindings (g_arg d) <> None.
Proof.
  intros filter us d F I. unfold union_dirs in I. apply in_flat_map in I. destruct I as (u & U & D).
  rewrite Forall_forall in F. destruct (F u U) as (N & A & M).
  destruct (passes filter (ui_name u)); [|destruct D]. destruct D as [<-|[<-|[]]]; split.
  - apply paired_readable; cbn [g_in g_out g_gap]; auto; [path|path|].
    exists [("UnionName", ui_name u)]. split; [reflexivity|pairs].
  - cbn [g_arg]. rewrite union_bindings by auto. discriminate.
  - apply paired_readable; cbn [g_in g_out g_gap]; auto; [path|path|].
    exists [("UnionName", ui_name u); ("AliasName", join "," (ui_aliases u))].
    split; [reflexivity|pairs]. apply split_join; auto.
  - cbn [g_arg]. rewrite alias_bindings by auto. discriminate.
Qed.

Lemma generated_readable : forall filter b ds, named_ok b -> types_long b -> make_gen filter b = Ok ds ->
  Forall (fun d => readable d /\ bindings (g_arg d) <> None) ds.
Proof.
  intros filter b ds NM T E. pose proof (fbs_ok_of b NM T) as OK.
  destruct (make_gen_blocks filter b OK) as (bs & B & E'). rewrite E in E'. injection E' as ->.
  destruct OK as (R & S & U). constructor; [|apply Forall_app; split].
  - split.
    + apply paired_readable; cbn [g_in g_out g_gap root_dir]; auto; [path|path|].
      exists [("RootType", f_root b)]. split; [reflexivity|pairs].
    + rewrite root_bindings by auto. discriminate.
  - apply Forall_concat.
    assert (K : forall l bs, Forall struct_ok l ->
      Forall2 (block (f_structs b) (f_root b)) l bs ->
      Forall (Forall (fun d => readable d /\ bindings (g_arg d) <> None)) bs).
    { clear -R. induction l as [|i l IH]; intros bs L F; inversion F; subst; [constructor|].
      inversion L as [|? ? [N FF] LR]; subst. constructor; [|auto].
      destruct H1 as [fs EF]. constructor; [|constructor].
      - split.
        + apply paired_readable; cbn [g_in g_out g_gap node_dir]; auto; [path|path|].
          exists [("NodeName", si_name i); ("RootType", f_root b);
                  ("IsStruct", show_bool (is_struct_name (f_structs b) (si_name i)))].
          split; [reflexivity|pairs].
        + rewrite node_bindings by auto. discriminate.
      - split.
        + apply paired_readable; cbn [g_in g_out g_gap list_dir]; auto; [path|path|].
          exists [("NodeName", si_name i); ("ListType", (si_name i ++ "List")%string)].
          split; [reflexivity|pairs].
        + rewrite list_bindings by auto. discriminate.
      - clear -N FF EF. revert EF. generalize 0%nat. revert fs.
        induction (si_fields i) as [|f l IH]; intros fs k EF.
        + cbn in EF. injection EF as <-. constructor.
        + inversion FF; subst. cbn [field_dirs] in EF.
          destruct (field_init (f_structs b) (si_name i) k f N H1) as (d & r & E & I & O & G & P & RT & RO & TO & IN).
          rewrite E in EF. cbn [bind] in EF.
          destruct (field_dirs (f_structs b) (si_name i) (S k) l) as [r'| |] eqn:E2; try discriminate.
          cbn [bind] in EF. injection EF as <-. constructor; [|eapply IH; eauto].
          destruct H1 as (NF & _ & _). split.
          * apply paired_readable; rewrite ?I, ?O; auto; path.
          * unfold init_of in IN. destruct (bindings (g_arg d)); congruence. }
    apply (K (List.filter (fun i => wanted filter (si_name i)) (f_structs b))); [|exact B].
    rewrite Forall_forall in *. intros i I. apply filter_In in I. apply S, I.
  - apply Forall_forall. intros d D. eapply union_readable; eauto.
Qed.
