(** Post-processing: the type fields of unions. *)
From Coq Require Import List Bool String Ascii Arith Lia.
From Verif Require Import GoLib ParserModel ParserSpec ParserProofs ParserProofs2 ParserProofs3 ParserProofs4.
Import ListNotations.
Open Scope string_scope.
Open Scope list_scope.

Lemma substring_all s : substring 0 (String.length s) s = s.
Proof. induction s as [|c s IH]; [reflexivity|]. cbn. rewrite IH. reflexivity. Qed.

Lemma substring_0_0 s : substring 0 0 s = "".
Proof. destruct s; reflexivity. Qed.

Lemma str_from_2 a b v : str_from 2 (String a (String b v)) = Ok v.
Proof.
  unfold str_from. cbn [String.length Nat.ltb Nat.leb].
  change (substring 2 (S (S (String.length v)) - 2) (String a (String b v)))
    with (substring 0 (S (S (String.length v)) - 2) v).
  replace (S (S (String.length v)) - 2) with (String.length v) by lia.
  rewrite substring_all. reflexivity.
Qed.

(** What the case analysis on a type comes down to. *)
Lemma type_cases t :
  type_fits t = true ->
  (exists c u, t = String "[" (String "]" (String c u))) \/
  (exists c1 c2 u, t = String c1 (String c2 u) /\ (c1 = "[" -> c2 = "]" -> False)%char).
Proof.
  intros F. destruct t as [|c1 [|c2 u]]; try discriminate F.
  destruct (Ascii.eqb_spec c1 "[") as [->|N1]; [destruct (Ascii.eqb_spec c2 "]") as [->|N2]|].
  - destruct u as [|c u]; [discriminate F|]. left. eauto.
  - right. exists "["%char, c2, u. split; auto.
  - right. exists c1, c2, u. split; auto.
Qed.

Lemma not_slice c1 c2 : (c1 = "[" -> c2 = "]" -> False)%char ->
  String.eqb (String c1 (String c2 "")) "[]" = false.
Proof.
  intros N. apply String.eqb_neq. intros E. inversion E. auto.
Qed.

Lemma is_union_names us t : is_union us t = existsb (String.eqb t) (map ui_name us).
Proof.
  unfold is_union. induction us as [|u us IH]; [reflexivity|]. cbn [existsb map].
  rewrite IH, String.eqb_sym. reflexivity.
Qed.

Lemma not_union us t :
  forallb (fun u => capital (ui_name u)) us = true -> capital t = false ->
  existsb (String.eqb t) (map ui_name us) = false.
Proof.
  intros U T. induction us as [|u us IH]; [reflexivity|]. cbn [forallb map existsb] in *.
  apply andb_prop in U. destruct U as [U1 U2]. rewrite (IH U2), orb_false_r.
  destruct (String.eqb_spec t (ui_name u)) as [->|]; [congruence|reflexivity].
Qed.

Lemma capital_upper c u : capital (String c u) = true -> is_upper_s (String c "") = true.
Proof.
  cbn [capital]. unfold is_upper_s. cbn [map_s]. intros C. unfold upper.
  destruct (between "a" "z" c) eqn:L; [|apply String.eqb_refl].
  apply orb_prop in C. destruct C as [C|C].
  - exfalso. unfold between in *.
    apply andb_prop in C. apply andb_prop in L. destruct C as [C1 C2]. destruct L as [L1 L2].
    rewrite Nat.leb_le in *.
    change (nat_of_ascii "Z") with 90 in *. change (nat_of_ascii "a") with 97 in *. lia.
  - apply Ascii.eqb_eq in C. subst c. discriminate L.
Qed.

Lemma finalize_field_slots us f :
  forallb (fun u => capital (ui_name u)) us = true -> type_fits (snd f) = true ->
  finalize_field us f = Ok (slots (map ui_name us) [f], union_fields (map ui_name us) [f]).
Proof.
  intros U F. destruct f as [n t]. cbn [snd] in F. unfold finalize_field, slots, union_fields.
  cbn [flat_map filter fst snd]. rewrite app_nil_r. unfold element_type.
  destruct (type_cases t F) as [(c & u & ->)|(c1 & c2 & u & -> & N)].
  - rewrite (not_union us (String "[" (String "]" (String c u)))) by auto.
    cbn [str_upto String.length Nat.ltb Nat.leb substring bind String.eqb Ascii.eqb Bool.eqb].
    unfold str_upto. cbn [String.length Nat.ltb Nat.leb substring bind].
    rewrite ?substring_0_0. cbn [String.eqb Ascii.eqb Bool.eqb bind].
    replace (S (S (S (String.length u))) - 2)%nat with (String.length (String c u)) by (cbn [String.length]; lia).
    cbn [String.length]. rewrite substring_all.
    destruct (is_upper_s _) eqn:UP.
    + rewrite str_from_2. cbn [bind append]. rewrite is_union_names. destruct (existsb _ _); reflexivity.
    + rewrite (not_union us (String c u)); [reflexivity|exact U|].
      destruct (capital (String c u)) eqn:C; [|reflexivity].
      apply capital_upper in C. unfold is_upper_s in *. cbn [map_s] in *. exfalso.
      apply String.eqb_eq in C. injection C as C. rewrite C in UP. rewrite String.eqb_refl in UP. discriminate.
  - unfold str_upto. cbn [String.length Nat.ltb Nat.leb substring bind].
    rewrite ?substring_0_0, (not_slice c1 c2 N). cbn [bind].
    rewrite ?substring_0_0.
    destruct (is_upper_s (String c1 "")) eqn:UP.
    + rewrite is_union_names. destruct (existsb _ _); reflexivity.
    + rewrite not_union; [reflexivity|exact U|].
      destruct (capital (String c1 (String c2 u))) eqn:C; [|reflexivity].
      apply capital_upper in C. congruence.
Qed.

Lemma finalize_fields_slots us fs :
  forallb (fun u => capital (ui_name u)) us = true ->
  forallb (fun f => type_fits (snd f)) fs = true ->
  finalize_fields us fs = Ok (slots (map ui_name us) fs, union_fields (map ui_name us) fs).
Proof.
  intros U. induction fs as [|f fs IH]; cbn [forallb finalize_fields]; intros F.
  - reflexivity.
  - apply andb_prop in F. destruct F as [F1 F2].
    rewrite (finalize_field_slots us f U F1), (IH F2). cbn [bind]. f_equal. f_equal.
    + unfold slots. cbn [flat_map]. rewrite app_nil_r. reflexivity.
    + unfold union_fields. cbn [filter]. destruct (existsb _ _); reflexivity.
Qed.

Lemma slots_fit us fs :
  forallb (fun f => type_fits (snd f)) fs = true ->
  forallb (fun f => type_fits (snd f)) (slots us fs) = true.
Proof.
  induction fs as [|f fs IH]; [reflexivity|]. cbn [forallb]. intros F.
  apply andb_prop in F. destruct F as [F1 F2]. unfold slots. cbn [flat_map].
  fold (slots us fs). destruct (existsb _ us); cbn [app forallb snd]; rewrite F1, IH; auto.
Qed.

Lemma finalize_structs_slots us l :
  forallb (fun u => capital (ui_name u)) us = true ->
  Forall (fun s => forallb (fun f => type_fits (snd f)) (si_fields s) = true) l ->
  exists l', finalize_structs us l = Ok l' /\ Forall2 (same_struct (map ui_name us)) l l'.
Proof.
  intros U. induction l as [|s l IH]; intros F; cbn [finalize_structs].
  - eexists. split; [reflexivity|constructor].
  - inversion F; subst. pose proof (finalize_fields_slots us (si_fields s) U H1) as E.
    destruct (IH H2) as (l' & E' & R). rewrite E. cbn [bind]. rewrite E'. cbn [bind].
    eexists. split; [reflexivity|]. constructor; [|exact R]. unfold same_struct. cbn. auto.
Qed.

Lemma marks_struct_ok ss me f : type_fits (snd f) = true -> exists b, marks_struct ss me f = Ok b.
Proof.
  intros F. destruct f as [n t]. cbn [snd] in F. unfold marks_struct.
  destruct (type_cases t F) as [(c & u & ->)|(c1 & c2 & u & -> & N)].
  - unfold str_upto. cbn [String.length Nat.ltb Nat.leb substring bind].
    rewrite ?substring_0_0. cbn [String.eqb Ascii.eqb Bool.eqb].
    rewrite str_from_2. cbn [bind String.length Nat.ltb Nat.leb substring].
    rewrite ?substring_0_0. destruct (String.eqb (String c "") "*"); eexists; reflexivity.
  - unfold str_upto. cbn [String.length Nat.ltb Nat.leb substring bind].
    rewrite ?substring_0_0, (not_slice c1 c2 N). cbn [bind].
    cbn [String.length Nat.ltb Nat.leb substring bind].
    rewrite ?substring_0_0. destruct (String.eqb (String c1 "") "*"); eexists; reflexivity.
Qed.

Lemma marked_fields_ok ss me l :
  forallb (fun f => type_fits (snd f)) l = true -> exists r, marked_fields ss me l = Ok r.
Proof.
  induction l as [|f l IH]; cbn [forallb marked_fields]; intros F; [eexists; reflexivity|].
  apply andb_prop in F. destruct F as [F1 F2].
  destruct (marks_struct_ok ss me f F1) as [b E]. destruct (IH F2) as [r R].
  rewrite E, R. cbn [bind]. eexists. reflexivity.
Qed.

Definition same_struct' (s s' : struct_info) : Prop :=
  si_pkg s' = si_pkg s /\ si_name s' = si_name s /\ si_table s' = si_table s /\
  si_fields s' = si_fields s /\ si_union s' = si_union s.

Lemma search_not_table_ok all l :
  Forall (fun s => forallb (fun f => type_fits (snd f)) (si_fields s) = true) l ->
  exists l', search_not_table all l = Ok l' /\ Forall2 same_struct' l l'.
Proof.
  induction l as [|s l IH]; intros F; cbn [search_not_table].
  - eexists. split; [reflexivity|constructor].
  - inversion F; subst. destruct (marked_fields_ok all (si_name s) (si_fields s) H1) as [m E].
    destruct (IH H2) as (l' & E' & R). rewrite E. cbn [bind]. rewrite E'. cbn [bind].
    eexists. split; [reflexivity|]. constructor; [|exact R]. unfold same_struct'. cbn. auto.
Qed.

Lemma finalize_slots b :
  forallb (fun u => capital (ui_name u)) (f_unions b) = true ->
  Forall (fun s => forallb (fun f => type_fits (snd f)) (si_fields s) = true) (f_structs b) ->
  exists b', finalize b = Ok b' /\ f_unions b' = f_unions b /\ f_root b' = f_root b /\
             f_namespace b' = f_namespace b /\
             Forall2 (same_struct (map ui_name (f_unions b))) (f_structs b) (f_structs b').
Proof.
  intros U F. unfold finalize.
  destruct (finalize_structs_slots (f_unions b) (f_structs b) U F) as (ss & E & R).
  assert (F' : Forall (fun s => forallb (fun f => type_fits (snd f)) (si_fields s) = true) ss).
  { clear E. revert F. induction R as [|s s' l l' S R IH]; intros F; [constructor|].
    inversion F; subst. constructor; [|auto]. destruct S as (_ & _ & _ & -> & _).
    apply slots_fit. assumption. }
  destruct (search_not_table_ok ss ss F') as (ss' & E' & R').
  rewrite E. cbn [bind]. rewrite E'. cbn [bind]. eexists. split; [reflexivity|].
  cbn [with_structs f_unions f_root f_namespace f_structs]. repeat split.
  clear - R R'. revert ss' R'. induction R as [|s s1 l l1 S R IH]; intros ss' R'; inversion R'; subst;
    constructor; [|auto].
  destruct S as (A1 & A2 & A3 & A4 & A5). destruct H1 as (B1 & B2 & B3 & B4 & B5).
  unfold same_struct. rewrite B1, B2, B3, B4, B5, A1, A2, A3, A4, A5. auto.
Qed.

Lemma structs_in_fit ns ds :
  forallb adecl_fits ds = true ->
  Forall (fun s => forallb (fun f => type_fits (snd f)) (si_fields s) = true) (structs_in ns ds).
Proof.
  revert ns. induction ds as [|d ds IH]; intros ns F; [constructor|].
  cbn [forallb] in F. apply andb_prop in F. destruct F as [F1 F2].
  destruct d; cbn [structs_in adecl_fits] in *; auto.
Qed.

Lemma unions_in_fit ns ds :
  forallb adecl_fits ds = true ->
  forallb (fun u => capital (ui_name u)) (unions_in ns ds) = true.
Proof.
  revert ns. induction ds as [|d ds IH]; intros ns F; [reflexivity|].
  cbn [forallb] in F. apply andb_prop in F. destruct F as [F1 F2].
  destruct d; cbn [unions_in adecl_fits forallb ui_name] in *; auto.
  rewrite F1, IH; auto.
Qed.

Lemma main_schema_text ds :
  ds <> [] -> forallb decl_ok ds = true -> forallb adecl_fits (map erase ds) = true ->
  exists n b, (forall f, n <= f -> main_schema f (schema_text ds) = Ok (true, b)) /\
    f_unions b = unions_in "" (map erase ds) /\ f_root b = last_root (map erase ds) /\
    Forall2 (same_struct (map ui_name (unions_in "" (map erase ds))))
            (structs_in "" (map erase ds)) (f_structs b).
Proof.
  intros N D F. destruct (parse_schema_text ds N D) as (n & b & (S & U & NS & R) & P).
  destruct (finalize_slots b) as (b' & E & U' & R' & NS' & SS).
  - rewrite U. apply unions_in_fit, F.
  - rewrite S. apply structs_in_fit, F.
  - exists n, b'. split.
    + intros f L. specialize (P f L). unfold parse_schema in P. unfold main_schema.
      destruct (parse f (schema_text ds)) as [[ok ts]| |]; try discriminate P. cbn [bind] in *.
      destruct ok; [|discriminate P].
      destruct (execute ts "" empty_fbs); try discriminate P. cbn [bind] in *.
      injection P as ->. rewrite E. reflexivity.
    + rewrite <- U, <- S, U', R', R. auto.
Qed.

(** A declaration in the middle. *)
Lemma structs_in_app ns ds1 ds2 :
  structs_in ns (ds1 ++ ds2) =
  structs_in ns ds1 ++
  structs_in (fold_left (fun s d => match d with ANamespace p => p | _ => s end) ds1 ns) ds2.
Proof.
  revert ns. induction ds1 as [|d ds IH]; intros ns; [reflexivity|].
  destruct d; cbn [app structs_in fold_left]; rewrite IH; reflexivity.
Qed.

Lemma middle_struct ds1 t l1 n l2 ms pre fs post ds2 :
  let d := DStruct t l1 n l2 ms pre fs post in
  forallb decl_ok (ds1 ++ d :: ds2) = true ->
  exists f0 b, (forall f, f0 <= f -> parse_schema f (schema_text (ds1 ++ d :: ds2)) = Ok (Some b)) /\
    nth_error (f_structs b) (List.length (structs_in "" (map erase ds1))) =
    Some (mkSI (last_namespace (map erase ds1)) n t
               (map (fun f => (camel (fl_name f), ty_go (fl_type f))) fs) [] []).
Proof.
  intros d D. destruct (parse_schema_text (ds1 ++ d :: ds2)) as (f0 & b & (S & _) & P);
    [destruct ds1; discriminate|exact D|].
  exists f0, b. split; [exact P|]. rewrite S, map_app, structs_in_app.
  cbn [map structs_in erase d].
  rewrite nth_error_app2, Nat.sub_diag by lia. reflexivity.
Qed.

(** ** Acceptance *)

Lemma peg_eof s ts s' : peg (PRule Rend_of_file) s (Some (ts, s')) -> s' = "".
Proof.
  intros P. assert (G : peg (PNot PDot) s (Some (ts, s'))) by (inversion P; assumption).
  inversion G; subst.
  match goal with H : peg PDot _ None |- _ => inversion H; reflexivity end.
Qed.

Lemma peg_schema_end s ts s' : peg (PRule Rschema) s (Some (ts, s')) -> s' = "".
Proof.
  intros P. assert (G : peg (grammar Rschema) s (Some (ts, s'))) by (inversion P; assumption).
  cbn [grammar alts seqs] in G.
  repeat match goal with
  | H : peg (PAlt _ _) _ _ |- _ => inversion H; subst; clear H
  | H : peg (PSeq _ _) _ (Some _) |- _ => inversion H; subst; clear H
  | H : peg (PRule Rend_of_file) _ (Some _) |- _ => apply peg_eof in H; exact H
  end.
Qed.

Lemma parse_meaning f text b ts :
  parse f text = Ok (b, ts) ->
  peg (PRule Rschema) text (if b then Some (strip ts, "") else None).
Proof.
  intros P. destruct (parse_follows text) as (o & n & b' & ts' & G & R & M).
  pose proof (parse_mono _ _ _ P (Nat.max n f) (Nat.le_max_r _ _)) as Q.
  rewrite R in Q by lia. injection Q as -> ->.
  destruct o as [[t s]|].
  - destruct M as [-> <-]. pose proof (peg_schema_end _ _ _ G). subst s. exact G.
  - subst b. exact G.
Qed.

Lemma parse_accepts_iff text :
  exists n, forall f, n <= f ->
    exists b ts, parse f text = Ok (b, ts) /\
      (b = true <-> exists ts', peg (PRule Rschema) text (Some (ts', ""))).
Proof.
  destruct (parse_follows text) as (o & n & b & ts & G & R & M).
  exists n. intros f F. exists b, ts. split; [apply R, F|].
  pose proof (parse_meaning _ _ _ _ (R f F)) as P.
  destruct b; split; auto.
  - intros _. eauto.
  - discriminate.
  - intros [ts' P']. pose proof (peg_fun _ _ _ P _ P'). discriminate.
Qed.

Lemma reject f0 text : parse_schema f0 text = Ok None ->
  forall f r, parse_schema f text = Ok r -> r = None.
Proof.
  intros P. apply parse_schema_unique with (n := f0). intros f F.
  eapply parse_schema_mono; eauto.
Qed.

Lemma main_schema_mono f text r :
  main_schema f text = Ok r -> forall g, f <= g -> main_schema g text = Ok r.
Proof.
  unfold main_schema. intros P g G.
  destruct (parse f text) as [[b ts]| |] eqn:R; try discriminate P.
  rewrite (parse_mono _ _ _ R g G). exact P.
Qed.

Lemma main_panic_mono f text :
  main_schema f text = Panic -> forall g, f <= g -> main_schema g text = Panic.
Proof.
  unfold main_schema. intros P g G.
  destruct (parse f text) as [[b ts]| |] eqn:R; try discriminate P.
  - rewrite (parse_mono _ _ _ R g G). exact P.
  - exfalso. eapply parse_no_panic; eauto.
Qed.

Lemma camel_iff s : (exists w, to_camel_case s = Ok w) <-> plain_name s = true.
Proof.
  split.
  - intros [w W]. destruct (plain_name s) eqn:P; [reflexivity|].
    rewrite (to_camel_panic s P) in W. discriminate.
  - intros P. exists (camel s). apply to_camel_ok, P.
Qed.

Lemma schema_panic_mono f text :
  parse_schema f text = Panic -> forall g, f <= g -> parse_schema g text = Panic.
Proof.
  unfold parse_schema. intros P g G.
  destruct (parse f text) as [[b ts]| |] eqn:R; try discriminate P.
  - rewrite (parse_mono _ _ _ R g G). exact P.
  - exfalso. eapply parse_no_panic; eauto.
Qed.
