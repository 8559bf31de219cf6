(** Proofs about the tables the generated package fills. *)
From Coq Require Import ZArith List Bool String Ascii Lia FinFun Permutation.
From Verif Require Import GoLib TableModel NameModel NameSpec NameProofs ParserModel ParserSpec
  GenModel GenSpec GenProofs GenProofs2 GenProofs3.
Import ListNotations.
Open Scope string_scope.
Open Scope list_scope.

(** ** What any sequence of initializers leaves *)

Definition aliases_of (u : string) (l : list init_step) : list string :=
  flat_map (fun i => match i with IAlias v a => if String.eqb v u then [a] else [] | _ => [] end) l.

Definition fields_of (nd : string) (l : list init_step) : list (string * string * Z) :=
  flat_map (fun i => match i with
                     | IField m f t k => if String.eqb m nd then [(f, t, k)] else []
                     | _ => [] end) l.

Definition as_found {A} (l : list A) : option (list A) := match l with [] => None | _ => Some l end.

Lemma as_found_snoc : forall A (l : list A) x, as_found (l ++ [x]) = Some (l ++ [x]).
Proof. destruct l; reflexivity. Qed.

Lemma run_tables : forall l n, run_steps no_names l = Ok n ->
  (forall u, lookup (n_unions n) u = as_found (aliases_of u l)) /\
  (forall nd, lookup (n_nameidx n) nd =
              as_found (rev (map (fun x => (fst (fst x), snd x)) (fields_of nd l)))) /\
  (forall nd, lookup (n_idxname n) nd =
              as_found (rev (map (fun x => (snd x, snd (fst x))) (fields_of nd l)))) /\
  (forall s, lookup (n_structs n) s <> None -> In (IStruct s true) l).
Proof.
  induction l as [|i l IH] using rev_ind; intros n H.
  - cbn in H. injection H as <-. repeat split; intros; cbn in *; congruence.
  - rewrite run_steps_app in H. destruct (run_steps no_names l) as [n1| |] eqn:E; try discriminate.
    cbn in H. destruct (IH n1 eq_refl) as (Iu & Ii & Ix & Is).
    unfold aliases_of, fields_of. setoid_rewrite flat_map_app.
    fold (aliases_of) (fields_of). cbn [flat_map].
    destruct i as [s e|u a|nd f t k]; cbn in H.
    + injection H as <-. unfold set_name_is_struct. destruct e; cbn [n_unions n_nameidx n_idxname n_structs];
        (split; [|split; [|split]]); try (intros; rewrite app_nil_r; first [apply Iu|apply Ii|apply Ix]).
      * intros s0 H. apply in_or_app. cbn [lookup] in H.
        destruct (String.eqb_spec s s0); [subst; right; left; reflexivity|].
        left. apply Is, H.
      * intros s0 H. apply in_or_app. left. apply Is, H.
    + injection H as <-. cbn [n_unions n_nameidx n_idxname n_structs set_alias].
      split; [|split; [|split]]; try (intros; rewrite app_nil_r; first [apply Iu|apply Ii|apply Ix]);
        [|intros s0 H; apply in_or_app; left; apply Is, H].
      intros v. cbn [lookup]. destruct (String.eqb_spec u v).
      * subst. rewrite (Iu v). fold (aliases_of v l). rewrite app_nil_r, as_found_snoc.
        destruct (aliases_of v l); reflexivity.
      * rewrite app_nil_r. apply Iu.
    + unfold set_fields in H.
      destruct (get_type_group _ t) as [g| |]; try discriminate. cbn [bind] in H. injection H as <-.
      cbn [n_unions n_nameidx n_idxname n_structs request_setting].
      split; [intros; rewrite app_nil_r; apply Iu|].
      split; [|split].
      * intros m. cbn [lookup]. destruct (String.eqb_spec nd m).
        -- subst. fold (fields_of m l). rewrite app_nil_r, map_app, rev_app_distr. cbn [map rev app fst snd].
           unfold sub. rewrite Ii. destruct (rev (map _ (fields_of m l))); reflexivity.
        -- rewrite app_nil_r. apply Ii.
      * intros m. cbn [lookup]. destruct (String.eqb_spec nd m).
        -- subst. fold (fields_of m l). rewrite app_nil_r, map_app, rev_app_distr. cbn [map rev app fst snd].
           unfold sub. rewrite Ix. destruct (rev (map _ (fields_of m l))); reflexivity.
        -- rewrite app_nil_r. apply Ix.
      * intros s H. apply in_or_app. left. apply Is, H.
Qed.

Lemma run_total : forall l, (forall nd f t k, In (IField nd f t k) l -> (2 <= String.length t)%nat) ->
  exists n, run_steps no_names l = Ok n.
Proof.
  induction l as [|i l IH] using rev_ind; intros H; [eexists; reflexivity|].
  destruct IH as (n & E); [intros; eapply H, in_or_app; left; eauto|].
  rewrite run_steps_app, E. cbn [bind run_steps].
  destruct i as [s e|u a|nd f t k]; cbn [run_step]; try (eexists; reflexivity).
  unfold set_fields.
  destruct (group_panic (request_setting n nd f t k) t) as [P F].
  destruct (get_type_group (request_setting n nd f t k) t) as [g| |]; [eexists; reflexivity| |congruence].
  exfalso. destruct (proj1 P eq_refl) as [L _].
  specialize (H nd f t k). rewrite in_app_iff in H. cbn in H. specialize (H (or_intror (or_introl eq_refl))). lia.
Qed.

(** ** The steps of a schema, in any order of files *)

Lemma lookup_nodup : forall A (l : list (string * A)) k v, NoDup (map fst l) -> In (k, v) l -> lookup l k = Some v.
Proof.
  induction l as [|[k' v'] l IH]; cbn; intros k v N I; [contradiction|]. inversion N; subst.
  destruct I as [I|I].
  - injection I as -> ->. rewrite String.eqb_refl. reflexivity.
  - destruct (String.eqb_spec k' k); [|auto]. subst. exfalso. apply H1.
    change k with (fst (k, v)). apply in_map, I.
Qed.

Lemma lookupz_nodup : forall A (l : list (Z * A)) k v, NoDup (map fst l) -> In (k, v) l -> lookupz l k = Some v.
Proof.
  induction l as [|[k' v'] l IH]; cbn; intros k v N I; [contradiction|]. inversion N; subst.
  destruct I as [I|I].
  - injection I as -> ->. rewrite Z.eqb_refl. reflexivity.
  - destruct (Z.eqb_spec k' k); [|auto]. subst. exfalso. apply H1.
    change k with (fst (k, v)). apply in_map, I.
Qed.

Lemma in_fields_of : forall l nd f t k, In (f, t, k) (fields_of nd l) <-> In (IField nd f t k) l.
Proof.
  intros l nd f t k. unfold fields_of. rewrite in_flat_map. split.
  - intros (i & I & H). destruct i as [| |m f' t' k']; try contradiction.
    destruct (String.eqb_spec m nd); [|contradiction]. destruct H as [H|[]]. injection H as -> -> ->.
    subst. exact I.
  - intros I. exists (IField nd f t k). split; [exact I|]. rewrite String.eqb_refl. left; reflexivity.
Qed.

Lemma first_upper_capital : forall s, capital s = true -> first_upper s = s.
Proof.
  destruct s as [|c s]; [discriminate|]. cbn [capital first_upper]. intros H.
  replace (between "a" "z" c) with false; [reflexivity|].
  symmetry. destruct c as [b0 b1 b2 b3 b4 b5 b6 b7].
  destruct b0, b1, b2, b3, b4, b5, b6, b7; try reflexivity; discriminate H.
Qed.

Definition indexed (i : struct_info) : list (nat * field) :=
  combine (seq 0 (List.length (si_fields i))) (si_fields i).

Lemma combine_seq : forall A (l : list A) s, map fst (combine (seq s (List.length l)) l) = seq s (List.length l) /\
  map snd (combine (seq s (List.length l)) l) = l /\
  forall k x, In (k, x) (combine (seq s (List.length l)) l) <->
              exists j, k = (s + j)%nat /\ nth_error l j = Some x.
Proof.
  induction l as [|a l IH]; intros s; cbn [List.length seq combine map fst snd].
  - do 2 (split; [reflexivity|]). intros k x. cbn [In]. split; [intros []|].
    intros ([|j] & _ & E); discriminate E.
  - destruct (IH (S s)) as (I1 & I2 & I3). rewrite I1, I2. do 2 (split; [reflexivity|]).
    intros k x. cbn [In]. rewrite I3. split.
    + intros [E|(j & -> & E)].
      * injection E as -> ->. exists 0%nat. split; [lia|reflexivity].
      * exists (S j). split; [lia|exact E].
    + intros ([|j] & -> & E).
      * left. cbn in E. injection E as ->. f_equal. lia.
      * right. exists j. split; [lia|exact E].
Qed.

Lemma filter_all : forall A (f : A -> string) l, List.filter (fun i => wanted "" (f i)) l = l.
Proof. induction l; [reflexivity|]. cbn [List.filter]. change (wanted "" (f a)) with true. cbv iota. rewrite IHl. reflexivity. Qed.

Section OneSchema.
Variable b : fbs.
Hypothesis CAP : Forall (fun s => plain s /\ capital s = true) (struct_names b ++ union_names b).
Hypothesis FCAP : Forall (fun i => Forall (fun f => capital (fst f) = true) (si_fields i)) (f_structs b).
Hypothesis ND : NoDup (struct_names b ++ union_names b).
Hypothesis NF : Forall (fun i => NoDup (map fst (si_fields i))) (f_structs b).

Lemma sname_upper : forall i, In i (f_structs b) -> first_upper (si_name i) = si_name i.
Proof.
  intros i I. apply first_upper_capital. rewrite Forall_forall in CAP. apply CAP, in_or_app.
  left. apply in_map, I.
Qed.

Lemma uname_upper : forall u, In u (f_unions b) -> first_upper (ui_name u) = ui_name u.
Proof.
  intros u I. apply first_upper_capital. rewrite Forall_forall in CAP. apply CAP, in_or_app.
  right. apply in_map, I.
Qed.

Lemma in_package : forall s, In s (package_steps "" b) <->
  (exists i, In i (f_structs b) /\ In s (struct_steps i)) \/
  (exists u, In u (f_unions b) /\ In s (union_steps u)).
Proof.
  intros s. unfold package_steps. rewrite in_app_iff, !in_flat_map.
  split; (intros [(x & X & H)|(x & X & H)]; [left|right]); exists x; split; auto.
  - apply filter_In in X. apply X.
  - apply filter_In in X. apply X.
  - apply filter_In. auto.
  - apply filter_In. auto.
Qed.

Lemma package_field : forall nd f t k, In (IField nd f t k) (package_steps "" b) <->
  exists i j x, In i (f_structs b) /\ nth_error (si_fields i) j = Some x /\ nd = si_name i /\
    f = fst x /\ t = first_upper (snd x) /\ k = Z.of_nat j.
Proof.
  intros nd f t k. rewrite in_package. split.
  - intros [(i & I & [H|H])|(u & U & H)]; [discriminate H| |].
    + apply in_map_iff in H. destruct H as ([j x] & E & H). cbn [fst snd] in E.
      apply combine_seq in H. destruct H as (j' & -> & H). injection E as <- <- <- <-.
      exists i, j', x. rewrite sname_upper by auto.
      repeat split; auto. symmetry.
      rewrite Forall_forall in FCAP. specialize (FCAP i I). rewrite Forall_forall in FCAP.
      symmetry. apply first_upper_capital, FCAP. eapply nth_error_In; eauto.
    + unfold union_steps in H. apply in_map_iff in H. destruct H as (a & H & _). discriminate H.
  - intros (i & j & x & I & H & -> & -> & -> & ->). left. exists i. split; [exact I|]. right.
    apply in_map_iff. exists (j, x). cbn [fst snd].
    rewrite sname_upper by auto. rewrite (first_upper_capital (fst x)).
    + split; [reflexivity|]. apply combine_seq. exists j. auto.
    + rewrite Forall_forall in FCAP. specialize (FCAP i I). rewrite Forall_forall in FCAP.
      apply FCAP. eapply nth_error_In; eauto.
Qed.

Lemma package_struct : forall s, In (IStruct s true) (package_steps "" b) <->
  exists i, In i (f_structs b) /\ si_name i = s /\ si_table i = false.
Proof.
  intros s. rewrite in_package. split.
  - intros [(i & I & [H|H])|(u & U & H)].
    + injection H as H1 H2. rewrite sname_upper in H1 by auto. apply negb_true_iff in H2. eauto.
    + apply in_map_iff in H. destruct H as (x & H & _). discriminate H.
    + unfold union_steps in H. apply in_map_iff in H. destruct H as (a & H & _). discriminate H.
  - intros (i & I & <- & T). left. exists i. split; [exact I|]. left. rewrite sname_upper, T by auto. reflexivity.
Qed.

Lemma package_alias : forall u a, In (IAlias u a) (package_steps "" b) <->
  exists v m, In v (f_unions b) /\ ui_name v = u /\ In m (ui_aliases v) /\ a = first_upper m.
Proof.
  intros u a. rewrite in_package. split.
  - intros [(i & I & [H|H])|(v & V & H)]; [discriminate H| |].
    + apply in_map_iff in H. destruct H as (x & H & _). discriminate H.
    + unfold union_steps in H. apply in_map_iff in H. destruct H as (m & H & M). injection H as <- <-.
      rewrite uname_upper by auto. eauto 6.
  - intros (v & m & V & <- & M & ->). right. exists v. split; [exact V|]. unfold union_steps.
    apply in_map_iff. exists m. rewrite uname_upper by auto. auto.
Qed.

Lemma snames_nodup : NoDup (map si_name (f_structs b)).
Proof. apply NoDup_app_parts in ND. apply ND. Qed.

Lemma unames_nodup : NoDup (map ui_name (f_unions b)).
Proof. apply NoDup_app_parts in ND. apply ND. Qed.

Lemma fields_of_app : forall nd l l', fields_of nd (l ++ l') = fields_of nd l ++ fields_of nd l'.
Proof. intros. apply flat_map_app. Qed.

Lemma fields_of_struct : forall nd i, In i (f_structs b) ->
  fields_of nd (struct_steps i) =
  if String.eqb (si_name i) nd
  then map (fun kf => (fst (snd kf), first_upper (snd (snd kf)), Z.of_nat (fst kf))) (indexed i) else [].
Proof.
  intros nd i I. unfold struct_steps. change (?a :: ?l) with ([a] ++ l). rewrite fields_of_app.
  unfold fields_of at 1. cbn [flat_map app]. rewrite sname_upper by auto.
  fold (indexed i).
  assert (C : forall kf, In kf (indexed i) -> first_upper (fst (snd kf)) = fst (snd kf)).
  { intros [k f] H. apply first_upper_capital. rewrite Forall_forall in FCAP.
    specialize (FCAP i I). rewrite Forall_forall in FCAP. apply FCAP.
    apply combine_seq in H. destruct H as (j & _ & H). eapply nth_error_In; eauto. }
  unfold fields_of. induction (indexed i) as [|kf l IH]; [destruct (_ =? _)%string; reflexivity|].
  cbn [map flat_map]. rewrite IH by (intros; apply C; right; assumption).
  rewrite C by (left; reflexivity). destruct (String.eqb (si_name i) nd); reflexivity.
Qed.

Lemma fields_of_union : forall nd u, fields_of nd (union_steps u) = [].
Proof. intros nd u. unfold union_steps. induction (ui_aliases u); [reflexivity|]. exact IHl. Qed.

Lemma fields_of_package : forall i, In i (f_structs b) ->
  fields_of (si_name i) (package_steps "" b) =
  map (fun kf => (fst (snd kf), first_upper (snd (snd kf)), Z.of_nat (fst kf))) (indexed i).
Proof.
  intros i I. unfold package_steps. rewrite fields_of_app, (filter_all _ si_name), (filter_all _ ui_name).
  assert (U : forall us, fields_of (si_name i) (flat_map union_steps us) = []).
  { induction us; [reflexivity|]. cbn [flat_map]. rewrite fields_of_app, fields_of_union. exact IHus. }
  rewrite U, app_nil_r.
  pose proof snames_nodup as N. assert (A : incl (f_structs b) (f_structs b)) by (intros x X; exact X).
  revert I N A. generalize (f_structs b) at 1 2 3 5. induction l as [|j l IH]; intros I N A; [contradiction|].
  cbn [flat_map map] in *. rewrite fields_of_app. inversion N; subst.
  rewrite fields_of_struct by (apply A; left; reflexivity). destruct I as [->|I].
  - rewrite String.eqb_refl.
    replace (fields_of (si_name i) (flat_map struct_steps l)) with (@nil (string * string * Z));
      [apply app_nil_r|].
    assert (A' : incl l (f_structs b)) by (intros x X; apply A; right; exact X).
    clear - H1 A' CAP FCAP. induction l as [|k l IH]; [reflexivity|]. cbn [flat_map]. rewrite fields_of_app.
    rewrite fields_of_struct by (apply A'; left; reflexivity).
    destruct (String.eqb_spec (si_name k) (si_name i)); [exfalso; apply H1; left; exact e|].
    apply IH; [intros H; apply H1; right; exact H|intros x X; apply A'; right; exact X].
  - destruct (String.eqb_spec (si_name j) (si_name i)).
    + exfalso. apply H1. rewrite e. apply in_map, I.
    + apply IH; auto. intros x X. apply A. right; exact X.
Qed.

Lemma keys_nodup : NoDup (field_keys (package_steps "" b)).
Proof.
  assert (E : field_keys (package_steps "" b) =
    flat_map (fun i => map (fun kf => (si_name i, Z.of_nat (fst kf))) (indexed i)) (f_structs b)).
  { unfold package_steps, field_keys. rewrite flat_map_app.
    rewrite (filter_all _ si_name), (filter_all _ ui_name).
    assert (U : forall us, field_keys (flat_map union_steps us) = []).
    { unfold field_keys. induction us as [|u us IH]; [reflexivity|]. cbn [flat_map]. rewrite flat_map_app, IH, app_nil_r.
      unfold union_steps. induction (ui_aliases u); [reflexivity|]. exact IHl. }
    unfold field_keys in U. rewrite U, app_nil_r.
    assert (A : incl (f_structs b) (f_structs b)) by (intros x X; exact X).
    revert A. generalize (f_structs b) at 1 3 4. induction l as [|i l IH]; intros A; [reflexivity|].
    cbn [flat_map]. rewrite flat_map_app, IH by (intros x X; apply A; right; exact X). f_equal.
    unfold struct_steps. cbn [flat_map app]. rewrite sname_upper by (apply A; left; reflexivity).
    fold (indexed i). induction (indexed i); [reflexivity|]. cbn [map flat_map app]. f_equal. exact IHl0. }
  rewrite E. apply NoDup_flat_map.
  - eapply NoDup_map_inv, snames_nodup.
  - intros i _. destruct (combine_seq _ (si_fields i) 0) as (S1 & _).
    replace (map (fun kf => (si_name i, Z.of_nat (fst kf))) (indexed i)) with
      (map (fun k => (si_name i, Z.of_nat k)) (map fst (indexed i))) by (rewrite map_map; reflexivity).
    unfold indexed. rewrite S1. apply Injective_map_NoDup; [|apply seq_NoDup].
    intros x y H. injection H. lia.
  - intros i j z I J Z1 Z2. apply in_map_iff in Z1, Z2. destruct Z1 as (x & <- & _), Z2 as (y & H & _).
    injection H as H _. apply (map_inj_in _ _ si_name (f_structs b)); auto. apply snames_nodup.
Qed.

Lemma declared_of : forall l nd f t k, NoDup (field_keys l) -> In (IField nd f t k) l -> declared_field l nd k t.
Proof.
  intros l nd f t k N I. apply in_split in I. destruct I as (l1 & l2 & ->). exists l1, f, l2.
  split; [reflexivity|]. intros f' t' H. unfold field_keys in N. rewrite flat_map_app in N. cbn [flat_map app] in N.
  apply NoDup_app_parts in N. destruct N as (_ & N & _). inversion N; subst. apply H2.
  apply in_flat_map. exists (IField nd f' t' k). split; [exact H|left; reflexivity].
Qed.

(** ** Orders *)

Variable files : list directive.
Variable ds : list directive.
Hypothesis GEN : flat_map init_of ds = package_steps "" b.
Hypothesis PERM : Permutation ds files.
Hypothesis LONG : types_long b.

Let steps := flat_map init_of files.

Lemma steps_perm : Permutation (package_steps "" b) steps.
Proof. rewrite <- GEN. apply Permutation_flat_map, PERM. Qed.

Lemma steps_in : forall s, In s steps <-> In s (package_steps "" b).
Proof.
  intros s. split; apply Permutation_in; [apply Permutation_sym|]; apply steps_perm.
Qed.

Lemma steps_run : exists n, run_steps no_names steps = Ok n.
Proof.
  apply run_total. intros nd f t k H. apply steps_in, package_field in H.
  destruct H as (i & j & x & I & X & _ & _ & -> & _).
  unfold types_long in LONG. rewrite Forall_forall in LONG. specialize (LONG i I).
  rewrite Forall_forall in LONG. apply nth_error_In in X. specialize (LONG x X). cbv beta in LONG.
  destruct (snd x); cbn in *; lia.
Qed.

Lemma steps_keys : NoDup (field_keys steps).
Proof.
  eapply Permutation_NoDup; [|apply keys_nodup]. unfold field_keys. apply Permutation_flat_map, steps_perm.
Qed.

Lemma steps_fields : forall i, In i (f_structs b) ->
  Permutation (map (fun kf => (fst (snd kf), first_upper (snd (snd kf)), Z.of_nat (fst kf))) (indexed i))
              (fields_of (si_name i) steps).
Proof.
  intros i I. rewrite <- fields_of_package by exact I. unfold fields_of. apply Permutation_flat_map, steps_perm.
Qed.

Lemma rev_found : forall A (l : list A) x, In x l -> as_found (rev l) = Some (rev l).
Proof. intros A l x I. apply in_rev in I. destruct (rev l); [contradiction|reflexivity]. Qed.

Lemma steps_index : forall n i j x, run_steps no_names steps = Ok n -> In i (f_structs b) ->
  nth_error (si_fields i) j = Some x ->
  (exists l, lookup (n_nameidx n) (si_name i) = Some l /\ lookup l (fst x) = Some (Z.of_nat j)) /\
  (exists l, lookup (n_idxname n) (si_name i) = Some l /\ lookupz l (Z.of_nat j) = Some (first_upper (snd x))).
Proof.
  intros n i j x R I X. destruct (run_tables _ _ R) as (_ & Ti & Tx & _).
  pose proof (steps_fields i I) as P.
  assert (IN : In (fst x, first_upper (snd x), Z.of_nat j) (fields_of (si_name i) steps)).
  { apply in_fields_of, steps_in, package_field. exists i, j, x. auto 10. }
  destruct (combine_seq _ (si_fields i) 0) as (S1 & S2 & _). split.
  - exists (rev (map (fun y => (fst (fst y), snd y)) (fields_of (si_name i) steps))). rewrite Ti.
    split; [eapply rev_found, in_map, IN|]. apply lookup_nodup.
    + rewrite map_rev, map_map. eapply Permutation_NoDup; [apply Permutation_rev|]. cbn [fst].
      eapply Permutation_NoDup; [apply Permutation_map, P|]. rewrite map_map. cbn [fst].
      replace (map (fun x0 => fst (snd x0)) (indexed i)) with (map fst (map snd (indexed i)))
        by (rewrite map_map; reflexivity).
      unfold indexed. rewrite S2. rewrite Forall_forall in NF. apply NF, I.
    + apply -> in_rev. apply in_map_iff. eexists. split; [|exact IN]. reflexivity.
  - exists (rev (map (fun y => (snd y, snd (fst y))) (fields_of (si_name i) steps))). rewrite Tx.
    split; [eapply rev_found, in_map, IN|]. apply lookupz_nodup.
    + rewrite map_rev, map_map. eapply Permutation_NoDup; [apply Permutation_rev|]. cbn [fst snd].
      eapply Permutation_NoDup; [apply Permutation_map, P|]. rewrite map_map. cbn [fst snd].
      match goal with |- NoDup ?l =>
        replace l with (map Z.of_nat (seq 0 (List.length (si_fields i))))
          by (rewrite <- S1, map_map; reflexivity) end.
      apply Injective_map_NoDup; [|apply seq_NoDup]. intros u v; lia.
    + apply -> in_rev. apply in_map_iff. eexists. split; [|exact IN]. reflexivity.
Qed.

(** ** Classes *)

Hypothesis MEM : Forall (fun u => ui_aliases u <> []) (f_unions b).

Lemma is_union_name : forall s, declared_union steps s <-> In s (union_names b).
Proof.
  intros s. unfold declared_union. split.
  - intros (a & H). apply steps_in, package_alias in H. destruct H as (v & m & V & <- & _).
    apply in_map, V.
  - intros H. apply in_map_iff in H. destruct H as (v & <- & V).
    rewrite Forall_forall in MEM. specialize (MEM v V). cbv beta in MEM.
    destruct (ui_aliases v) as [|m l] eqn:A; [congruence|].
    exists (first_upper m). apply steps_in, package_alias. exists v, m. rewrite A. cbn. auto.
Qed.

Lemma is_struct_decl : forall s, declared_struct steps s <->
  exists i, In i (f_structs b) /\ si_name i = s /\ si_table i = false.
Proof. intros s. unfold declared_struct. rewrite steps_in. apply package_struct. Qed.

Lemma not_both : forall i, In i (f_structs b) -> ~ In (si_name i) (union_names b).
Proof.
  intros i I U. apply NoDup_app_parts in ND. destruct ND as (_ & _ & D).
  apply (D (si_name i)); [apply in_map, I|exact U].
Qed.

Lemma bracket_no_name : forall e, ~ In ("[]" ++ e)%string (struct_names b ++ union_names b).
Proof.
  intros e I. rewrite Forall_forall in CAP. destruct (CAP _ I) as [_ C]. discriminate C.
Qed.

Lemma vec_unknown : forall n e, run_steps no_names steps = Ok n ->
  lookup (n_unions n) ("[]" ++ e)%string = None /\ lookup (n_structs n) ("[]" ++ e)%string = None.
Proof.
  intros n e R. pose proof (run_steps_ok _ _ R) as [U _ _ _].
  destruct (run_tables _ _ R) as (_ & _ & _ & S). split.
  - destruct (lookup (n_unions n) ("[]" ++ e)%string) eqn:L; [|reflexivity]. exfalso.
    apply (bracket_no_name e), in_or_app. right. apply is_union_name, U. congruence.
  - destruct (lookup (n_structs n) ("[]" ++ e)%string) eqn:L; [|reflexivity]. exfalso.
    apply (bracket_no_name e), in_or_app. left.
    specialize (S ("[]" ++ e)%string). rewrite L in S. specialize (S ltac:(discriminate)).
    apply steps_in, package_struct in S. destruct S as (i & I & <- & _). apply in_map, I.
Qed.

Lemma capital_name : forall s, In s (struct_names b ++ union_names b) -> plain s /\ capital s = true.
Proof. intros s I. rewrite Forall_forall in CAP. apply CAP, I. Qed.

Lemma scalar_not_capital : forall t, capital (scalar_name t false) = false.
Proof. destruct t; reflexivity. Qed.

Lemma name_in_s : forall i, In i (f_structs b) -> In (si_name i) (struct_names b ++ union_names b).
Proof. intros. apply in_or_app. left. apply in_map; auto. Qed.

Lemma name_in_u : forall u, In u (f_unions b) -> In (ui_name u) (struct_names b ++ union_names b).
Proof. intros. apply in_or_app. right. apply in_map; auto. Qed.

(** What is not served. *)
Lemma served_scalar : forall t, served (f_structs b) (f_unions b) (scalar_name t false) -> t <> SUint8.
Proof.
  intros t H E. subst t. remember (scalar_name SUint8 false) as s eqn:Es. destruct H.
  - destruct t; try discriminate Es. congruence.
  - discriminate Es.
  - discriminate Es.
  - destruct (capital_name _ (name_in_s i H)) as [_ C]. rewrite Es in C. discriminate C.
  - destruct (capital_name _ (name_in_u u H)) as [_ C]. rewrite Es in C. discriminate C.
  - discriminate Es.
Qed.

Lemma served_vector : forall e, served (f_structs b) (f_unions b) ("[]" ++ e)%string ->
  (exists t, t <> SUint8 /\ e = scalar_name t false) \/ e = "[]byte" \/
  exists i, In i (f_structs b) /\ si_table i = true /\ e = si_name i.
Proof.
  intros e H. remember ("[]" ++ e)%string as s eqn:Es. destruct H.
  - destruct t; discriminate Es.
  - injection Es as <-. left. eauto.
  - injection Es as <-. auto.
  - exfalso. apply (bracket_no_name e). rewrite <- Es. apply name_in_s; auto.
  - exfalso. apply (bracket_no_name e). rewrite <- Es. apply name_in_u; auto.
  - injection Es as <-. right. right. eauto.
Qed.

Lemma class_group : forall n t cl, run_steps no_names steps = Ok n ->
  served (f_structs b) (f_unions b) t -> format_class (f_structs b) (f_unions b) t cl ->
  exists g, get_type_group n (first_upper t) = Ok g /\ says g cl.
Proof.
  intros n t cl R SV FC.
  destruct FC as [t|t| |i I T|i I T|u U|i I T|i I T|u U].
  - replace (first_upper (scalar_name t false)) with (scalar_name t true) by (destruct t; reflexivity).
    apply scalar_group, served_scalar, SV.
  - change (first_upper ("[]" ++ scalar_name t false)) with ("[]" ++ scalar_name t false)%string.
    apply vector_scalar_group; [|apply vec_unknown, R].
    destruct (served_vector _ SV) as [(t' & T & E)|[E|(i & I & _ & E)]].
    + intros ->. destruct t'; try discriminate E. congruence.
    + destruct t; discriminate E.
    + destruct (capital_name _ (name_in_s i I)) as [_ C]. rewrite <- E, scalar_not_capital in C. discriminate C.
  - change (first_upper "[][]byte") with ("[]" ++ "[]byte")%string.
    apply vector_named_group; try (apply vec_unknown, R); [|reflexivity].
    intros k K. cbn in K. intuition discriminate.
  - destruct (capital_name _ (name_in_s i I)) as [P C]. rewrite first_upper_capital by exact C.
    destruct (plain_classes _ _ _ R P) as (g & G & _ & GS & _). exists g. split; [exact G|].
    apply GS; [rewrite is_union_name; apply not_both, I|]. apply is_struct_decl. eauto.
  - destruct (capital_name _ (name_in_s i I)) as [P C]. rewrite first_upper_capital by exact C.
    destruct (plain_classes _ _ _ R P) as (g & G & _ & _ & GT). exists g. split; [exact G|].
    apply GT; [rewrite is_union_name; apply not_both, I|]. rewrite is_struct_decl.
    intros (j & J & E & TJ). rewrite (map_inj_in _ _ si_name (f_structs b) j i) in TJ; auto using snames_nodup.
    congruence.
  - destruct (capital_name _ (name_in_u u U)) as [P C]. rewrite first_upper_capital by exact C.
    destruct (plain_classes _ _ _ R P) as (g & G & GU & _). exists g. split; [exact G|].
    apply GU, is_union_name, in_map, U.
  - exfalso. destruct (capital_name _ (name_in_s i I)) as [P C].
    destruct (served_vector _ SV) as [(t' & _ & E)|[E|(j & J & TJ & E)]].
    + rewrite E, scalar_not_capital in C. discriminate C.
    + rewrite E in C. discriminate C.
    + rewrite (map_inj_in _ _ si_name (f_structs b) j i) in TJ; auto using snames_nodup. congruence.
  - destruct (capital_name _ (name_in_s i I)) as [(_ & _ & P & _) C].
    change (first_upper ("[]" ++ si_name i)) with ("[]" ++ si_name i)%string.
    apply vector_named_group; try (apply vec_unknown, R); [exact P|].
    destruct (si_name i) as [|c s]; [reflexivity|]. cbn [prefix].
    destruct (ascii_dec "b" c); [|reflexivity]. subst. discriminate C.
  - exfalso. destruct (capital_name _ (name_in_u u U)) as [P C].
    destruct (served_vector _ SV) as [(t' & _ & E)|[E|(j & J & TJ & E)]].
    + rewrite E, scalar_not_capital in C. discriminate C.
    + rewrite E in C. discriminate C.
    + apply (not_both j J). rewrite <- E. apply in_map, U.
Qed.

(** ** Members of unions *)

Lemma aliases_of_flat : forall u (l : list directive),
  aliases_of u (flat_map init_of l) = flat_map (fun d => aliases_of u (init_of d)) l.
Proof.
  induction l as [|d l IH]; [reflexivity|]. cbn [flat_map]. unfold aliases_of at 1.
  rewrite flat_map_app. fold (aliases_of u (init_of d)). fold (aliases_of u (flat_map init_of l)).
  rewrite IH. reflexivity.
Qed.

Lemma aliases_of_union : forall u v, In v (f_unions b) ->
  aliases_of u (union_steps v) = if String.eqb (ui_name v) u then map first_upper (ui_aliases v) else [].
Proof.
  intros u v V. unfold union_steps, aliases_of. rewrite uname_upper by exact V.
  induction (ui_aliases v) as [|a l IH]; [destruct (_ =? _)%string; reflexivity|].
  cbn [map flat_map].
  rewrite IH. destruct (String.eqb (ui_name v) u); reflexivity.
Qed.

End OneSchema.
