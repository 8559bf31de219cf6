(** Proofs that the generated package describes its schema to the reader. *)
From Coq Require Import ZArith List Bool String Ascii Lia FinFun Permutation.
From Verif Require Import GoLib BaseModel GoLemmas TableModel NameModel NameSpec NameProofs ParserModel ParserSpec
  ParserProofs5 GenModel GenSpec GenProofs GenProofs2 GenProofs3 GenProofs4 GenProofs5 GenProofs6
  WalkSpec LinkSpec.
Import ListNotations.
Open Scope string_scope.
Open Scope list_scope.

Definition typed (x : string * string * Z) : list (Z * scalar) :=
  match lookup name_to_type (snd (fst x)) with Some t => [(snd x, t)] | None => [] end.

Lemma run_types : forall l n, run_steps no_names l = Ok n ->
  forall nd, lookup (n_types n) nd = as_found (rev (flat_map typed (fields_of nd l))).
Proof.
  induction l as [|i l IH] using rev_ind; intros n H nd.
  - cbn in H. injection H as <-. reflexivity.
  - rewrite run_steps_app in H. destruct (run_steps no_names l) as [n1| |] eqn:E; try discriminate.
    cbn [bind run_steps] in H. specialize (IH n1 eq_refl).
    unfold fields_of. rewrite flat_map_app. fold (fields_of nd l). cbn [flat_map]. rewrite flat_map_app.
    destruct i as [s e|u a|m f t k]; cbn [bind run_step] in H.
    + injection H as <-. cbn [flat_map]. rewrite app_nil_r. unfold set_name_is_struct. destruct e; apply IH.
    + injection H as <-. cbn [flat_map]. rewrite app_nil_r. apply IH.
    + unfold set_fields in H.
      destruct (get_type_group _ t) as [g| |]; try discriminate. cbn [bind] in H.
      match type of H with Ok ?m = Ok _ => assert (EN : n = m) by congruence end.
      clear H. subst n. cbn [n_types request_setting]. destruct (String.eqb_spec m nd).
      * subst m. cbn [flat_map app]. rewrite app_nil_r. unfold typed at 2. cbn [fst snd].
        destruct (lookup name_to_type t) as [y|]; [|rewrite app_nil_r; apply IH].
        cbn [lookup]. rewrite String.eqb_refl. rewrite rev_app_distr. cbn [rev app]. unfold sub. rewrite IH.
        destruct (rev (flat_map typed (fields_of nd l))); reflexivity.
      * cbn [flat_map app]. rewrite app_nil_r. destruct (lookup name_to_type t) as [y|]; [|apply IH].
        cbn [lookup]. destruct (String.eqb_spec m nd); [congruence|apply IH].
Qed.

Lemma lookupz_key : forall A (l : list (Z * A)) i, (exists x, In (i, x) l) <-> lookupz l i <> None.
Proof.
  intros A l i. induction l as [|[k v] l IH]; cbn [lookupz].
  - split; [intros (x & [])|congruence].
  - destruct (Z.eqb_spec k i).
    + subst. split; [discriminate|]. intros _. exists v. left. reflexivity.
    + rewrite <- IH. split.
      * intros (x & [H|H]); [congruence|eauto].
      * intros (x & H). exists x. right. exact H.
Qed.

Lemma in_typed : forall l k t, In (k, t) (flat_map typed l) -> In k (map snd l).
Proof.
  intros l k t H. apply in_flat_map in H. destruct H as (x & X & H). unfold typed in H.
  destruct (lookup name_to_type (snd (fst x))); [|contradiction]. destruct H as [H|[]]. injection H as <- _.
  apply in_map, X.
Qed.

Lemma typed_nodup : forall l, NoDup (map snd l) -> NoDup (map fst (flat_map typed l)).
Proof.
  induction l as [|x l IH]; intros N; [constructor|]. cbn [map] in N. inversion N; subst.
  cbn [flat_map]. rewrite map_app. unfold typed at 1. destruct (lookup name_to_type (snd (fst x))); [|apply IH; assumption].
  cbn [map app fst]. constructor; [|apply IH; assumption]. intros H. apply H1.
  apply in_map_iff in H. destruct H as ([k t] & E & H). cbn [fst] in E. subst k. eapply in_typed, H.
Qed.

Lemma nth_zget : forall A (l : list A) i x, zget l i = Some x <-> (0 <= i)%Z /\ nth_error l (Z.to_nat i) = Some x.
Proof.
  intros A l i x. unfold zget. destruct (Z.ltb_spec i 0); split.
  - discriminate.
  - intros [C _]. lia.
  - auto.
  - intros [_ C]. exact C.
Qed.

Lemma Forall2_nth : forall A B (R : A -> B -> Prop) l l' k y, Forall2 R l l' -> nth_error l' k = Some y ->
  exists x, nth_error l k = Some x /\ R x y.
Proof.
  intros A B R l l' k y H. revert k. induction H as [|a c l l' E F IH]; intros [|k] K; cbn in K; try discriminate.
  - injection K as <-. exists a. auto.
  - cbn. apply IH, K.
Qed.

Section OneSchema.
Variable b : fbs.
Hypothesis CAP : Forall (fun s => plain s /\ capital s = true) (struct_names b ++ union_names b).
Hypothesis FCAP : capital_fields b.
Hypothesis ND : NoDup (struct_names b ++ union_names b).
Hypothesis NF : Forall (fun i => NoDup (map fst (si_fields i))) (f_structs b).
Variable files : list directive.
Variable ds : list directive.
Hypothesis GEN : flat_map init_of ds = package_steps "" b.
Hypothesis PERM : Permutation ds files.
Hypothesis MEM : Forall (fun u => ui_aliases u <> []) (f_unions b).
Let steps := flat_map init_of files.
Variables n n' : names.
Hypothesis RUN : run_steps no_names steps = Ok n.
Hypothesis APP : apply_requests n = Ok n'.
Hypothesis UNI : forall u, In u (f_unions b) -> lookup (n_unions n') (ui_name u) = Some (map first_upper (ui_aliases u)).

Lemma kept : n_structs n' = n_structs n /\ n_unions n' = n_unions n /\ n_types n' = n_types n /\
  n_idxname n' = n_idxname n.
Proof.
  destruct (apply_total _ _ RUN) as (m & E & _ & H1 & H2 & H3 & H4 & _). rewrite APP in E.
  injection E as <-. auto.
Qed.

Lemma group_kept : forall s, get_type_group n' s = get_type_group n s.
Proof. intros s. destruct kept as (H1 & H2 & _). apply group_ext; rewrite ?H1, ?H2; reflexivity. Qed.

Lemma in_step : forall i j x, In i (f_structs b) -> nth_error (si_fields i) j = Some x ->
  In (IField (si_name i) (fst x) (first_upper (snd x)) (Z.of_nat j)) steps.
Proof.
  intros i j x I X. apply (steps_in b files ds GEN PERM), (package_field b CAP FCAP).
  exists i, j, x. auto 10.
Qed.

Lemma slot_group : forall i j x, In i (f_structs b) -> nth_error (si_fields i) j = Some x ->
  exists g, group_of n' (si_name i) (Z.of_nat j) = Some g /\ get_type_group n (first_upper (snd x)) = Ok g.
Proof.
  intros i j x I X. destruct (applied_groups _ _ RUN) as (m & E & _ & GR). rewrite APP in E. injection E as <-.
  destruct (GR (si_name i) (Z.of_nat j) (first_upper (snd x))) as (g & G1 & G2).
  - apply declared_of with (f := fst x); [apply (steps_keys b CAP ND files ds GEN PERM)|apply in_step; auto].
  - exists g. rewrite group_kept in G2. auto.
Qed.

Lemma slot_keys : forall i j, In i (f_structs b) ->
  group_of n' (si_name i) j <> None -> (0 <= j < zlen (si_fields i))%Z.
Proof.
  intros i j I H.
  assert (S : exists f t, In (IField (si_name i) f t j) steps).
  { destruct (apply_total _ _ RUN) as (m & E & _ & _ & _ & _ & _ & _ & _ & HF). rewrite APP in E. injection E as <-.
    specialize (HF (si_name i) j). destruct (find_last (key_is (si_name i) j) (reqs steps)) as [q|] eqn:Q.
    - apply find_last_some in Q. destruct Q as [Q K]. apply reqs_in in Q. unfold key_is in K.
      apply andb_prop in K. destruct K as [K1 K2]. apply String.eqb_eq in K1. apply Z.eqb_eq in K2.
      rewrite K1, K2 in Q. eauto.
    - rewrite HF in H. eapply run_steps_groups; eauto. }
  destruct S as (f & t & S). apply (steps_in b files ds GEN PERM), (package_field b CAP FCAP) in S.
  destruct S as (i' & k & x & I' & X & N & _ & _ & ->).
  assert (i' = i) as -> by (apply (map_inj_in _ _ si_name (f_structs b)); auto; apply (snames_nodup b ND)).
  assert (X' : nth_error (si_fields i) k <> None) by congruence.
  apply nth_error_Some in X'. unfold zlen. lia.
Qed.

Lemma groups_below : forall i, In i (f_structs b) -> si_fields i <> [] ->
  exists l, lookup (n_groups n') (si_name i) = Some l /\ keys_below l (zlen (si_fields i)).
Proof.
  intros i I NE.
  assert (ALL : forall j x, nth_error (si_fields i) j = Some x -> group_of n' (si_name i) (Z.of_nat j) <> None).
  { intros j x X. destruct (slot_group i j x I X) as (g & -> & _). discriminate. }
  assert (KEY : forall j, group_of n' (si_name i) j <> None <-> (0 <= j < zlen (si_fields i))%Z).
  { intros j. split; [apply slot_keys, I|]. intros R.
    destruct (nth_error (si_fields i) (Z.to_nat j)) as [x|] eqn:X.
    - specialize (ALL _ _ X). rewrite Z2Nat.id in ALL by lia. exact ALL.
    - apply nth_error_None in X. unfold zlen in R. lia. }
  unfold group_of in KEY. destruct (lookup (n_groups n') (si_name i)) as [l|].
  - exists l. split; [reflexivity|]. intros j. rewrite lookupz_key. apply KEY.
  - exfalso. destruct (si_fields i) as [|x fs] eqn:FS; [congruence|]. apply (KEY 0%Z); [|reflexivity].
    unfold zlen. cbn. lia.
Qed.

Lemma type_found : forall i j x t, In i (f_structs b) -> nth_error (si_fields i) j = Some x ->
  lookup name_to_type (first_upper (snd x)) = Some t ->
  exists l, lookup (n_types n') (si_name i) = Some l /\ lookupz l (Z.of_nat j) = Some t /\
    l = rev (flat_map typed (fields_of (si_name i) steps)).
Proof.
  intros i j x t I X T. destruct kept as (_ & _ & -> & _). rewrite (run_types _ _ RUN).
  assert (IN : In (Z.of_nat j, t) (flat_map typed (fields_of (si_name i) steps))).
  { apply in_flat_map. exists (fst x, first_upper (snd x), Z.of_nat j). split.
    - apply in_fields_of, in_step; auto.
    - unfold typed. cbn [fst snd]. rewrite T. left. reflexivity. }
  exists (rev (flat_map typed (fields_of (si_name i) steps))). split; [eapply rev_found, IN|].
  split; [|reflexivity]. apply lookupz_nodup; [|apply -> in_rev; exact IN].
  rewrite map_rev. eapply Permutation_NoDup; [apply Permutation_rev|]. apply typed_nodup.
  pose proof (steps_fields b CAP FCAP ND files ds GEN PERM i I) as P.
  eapply Permutation_NoDup; [apply Permutation_map, P|]. rewrite map_map. cbn [snd].
  destruct (combine_seq _ (si_fields i) 0) as (S1 & _).
  match goal with |- NoDup ?l =>
    replace l with (map Z.of_nat (seq 0 (List.length (si_fields i))))
      by (rewrite <- S1, map_map; reflexivity) end.
  apply Injective_map_NoDup; [|apply seq_NoDup]. intros u v; lia.
Qed.

Lemma scalar_upper : forall t, t <> SUint8 -> first_upper (scalar_name t false) = scalar_name t true /\
  lookup name_to_type (scalar_name t true) = Some t /\ lookup name_to_type (scalar_name t false) = Some t.
Proof. intros t H. destruct t; try (repeat split; reflexivity). congruence. Qed.

Lemma name_cap : forall i, In i (f_structs b) -> plain (si_name i) /\ capital (si_name i) = true.
Proof. intros i I. apply (capital_name b CAP), (name_in_s b), I. Qed.

Lemma declared_table : forall i, In i (f_structs b) -> si_table i = true ->
  ~ declared_struct steps (si_name i).
Proof.
  intros i I T. unfold steps. rewrite (is_struct_decl b CAP files ds GEN PERM).
  intros (j & J & E & TJ). rewrite (map_inj_in _ _ si_name (f_structs b) j i) in TJ; auto.
  - congruence.
  - apply (snames_nodup b ND).
Qed.

Lemma named_group : forall i, In i (f_structs b) ->
  exists g, get_type_group n (si_name i) = Ok g /\ says g [if si_table i then CTable else CStruct].
Proof.
  intros i I. destruct (name_cap i I) as [P _].
  destruct (plain_classes _ _ _ RUN P) as (g & G & _ & GS & GT). exists g. split; [exact G|].
  assert (NU : ~ declared_union steps (si_name i)).
  { unfold steps. rewrite (is_union_name b CAP files ds GEN PERM MEM). apply (not_both b ND), I. }
  destruct (si_table i) eqn:T.
  - apply GT; [exact NU|apply declared_table; auto].
  - apply GS; [exact NU|]. apply (is_struct_decl b CAP files ds GEN PERM). eauto.
Qed.

Lemma table_is : forall i, In i (f_structs b) -> si_table i = true -> table_described n' (si_name i).
Proof.
  intros i I T. split.
  - destruct kept as (-> & _). intros C. apply (to_struct _ _ (run_steps_ok _ _ RUN)) in C.
    eapply declared_table; eauto.
  - destruct (named_group i I) as (g & G & S). rewrite T in S. exists g. rewrite group_kept. auto.
Qed.

Lemma Forall2_zlen : forall A B (R : A -> B -> Prop) l l', Forall2 R l l' -> zlen l = zlen l'.
Proof. intros A B R l l' H. unfold zlen. f_equal. induction H; cbn [List.length]; congruence. Qed.

Lemma struct_is : forall sn ms, struct_members (f_structs b) sn ms -> struct_described n' sn ms.
Proof.
  intros sn ms (i & I & T & <- & NE & F).
  assert (NF' : si_fields i <> []) by (intros C; rewrite C in F; inversion F; subst; congruence).
  assert (TY : forall k t, nth_error ms k = Some t -> exists l, lookup (n_types n') (si_name i) = Some l /\
    lookupz l (Z.of_nat k) = Some t /\ l = rev (flat_map typed (fields_of (si_name i) steps))).
  { intros k t K. destruct (Forall2_nth _ _ _ _ _ _ _ F K) as (x & X & E & U).
    destruct (scalar_upper t U) as (E1 & E2 & _). apply (type_found i k x t I X). rewrite E, E1. exact E2. }
  split; [|split; [|split; [|split]]].
  - destruct kept as (-> & _). apply (to_struct _ _ (run_steps_ok _ _ RUN)).
    apply (is_struct_decl b CAP files ds GEN PERM). eauto.
  - destruct (named_group i I) as (g & G & S). rewrite T in S. exists g. rewrite group_kept. auto.
  - destruct kept as (_ & _ & _ & ->). destruct (si_fields i) as [|x fs] eqn:FS; [congruence|].
    destruct (steps_index b CAP FCAP ND NF files ds GEN PERM n i 0 x RUN I ltac:(rewrite FS; reflexivity)) as (_ & l & -> & _).
    discriminate.
  - rewrite <- (Forall2_zlen _ _ _ _ _ F). apply groups_below; auto.
  - assert (exists t0 r, ms = t0 :: r) as (t0 & r & EM) by (destruct ms; [congruence|eauto]).
    destruct (TY 0%nat t0 ltac:(rewrite EM; reflexivity)) as (l & L & _ & EL). exists l. split; [exact L|].
    intros k t K. apply nth_zget in K. destruct K as [K0 K].
    destruct (TY _ _ K) as (l' & L' & Q & _). rewrite L in L'. injection L' as <-.
    rewrite Z2Nat.id in Q by exact K0. exact Q.
Qed.

Lemma vector_names_group : forall i, In i (f_structs b) ->
  exists g, get_type_group n ("[]" ++ si_name i) = Ok g /\ says g [CSlice; CTable].
Proof.
  intros i I. destruct (name_cap i I) as [(_ & _ & P & _) C].
  destruct (vec_unknown b CAP files ds GEN PERM MEM n (si_name i) RUN) as [V1 V2].
  apply vector_named_group; auto.
  destruct (si_name i) as [|c s]; [reflexivity|]. cbn [prefix].
  destruct (ascii_dec "b" c); [|reflexivity]. subst. discriminate C.
Qed.

Lemma no_scalar_node : forall t, lookup (n_idxname n') (scalar_name t false) = None.
Proof.
  intros t. destruct kept as (_ & _ & _ & ->). destruct (run_tables _ _ RUN) as (_ & _ & Tx & _). rewrite Tx.
  destruct (fields_of (scalar_name t false) steps) as [|[[f ty] k] l] eqn:E; [reflexivity|]. exfalso.
  assert (IN : In (IField (scalar_name t false) f ty k) steps).
  { apply in_fields_of. rewrite E. left. reflexivity. }
  apply (steps_in b files ds GEN PERM), (package_field b CAP FCAP) in IN.
  destruct IN as (i & j & x & I & _ & N & _). destruct (name_cap i I) as [_ C].
  rewrite <- N, scalar_not_capital in C. discriminate C.
Qed.

Lemma field_is : forall i j x t, In i (f_structs b) -> nth_error (si_fields i) j = Some x ->
  go_type (f_structs b) (f_unions b) (snd x) t ->
  exists g, group_of n' (si_name i) (Z.of_nat j) = Some g /\
    field_described n' (si_name i) (Z.of_nat j) t (first_upper (snd x)) g.
Proof.
  intros i j x t I X G. destruct (slot_group i j x I X) as (g & G1 & G2). exists g. split; [exact G1|].
  remember (snd x) as s eqn:E. destruct G as [t U|t U|sn ms M|sn ms M|k K T|k K T|u U Z].
  - destruct (scalar_upper t U) as (E1 & E2 & E3). split.
    + destruct (scalar_group n t true U) as (g' & H & S). rewrite E1, H in G2. injection G2 as <-. exact S.
    + destruct (type_found i j x t I X) as (l & L & Q & _); [rewrite <- E, E1; exact E2|]. eauto.
  - change (first_upper ("[]" ++ scalar_name t false)) with ("[]" ++ scalar_name t false)%string.
    change (first_upper ("[]" ++ scalar_name t false)) with ("[]" ++ scalar_name t false)%string in G2.
    split.
    + destruct (vector_scalar_group n t false U) as (g' & H & S).
      { apply (vec_unknown b CAP files ds GEN PERM MEM n _ RUN). }
      rewrite H in G2. injection G2 as <-. exact S.
    + exists (scalar_name t false). split; [reflexivity|]. split; [apply scalar_upper, U|apply no_scalar_node].
  - clear E. pose proof (struct_is sn ms M) as SD. destruct M as (k & K & T & N & _). subst sn.
    destruct (name_cap k K) as [_ C]. rewrite first_upper_capital in G2 |- * by exact C.
    split; [|split; [reflexivity|exact SD]].
    destruct (named_group k K) as (g' & H & S). rewrite H in G2. injection G2 as <-. rewrite T in S. exact S.
  - clear E. pose proof (struct_is sn ms M) as SD. destruct M as (k & K & T & N & _). subst sn.
    change (first_upper ("[]" ++ si_name k)) with ("[]" ++ si_name k)%string in G2 |- *.
    split; [|split; [reflexivity|exact SD]].
    destruct (vector_names_group k K) as (g' & H & S). rewrite H in G2. injection G2 as <-. exact S.
  - destruct (name_cap k K) as [_ C]. rewrite first_upper_capital in G2 |- * by exact C.
    split; [|reflexivity].
    destruct (named_group k K) as (g' & H & S). rewrite H in G2. injection G2 as <-. rewrite T in S. exact S.
  - change (first_upper ("[]" ++ si_name k)) with ("[]" ++ si_name k)%string in G2 |- *.
    split; [|split; [reflexivity|apply table_is; auto]].
    destruct (vector_names_group k K) as (g' & H & S). rewrite H in G2. injection G2 as <-. exact S.
  - destruct (capital_name b CAP _ (name_in_u b u U)) as [P C]. 
    rewrite first_upper_capital in G2 |- * by exact C.
    split; [|split; [apply UNI, U|unfold zlen in *; rewrite map_length; exact Z]].
    destruct (plain_classes _ _ _ RUN P) as (g' & H & S & _). rewrite H in G2. injection G2 as <-.
    apply S, (is_union_name b CAP files ds GEN PERM MEM), in_map, U.
Qed.

Lemma described : forall s, schema_of b s -> describes n' s.
Proof.
  intros s SO name tys S. destruct (SO name tys S) as (i & I & T & <- & NE & F).
  assert (NF' : si_fields i <> []) by (intros C; rewrite C in F; inversion F; subst; congruence).
  split; [apply table_is; auto|]. split; [rewrite <- (Forall2_zlen _ _ _ _ _ F); apply groups_below; auto|].
  destruct (si_fields i) as [|x0 fs] eqn:FS; [congruence|]. rewrite <- FS in *.
  destruct (steps_index b CAP FCAP ND NF files ds GEN PERM n i 0 x0 RUN I ltac:(rewrite FS; reflexivity)) as (_ & l & L & _).
  exists l. split; [destruct kept as (_ & _ & _ & ->); exact L|].
  intros k t K. apply nth_zget in K. destruct K as [K0 K].
  destruct (Forall2_nth _ _ _ _ _ _ _ F K) as (x & X & G).
  destruct (steps_index b CAP FCAP ND NF files ds GEN PERM n i _ x RUN I X) as (_ & l' & L' & Q).
  rewrite L in L'. injection L' as <-. rewrite Z2Nat.id in Q by exact K0.
  destruct (field_is i _ x t I X G) as (g & G1 & G2). rewrite Z2Nat.id in G1, G2 by exact K0.
  exists (first_upper (snd x)), g. auto.
Qed.

End OneSchema.

Lemma package_describes : forall b ds files s, named_ok b -> types_long b -> distinct_names b -> separate b ->
  capital_fields b -> make_gen "" b = Ok ds -> Permutation (written ds) files -> schema_of b s ->
  exists n, package_names files n /\ describes n s.
Proof.
  intros b ds files s NM T (ND & CAP) SEP FC E P SO.
  destruct (files_separate "" b ds NM T SEP E) as [NO W]. rewrite W in P.
  destruct (generated_steps "" b NM T) as (ds' & E' & G).
  { apply NoDup_app_parts in ND. apply ND. }
  rewrite E in E'. injection E' as <-.
  pose proof SEP as (_ & _ & NF).
  destruct (steps_run b CAP FC files ds G P T) as (n & R).
  destruct (apply_total _ _ R) as (n' & EA & _ & H1 & H2 & _).
  exists n'. split; [exists n; auto|]. pose proof NM as (_ & _ & UO).
  assert (MEM : Forall (fun u => ui_aliases u <> []) (f_unions b)).
  { rewrite Forall_forall in *. intros u U. apply (UO u U). }
  apply (described b CAP FC ND NF files ds G P MEM n n' R EA); [|exact SO].
  intros u U. rewrite H2. destruct (run_tables _ _ R) as (TU & _). rewrite TU.
  rewrite (union_members b ds files u); auto.
  + unfold as_found. rewrite Forall_forall in MEM. specialize (MEM u U). cbv beta in MEM.
    destruct (ui_aliases u); [congruence|reflexivity].
  + apply fbs_ok_of; auto.
Qed.

Lemma schema_describes : forall ds s, let b0 := schema_fbs (map erase ds) in
  ds <> [] -> forallb decl_ok ds = true -> forallb adecl_fits (map erase ds) = true ->
  distinct_names b0 -> separate b0 -> schema_of b0 s ->
  exists n b dirs, (forall f, (n <= f)%nat -> main_schema f (schema_text ds) = Ok (true, b)) /\
    make_gen "" b = Ok dirs /\
    forall files, Permutation (written dirs) files -> exists r, package_names files r /\ describes r s.
Proof.
  intros ds s b0 N D F DN SEP SO. destruct (schema_generates "" ds N D F) as (n & b & M & G).
  destruct (schema_fbs_ok ds D F) as (NM & T & C).
  destruct (generated_steps "" b0 NM T) as (dirs & E & _).
  { destruct DN as [ND _]. apply NoDup_app_parts in ND. apply ND. }
  exists n, b, dirs. split; [exact M|]. split; [rewrite G; exact E|].
  intros files P. eapply package_describes; eauto.
Qed.

(** Every package whose fields have a type has a schema. *)
Lemma schema_found : forall b, NoDup (struct_names b) ->
  (forall i f, In i (f_structs b) -> si_table i = true -> In f (si_fields i) ->
     exists t, go_type (f_structs b) (f_unions b) (snd f) t) ->
  exists s, schema_of b s /\
    forall i, In i (f_structs b) -> si_table i = true -> si_fields i <> [] -> s (si_name i) <> None.
Proof.
  intros b ND H.
  assert (T : forall i, In i (f_structs b) -> si_table i = true -> exists tys,
    Forall2 (fun f t => go_type (f_structs b) (f_unions b) (snd f) t) (si_fields i) tys).
  { intros i I T. specialize (H i). assert (F : forall f, In f (si_fields i) -> exists t, go_type (f_structs b) (f_unions b) (snd f) t) by auto.
    clear -F. induction (si_fields i) as [|f fs IH]; [exists []; constructor|].
    destruct IH as (tys & TS); [intros; apply F; right; auto|]. destruct (F f (or_introl eq_refl)) as (t & Q).
    exists (t :: tys). constructor; auto. }
  assert (A : forall ss, incl ss (f_structs b) -> exists s : schema,
    (forall name tys, s name = Some tys -> exists i, In i ss /\ si_table i = true /\ si_name i = name /\ tys <> [] /\
      Forall2 (fun f t => go_type (f_structs b) (f_unions b) (snd f) t) (si_fields i) tys) /\
    forall i, In i ss -> si_table i = true -> si_fields i <> [] -> s (si_name i) <> None).
  { induction ss as [|i ss IH]; intros IN.
    - exists (fun _ => None). split; [discriminate|intros i []].
    - destruct IH as (s & S1 & S2); [intros x X; apply IN; right; exact X|].
      assert (S1' : forall name tys, s name = Some tys -> exists i0, In i0 (i :: ss) /\ si_table i0 = true /\
        si_name i0 = name /\ tys <> [] /\
        Forall2 (fun f t => go_type (f_structs b) (f_unions b) (snd f) t) (si_fields i0) tys).
      { intros name tys Q. destruct (S1 name tys Q) as (j & J & R). exists j. split; [right; exact J|exact R]. }
      destruct (si_table i) eqn:TI.
      + destruct (T i (IN i (or_introl eq_refl)) TI) as (tys & F).
        destruct tys as [|t tys].
        * exists s. split; [exact S1'|]. intros j [<-|J] TJ NE; [|auto]. destruct (si_fields i); [congruence|inversion F].
        * exists (fun x => if String.eqb (si_name i) x then Some (t :: tys) else s x). split.
          -- intros name tys' Q. destruct (String.eqb_spec (si_name i) name); [|apply S1', Q].
             injection Q as <-. exists i. split; [left; reflexivity|]. split; [exact TI|]. split; [assumption|].
             split; [discriminate|exact F].
          -- intros j [<-|J] TJ NE; [rewrite String.eqb_refl; discriminate|].
             destruct (String.eqb (si_name i) (si_name j)); [discriminate|auto].
      + exists s. split; [exact S1'|]. intros j [<-|J] TJ NE; [congruence|auto]. }
  destruct (A (f_structs b) (fun x X => X)) as (s & S1 & S2). exists s. split; [exact S1|exact S2].
Qed.

(** ** Computing a schema *)

Definition find_scalar (s : string) : option scalar :=
  find (fun t => String.eqb (scalar_name t false) s)
    [SBool; SByte; SInt8; SInt16; SInt32; SInt64; SUint16; SUint32; SUint64; SFloat32; SFloat64].

Fixpoint all_some {A B} (f : A -> option B) (l : list A) : option (list B) :=
  match l with
  | [] => Some []
  | x :: l' => match f x, all_some f l' with Some y, Some r => Some (y :: r) | _, _ => None end
  end.

Definition find_members (i : struct_info) : option (list scalar) :=
  match si_fields i with
  | [] => None
  | fs => all_some (fun f => find_scalar (snd f)) fs
  end.

Definition find_type (ss : list struct_info) (us : list union_info) (s : string) : option ty :=
  match find_scalar s with
  | Some t => Some (TyScalar t)
  | None =>
    match find (fun i => String.eqb (si_name i) s) ss with
    | Some i => if si_table i then Some (TyTable (si_name i))
                else option_map (TyStruct (si_name i)) (find_members i)
    | None =>
      match find (fun u => String.eqb (ui_name u) s) us with
      | Some u => if (zlen (ui_aliases u) <? 256)%Z then Some (TyUnion (map first_upper (ui_aliases u))) else None
      | None =>
        match s with
        | String "[" (String "]" e) =>
            match find_scalar e with
            | Some t => Some (TyScalars t)
            | None =>
              match find (fun i => String.eqb (si_name i) e) ss with
              | Some i => if si_table i then Some (TyTables (si_name i))
                          else option_map (TyStructs (si_name i)) (find_members i)
              | None => None
              end
            end
        | _ => None
        end
      end
    end
  end.

Definition find_table (b : fbs) (i : struct_info) : option (list ty) :=
  match si_fields i with
  | [] => None
  | fs => all_some (fun f => find_type (f_structs b) (f_unions b) (snd f)) fs
  end.

Definition find_schema (b : fbs) : list (string * list ty) :=
  flat_map (fun i => if si_table i then match find_table b i with Some l => [(si_name i, l)] | None => [] end
                     else []) (f_structs b).

Lemma find_scalar_sound : forall s t, find_scalar s = Some t -> s = scalar_name t false /\ t <> SUint8.
Proof.
  intros s t H. unfold find_scalar in H. apply find_some in H. destruct H as [I E].
  apply String.eqb_eq in E. split; [auto|]. intros ->. cbn in I. intuition discriminate.
Qed.

Lemma all_some_sound : forall A B (f : A -> option B) (R : A -> B -> Prop) l r,
  (forall x y, f x = Some y -> R x y) -> all_some f l = Some r -> Forall2 R l r.
Proof.
  intros A B f R l r H. revert r. induction l as [|x l IH]; intros r E; cbn in E.
  - injection E as <-. constructor.
  - destruct (f x) eqn:X; [|discriminate]. destruct (all_some f l); [|discriminate]. injection E as <-.
    constructor; auto.
Qed.

Lemma find_members_sound : forall ss i ms, In i ss -> si_table i = false -> find_members i = Some ms ->
  struct_members ss (si_name i) ms.
Proof.
  intros ss i ms I T H. exists i. split; [exact I|]. split; [exact T|]. split; [reflexivity|].
  unfold find_members in H. destruct (si_fields i) as [|f fs] eqn:F; [discriminate|].
  assert (A : Forall2 (fun f t => snd f = scalar_name t false /\ t <> SUint8) (f :: fs) ms).
  { eapply all_some_sound; [|exact H]. cbv beta. intros x y. apply find_scalar_sound. }
  split; [|exact A]. inversion A; subst. discriminate.
Qed.

Lemma find_type_sound : forall ss us s t, find_type ss us s = Some t -> go_type ss us s t.
Proof.
  intros ss us s t H. unfold find_type in H.
  destruct (find_scalar s) as [x|] eqn:S1.
  { injection H as <-. apply find_scalar_sound in S1. destruct S1 as [-> U]. apply GT_scalar, U. }
  destruct (find (fun i => String.eqb (si_name i) s) ss) as [i|] eqn:S2.
  { apply find_some in S2. destruct S2 as [I E]. apply String.eqb_eq in E. subst s.
    destruct (si_table i) eqn:T; [injection H as <-; apply GT_table; auto|].
    destruct (find_members i) as [ms|] eqn:M; [|discriminate]. injection H as <-.
    apply GT_struct, find_members_sound; auto. }
  destruct (find (fun u => String.eqb (ui_name u) s) us) as [u|] eqn:S3.
  { apply find_some in S3. destruct S3 as [I E]. apply String.eqb_eq in E. subst s.
    destruct (Z.ltb_spec (zlen (ui_aliases u)) 256); [|discriminate]. injection H as <-. apply GT_union; auto. }
  destruct s as [|c [|d e]]; try discriminate.
  { destruct c as [[|] [|] [|] [|] [|] [|] [|] [|]]; discriminate. }
  assert (C : c = "["%char /\ d = "]"%char).
  { destruct c as [[|] [|] [|] [|] [|] [|] [|] [|]]; try discriminate.
    destruct d as [[|] [|] [|] [|] [|] [|] [|] [|]]; try discriminate. auto. }
  destruct C as [-> ->]. change (String "[" (String "]" e)) with ("[]" ++ e)%string.
  destruct (find_scalar e) as [x|] eqn:S4.
  { injection H as <-. apply find_scalar_sound in S4. destruct S4 as [-> U]. apply GT_scalars, U. }
  destruct (find (fun i => String.eqb (si_name i) e) ss) as [i|] eqn:S5; [|discriminate].
  apply find_some in S5. destruct S5 as [I E]. apply String.eqb_eq in E. subst e.
  destruct (si_table i) eqn:T; [injection H as <-; apply GT_tables; auto|].
  destruct (find_members i) as [ms|] eqn:M; [|discriminate]. injection H as <-.
  apply GT_structs, find_members_sound; auto.
Qed.

Lemma lookup_in : forall A (l : list (string * A)) k v, lookup l k = Some v -> In (k, v) l.
Proof.
  induction l as [|[k' v'] l IH]; intros k v H; [discriminate|]. cbn [lookup] in H.
  destruct (String.eqb_spec k' k); [|right; auto]. injection H as <-. subst. left. reflexivity.
Qed.

Lemma find_schema_sound : forall b, schema_of b (lookup (find_schema b)).
Proof.
  intros b name tys H. apply lookup_in in H. unfold find_schema in H. apply in_flat_map in H.
  destruct H as (i & I & H). destruct (si_table i) eqn:T; [|contradiction].
  destruct (find_table b i) as [l|] eqn:F; [|contradiction]. destruct H as [H|[]]. injection H as <- <-.
  exists i. split; [exact I|]. split; [exact T|]. split; [reflexivity|].
  unfold find_table in F. destruct (si_fields i) as [|f fs] eqn:FS; [discriminate|].
  assert (A : Forall2 (fun f t => go_type (f_structs b) (f_unions b) (snd f) t) (f :: fs) l).
  { eapply all_some_sound; [|exact F]. cbv beta. intros x y. apply find_type_sound. }
  split; [|exact A]. inversion A; subst. discriminate.
Qed.
