(** Proofs about type names, name tables, symbols and field classes. *)
From Coq Require Import ZArith List Bool String Ascii Lia Permutation.
From Verif Require Import GoLib GoLemmas TableModel NameModel NameSpec.
Import ListNotations.
Open Scope string_scope.
Open Scope list_scope.
Open Scope Z_scope.

(** ** Association lists *)
Lemma lookup_in : forall A (m : list (string * A)) k v, lookup m k = Some v -> In (k, v) m.
Proof.
  induction m as [|(k', v') m IH]; cbn; intros k v H; [discriminate|].
  destruct (String.eqb_spec k' k).
  - injection H as ->. subst. auto.
  - right. auto.
Qed.

Lemma lookup_none : forall A (m : list (string * A)) k,
  (forall v, ~ In (k, v) m) -> lookup m k = None.
Proof.
  intros A m k H. destruct (lookup m k) eqn:E; [|reflexivity].
  apply lookup_in in E. exfalso. eapply H; eauto.
Qed.

(** ** Bits *)
Lemma land_bit : forall i k, 0 <= k -> (0 <? Z.land i (2 ^ k)) = Z.testbit i k.
Proof.
  intros i k Hk. destruct (Z.testbit i k) eqn:T.
  - replace (Z.land i (2 ^ k)) with (2 ^ k).
    + apply Z.ltb_lt. apply Z.pow_pos_nonneg; lia.
    + apply Z.bits_inj'. intros j Hj. rewrite Z.land_spec.
      rewrite Z.pow2_bits_eqb by lia. destruct (Z.eqb_spec k j).
      * subst. rewrite T. reflexivity.
      * rewrite andb_false_r. reflexivity.
  - replace (Z.land i (2 ^ k)) with 0; [reflexivity|].
    symmetry. apply Z.bits_inj'. intros j Hj. rewrite Z.land_spec, Z.bits_0.
    rewrite Z.pow2_bits_eqb by lia. destruct (Z.eqb_spec k j).
    + subst. rewrite T. reflexivity.
    + apply andb_false_r.
Qed.

Lemma field_tests : forall i,
  is_field_struct i = Z.testbit i (class_bit CStruct) /\
  is_field_table i = Z.testbit i (class_bit CTable) /\
  is_field_union i = Z.testbit i (class_bit CUnion) /\
  is_field_slice i = Z.testbit i (class_bit CSlice) /\
  is_field_bytes i = Z.testbit i (class_bit CSlice) && Z.testbit i (class_bit (CBasic 1)) /\
  is_field_basic i = existsb (fun w => Z.testbit i (class_bit (CBasic w))) [1; 2; 4; 8]%nat.
Proof.
  intros i. unfold is_field_struct, is_field_table, is_field_union, is_field_slice,
    is_field_bytes, is_field_basic, is_match_bit.
  change FieldTypeStruct with (2 ^ 1). change FieldTypeTable with (2 ^ 2).
  change FieldTypeUnion with (2 ^ 3). change FieldTypeSlice with (2 ^ 4).
  change FieldTypeBasic1 with (2 ^ 5).
  rewrite !land_bit by lia. cbn [class_bit]. repeat split.
  cbn [existsb class_bit]. rewrite <- !land_bit by lia.
  unfold FieldTypeBasic. rewrite !Z.land_lor_distr_r.
  change FieldTypeBasic1 with (2 ^ 5). change FieldTypeBasic2 with (2 ^ 6).
  change FieldTypeBasic4 with (2 ^ 7). change FieldTypeBasic8 with (2 ^ 8).
  assert (E : forall a b, 0 <= a -> 0 <= b -> (0 <? Z.lor a b) = (0 <? a) || (0 <? b)).
  { intros a b Ha Hb. assert (0 <= Z.lor a b) by (apply Z.lor_nonneg; auto).
    destruct (0 <? a) eqn:X; destruct (0 <? b) eqn:Y; cbn;
    destruct (0 <? Z.lor a b) eqn:W; try reflexivity;
    rewrite ?Z.ltb_lt, ?Z.ltb_ge in *.
    - assert (Z.lor a b = 0) as H0 by lia. apply Z.lor_eq_0_iff in H0. lia.
    - assert (Z.lor a b = 0) as H0 by lia. apply Z.lor_eq_0_iff in H0. lia.
    - assert (Z.lor a b = 0) as H0 by lia. apply Z.lor_eq_0_iff in H0. lia.
    - assert (a = 0) by lia. assert (b = 0) by lia. subst. cbn in W. lia. }
  assert (P : forall k, 0 <= k -> 0 <= Z.land i (2 ^ k)).
  { intros k Hk. apply Z.land_nonneg. right. apply Z.pow_nonneg; lia. }
  rewrite !E; rewrite ?Z.lor_nonneg; repeat split; try (apply P; lia).
  rewrite orb_false_r, !orb_assoc. reflexivity.
Qed.

(** ** Groups of scalars *)
Definition wbit (w : nat) : Z := class_bit (CBasic w).

Lemma type_to_group_bit : forall t, type_to_group t = 2 ^ wbit (width t).
Proof. destruct t; reflexivity. Qed.

Lemma says_one : forall k l, 0 <= k -> map class_bit l = [k] -> says (2 ^ k) l.
Proof.
  intros k l Hk E j Hj. rewrite E. rewrite Z.pow2_bits_eqb by lia.
  rewrite Z.eqb_eq. cbn. intuition.
Qed.

Lemma says_two : forall k1 k2 l, 0 <= k1 -> 0 <= k2 -> map class_bit l = [k1; k2] ->
  says (Z.lor (2 ^ k1) (2 ^ k2)) l.
Proof.
  intros k1 k2 l H1 H2 E j Hj. rewrite E, Z.lor_spec, !Z.pow2_bits_eqb by lia.
  rewrite orb_true_iff, !Z.eqb_eq. cbn. intuition.
Qed.

Lemma wbit_nonneg : forall t, 0 <= wbit (width t).
Proof. destruct t; cbn; lia. Qed.

Lemma scalar_lookup : forall t e, t <> SUint8 ->
  lookup name_to_type (scalar_name t e) = Some t.
Proof. intros t e H. destruct t, e; try reflexivity; congruence. Qed.

Lemma scalar_group : forall n t e, t <> SUint8 ->
  exists g, get_type_group n (scalar_name t e) = Ok g /\ says g [CBasic (width t)].
Proof.
  intros n t e H. unfold get_type_group. rewrite scalar_lookup by auto.
  eexists. split; [reflexivity|]. rewrite type_to_group_bit.
  apply says_one; [apply wbit_nonneg|reflexivity].
Qed.

Lemma vector_lookup : forall t e, lookup name_to_type ("[]" ++ scalar_name t e)%string = None.
Proof. intros t e. destruct t, e; reflexivity. Qed.

Lemma vector_scalar_group : forall n t e, t <> SUint8 ->
  lookup (n_unions n) ("[]" ++ scalar_name t e)%string = None ->
  exists g, get_type_group n ("[]" ++ scalar_name t e)%string = Ok g /\
    says g [CSlice; CBasic (width t)].
Proof.
  intros n t e H U. unfold get_type_group. rewrite vector_lookup, U.
  assert (L := scalar_lookup t e H).
  destruct (prefix "[]byte" ("[]" ++ scalar_name t e)) eqn:P.
  - assert (t = SByte).
    { destruct t, e; cbn in P; try discriminate P; try reflexivity. }
    subst. eexists. split; [reflexivity|]. cbn [width].
    change (Z.lor FieldTypeSlice FieldTypeBasic1) with (Z.lor (2 ^ 4) (2 ^ 5)).
    apply says_two; [lia|lia|reflexivity].
  - replace (str_from2 ("[]" ++ scalar_name t e)) with (Ok (scalar_name t e)) by reflexivity.
    cbn [bind]. rewrite L.
    replace (prefix "[]" ("[]" ++ scalar_name t e)) with true
      by (destruct t, e; reflexivity).
    eexists. split; [reflexivity|]. rewrite type_to_group_bit.
    change FieldTypeSlice with (2 ^ 4).
    apply says_two; [lia|apply wbit_nonneg|reflexivity].
Qed.

(** ** What the initializers leave in the tables *)
Record tables_ok (n : names) (l : list init_step) : Prop := mkTables {
  to_union : forall s, lookup (n_unions n) s <> None <-> declared_union l s;
  to_struct : forall s, lookup (n_structs n) s = Some true <-> declared_struct l s;
  to_pending : n_pending n =
    flat_map (fun i => match i with IField nd f t k => [mkReq nd f t k] | _ => [] end) l;
  to_groups : forall nd, lookup (n_groups n) nd <> None <->
    exists f t k, In (IField nd f t k) l }.

Lemma run_steps_app : forall l1 l2 n,
  run_steps n (l1 ++ l2) = bind (run_steps n l1) (fun n' => run_steps n' l2).
Proof.
  induction l1; intros; cbn; [reflexivity|].
  destruct (run_step n a); cbn; auto.
Qed.

Lemma run_steps_ok : forall l n, run_steps no_names l = Ok n -> tables_ok n l.
Proof.
  induction l as [|i l IH] using rev_ind; intros n H.
  - cbn in H. injection H as <-. split.
    + intros s. cbn. split; [congruence|]. intros [a []].
    + intros s. cbn. split; [discriminate|]. intros [].
    + reflexivity.
    + intros nd. cbn. split; [congruence|]. intros (f & t & k & []).
  - rewrite run_steps_app in H. destruct (run_steps no_names l) as [n1| |] eqn:E; try discriminate.
    cbn in H. specialize (IH n1 eq_refl). destruct IH as [Iu Is Ip Ig].
    destruct i as [s e|u a|nd f t k]; cbn in H.
    + injection H as <-. unfold set_name_is_struct. destruct e; cbn [n_structs n_unions n_pending n_groups].
      * split; cbn [n_structs n_unions n_pending n_groups].
        -- intros x. rewrite Iu. unfold declared_union. split; intros [a Ha]; exists a.
           ++ apply in_app_iff. auto.
           ++ apply in_app_iff in Ha. destruct Ha as [|[C|[]]]; [auto|discriminate].
        -- intros x. unfold declared_struct. rewrite in_app_iff. cbn.
           destruct (String.eqb_spec s x).
           ++ subst. split; auto.
           ++ rewrite Is. unfold declared_struct. split; [auto|].
              intros [|[C|[]]]; [auto|congruence].
        -- rewrite flat_map_app. cbn. rewrite app_nil_r. exact Ip.
        -- intros x. rewrite Ig. split; intros (f & t & k & Hf); exists f, t, k.
           ++ apply in_app_iff. auto.
           ++ apply in_app_iff in Hf. destruct Hf as [|[C|[]]]; [auto|discriminate].
      * split.
        -- intros x. rewrite Iu. unfold declared_union. split; intros [a Ha]; exists a.
           ++ apply in_app_iff. auto.
           ++ apply in_app_iff in Ha. destruct Ha as [|[C|[]]]; [auto|discriminate].
        -- intros x. unfold declared_struct. rewrite in_app_iff. cbn.
           rewrite Is. unfold declared_struct. split; [auto|].
           intros [|[C|[]]]; [auto|congruence].
        -- rewrite flat_map_app. cbn. rewrite app_nil_r. exact Ip.
        -- intros x. rewrite Ig. split; intros (f & t & k & Hf); exists f, t, k.
           ++ apply in_app_iff. auto.
           ++ apply in_app_iff in Hf. destruct Hf as [|[C|[]]]; [auto|discriminate].
    + injection H as <-. split; unfold set_alias; cbn [n_structs n_unions n_pending n_groups].
      * intros x. cbn. unfold declared_union. destruct (String.eqb_spec u x).
        -- subst. split; [|congruence]. intros _. exists a. apply in_app_iff. cbn. auto.
        -- rewrite Iu. unfold declared_union. split; intros [a' Ha]; exists a'.
           ++ apply in_app_iff. auto.
           ++ apply in_app_iff in Ha. destruct Ha as [|[C|[]]]; [auto|congruence].
      * intros x. rewrite Is. unfold declared_struct. rewrite in_app_iff. cbn.
        split; [auto|]. intros [|[C|[]]]; [auto|discriminate].
      * rewrite flat_map_app. cbn. rewrite app_nil_r. exact Ip.
      * intros x. rewrite Ig. split; intros (f & t & k & Hf); exists f, t, k.
        -- apply in_app_iff. auto.
        -- apply in_app_iff in Hf. destruct Hf as [|[C|[]]]; [auto|discriminate].
    + unfold set_fields in H.
      destruct (get_type_group (request_setting n1 nd f t k) t) as [g| |] eqn:G; cbn [bind] in H;
        try discriminate.
      injection H as <-. split; unfold request_setting;
        cbn [n_structs n_unions n_pending n_groups bind].
      * intros x. rewrite Iu. unfold declared_union. split; intros [a Ha]; exists a.
        -- apply in_app_iff. auto.
        -- apply in_app_iff in Ha. destruct Ha as [|[C|[]]]; [auto|discriminate].
      * intros x. rewrite Is. unfold declared_struct. rewrite in_app_iff. cbn.
        split; [auto|]. intros [|[C|[]]]; [auto|discriminate].
      * rewrite flat_map_app, Ip. reflexivity.
      * intros x. cbn. destruct (String.eqb_spec nd x).
        -- subst. split; [|congruence]. intros _. exists f, t, k. apply in_app_iff. cbn. auto.
        -- rewrite Ig. split; intros (f' & t' & k' & Hf); exists f', t', k'.
           ++ apply in_app_iff. auto.
           ++ apply in_app_iff in Hf. destruct Hf as [|[C|[]]]; [auto|congruence].
Qed.

(** The classifier reads the tables only through these two questions. *)
Lemma group_ext : forall n n' s,
  (lookup (n_unions n) s <> None <-> lookup (n_unions n') s <> None) ->
  (lookup (n_structs n) s = Some true <-> lookup (n_structs n') s = Some true) ->
  get_type_group n s = get_type_group n' s.
Proof.
  intros n n' s U S. unfold get_type_group.
  destruct (lookup name_to_type s); [reflexivity|].
  destruct (lookup (n_unions n) s) eqn:E1; destruct (lookup (n_unions n') s) eqn:E2;
    try (exfalso; destruct U as [U1 U2]; first [apply U1; congruence | apply U2; congruence]);
    [reflexivity|].
  destruct (prefix "[]byte" s); [reflexivity|].
  destruct (str_from2 s); cbn [bind]; try reflexivity.
  destruct (lookup name_to_type a); [reflexivity|].
  destruct (lookup (n_structs n) s) as [[]|] eqn:F1;
  destruct (lookup (n_structs n') s) as [[]|] eqn:F2; try reflexivity;
    exfalso; rewrite ?F1, ?F2 in S; destruct S as [S1 S2];
    first [discriminate (S1 eq_refl) | discriminate (S2 eq_refl)].
Qed.

(** When the classifier panics. *)
Lemma group_panic : forall n s,
  (get_type_group n s = Panic <-> (String.length s < 2)%nat /\ lookup (n_unions n) s = None) /\
  get_type_group n s <> OutOfFuel.
Proof.
  intros n s. unfold get_type_group.
  destruct s as [|a [|b r]].
  - cbn. destruct (lookup (n_unions n) "") eqn:E.
    + split; [split; [discriminate|intros [_ C]; discriminate]|discriminate].
    + cbn. split; [split; [auto|auto]|discriminate].
  - replace (lookup name_to_type (String a "")) with (@None scalar).
    2: { symmetry. apply lookup_none. intros v. unfold name_to_type. cbn. intuition congruence. }
    destruct (lookup (n_unions n) (String a "")) eqn:E.
    + split; [split; [discriminate|intros [_ C]; discriminate]|discriminate].
    + replace (prefix "[]byte" (String a "")) with false
        by (cbn [prefix]; destruct (ascii_dec _ _); reflexivity).
      cbn [str_from2 bind]. split; [split; [cbn; auto|auto]|discriminate].
  - assert (NL : ~ (String.length (String a (String b r)) < 2)%nat) by (cbn; lia).
    destruct (lookup name_to_type _); [split; [split; [discriminate|intros [C _]; contradiction]|discriminate]|].
    destruct (lookup (n_unions n) _); [split; [split; [discriminate|intros [C _]; contradiction]|discriminate]|].
    destruct (prefix "[]byte" _); [split; [split; [discriminate|intros [C _]; contradiction]|discriminate]|].
    cbn [str_from2 bind]. destruct (lookup name_to_type r);
      [split; [split; [discriminate|intros [C _]; contradiction]|discriminate]|].
    destruct (lookup (n_structs n) _) as [[]|];
      (split; [split; [discriminate|intros [C _]; contradiction]|discriminate]).
Qed.

(** Names of the schema. *)
Lemma plain_group : forall n s, plain s ->
  get_type_group n s = Ok
    (match lookup (n_unions n) s with
     | Some _ => 2 ^ class_bit CUnion
     | None => match lookup (n_structs n) s with
               | Some true => 2 ^ class_bit CStruct
               | _ => 2 ^ class_bit CTable
               end
     end).
Proof.
  intros n s (L & P & N & T). unfold get_type_group.
  rewrite (lookup_none _ name_to_type s) by auto.
  destruct (lookup (n_unions n) s); [reflexivity|].
  replace (prefix "[]byte" s) with false.
  - rewrite P. destruct s as [|a [|b r]]; cbn in L; try lia.
    cbn [str_from2 bind]. rewrite (lookup_none _ name_to_type r).
    2: { intros k. eapply T. reflexivity. }
    destruct (lookup (n_structs n) _) as [[]|]; reflexivity.
  - symmetry. destruct s as [|a [|b r]]; try reflexivity; cbn in L; try lia.
    cbn [prefix] in P |- *. destruct (ascii_dec _ a); [|reflexivity].
    destruct (ascii_dec _ b); [|reflexivity]. destruct r; discriminate P.
Qed.

Lemma plain_classes : forall l n s, run_steps no_names l = Ok n -> plain s ->
  exists g, get_type_group n s = Ok g /\
    (declared_union l s -> says g [CUnion]) /\
    (~ declared_union l s -> declared_struct l s -> says g [CStruct]) /\
    (~ declared_union l s -> ~ declared_struct l s -> says g [CTable]).
Proof.
  intros l n s R P. pose proof (run_steps_ok l n R) as [U S _ _].
  rewrite plain_group by auto. eexists. split; [reflexivity|].
  specialize (U s). specialize (S s).
  destruct (lookup (n_unions n) s) as [x|] eqn:E.
  - assert (D : declared_union l s) by (apply U; congruence).
    split; [intros _; apply says_one; [cbn; lia|reflexivity]|].
    split; intros C; contradiction.
  - assert (D : ~ declared_union l s) by (intros C; apply U in C; congruence).
    split; [intros C; contradiction|].
    destruct (lookup (n_structs n) s) as [[]|] eqn:F; split; intros _ C;
      try (apply says_one; [cbn; lia|reflexivity]).
    + exfalso. apply C. apply S. reflexivity.
    + apply S in C. discriminate.
    + apply S in C. discriminate.
Qed.

Lemma prefix_cons2 : forall e, prefix "[]" ("[]" ++ e)%string = true.
Proof. intros e. cbn. destruct e; reflexivity. Qed.

Lemma prefix_byte : forall e, prefix "[]byte" ("[]" ++ e)%string = prefix "byte" e.
Proof. intros e. reflexivity. Qed.

(** Vectors of names of the schema. *)
Lemma vector_named_group : forall n e,
  (forall k, ~ In (e, k) name_to_type) -> prefix "byte" e = false ->
  lookup (n_unions n) ("[]" ++ e)%string = None ->
  lookup (n_structs n) ("[]" ++ e)%string = None ->
  exists g, get_type_group n ("[]" ++ e)%string = Ok g /\ says g [CSlice; CTable].
Proof.
  intros n e N P U S. unfold get_type_group.
  rewrite (lookup_none _ name_to_type ("[]" ++ e)%string).
  2: { intros v. cbn. intuition congruence. }
  rewrite U, prefix_byte, P, prefix_cons2.
  replace (str_from2 ("[]" ++ e)) with (Ok e) by reflexivity. cbn [bind].
  rewrite (lookup_none _ name_to_type e) by auto. rewrite S.
  eexists. split; [reflexivity|].
  change (Z.lor FieldTypeSlice FieldTypeTable) with (Z.lor (2 ^ 4) (2 ^ 2)).
  apply says_two; [lia|lia|reflexivity].
Qed.

(** Every group says exactly one of struct, table, union and scalar; the slice
    bit is set for vectors only. *)
Lemma group_shape : forall n s g, get_type_group n s = Ok g ->
  exists c, (c = CStruct \/ c = CTable \/ c = CUnion \/
             exists w, (w = 1 \/ w = 2 \/ w = 4 \/ w = 8)%nat /\ c = CBasic w) /\
    (says g [c] \/ (prefix "[]" s = true /\ says g [CSlice; c])).
Proof.
  intros n s g H. unfold get_type_group in H.
  assert (B : forall t, exists w, (w = 1 \/ w = 2 \/ w = 4 \/ w = 8)%nat /\ CBasic (width t) = CBasic w).
  { intros t. exists (width t). split; [destruct t; cbn; auto|reflexivity]. }
  destruct (lookup name_to_type s) as [t|].
  { injection H as <-. exists (CBasic (width t)). split; [auto|].
    left. rewrite type_to_group_bit. apply says_one; [apply wbit_nonneg|reflexivity]. }
  destruct (lookup (n_unions n) s).
  { injection H as <-. exists CUnion. split; [auto|]. left.
    change FieldTypeUnion with (2 ^ 3). apply says_one; [lia|reflexivity]. }
  destruct (prefix "[]byte" s) eqn:P.
  { injection H as <-. exists (CBasic 1). split; [right; right; right; exists 1%nat; auto|].
    right. split.
    - destruct s as [|a s]; [discriminate P|]. cbn [prefix] in P |- *.
      destruct (ascii_dec _ a); [|discriminate P].
      destruct s as [|b s]; [discriminate P|]. cbn [prefix] in P |- *.
      destruct (ascii_dec _ b); [|discriminate P]. destruct s; reflexivity.
    - apply (says_two 4 5); [lia|lia|reflexivity]. }
  destruct (str_from2 s) as [r| |]; cbn [bind] in H; try discriminate.
  destruct (lookup name_to_type r) as [t|].
  { injection H as <-. exists (CBasic (width t)). split; [auto|].
    rewrite type_to_group_bit. destruct (prefix "[]" s).
    - right. split; [reflexivity|]. change FieldTypeSlice with (2 ^ 4).
      apply says_two; [lia|apply wbit_nonneg|reflexivity].
    - left. rewrite Z.lor_0_l. apply says_one; [apply wbit_nonneg|reflexivity]. }
  assert (Q : g = Z.lor (if prefix "[]" s then FieldTypeSlice else 0) (2 ^ 1) \/
              g = Z.lor (if prefix "[]" s then FieldTypeSlice else 0) (2 ^ 2)).
  { destruct (lookup (n_structs n) s) as [[]|]; injection H as <-; auto. }
  destruct Q as [-> | ->].
  - exists CStruct. split; [auto|]. destruct (prefix "[]" s).
    + right. split; [reflexivity|]. apply (says_two 4 1); [lia|lia|reflexivity].
    + left. rewrite Z.lor_0_l. apply says_one; [lia|reflexivity].
  - exists CTable. split; [auto|]. destruct (prefix "[]" s).
    + right. split; [reflexivity|]. apply (says_two 4 2); [lia|lia|reflexivity].
    + left. rewrite Z.lor_0_l. apply says_one; [lia|reflexivity].
Qed.

(** ** Applying the requests *)
Definition key_is (node : string) (num : Z) (q : request) : bool :=
  String.eqb (q_node q) node && (q_num q =? num).

Lemma apply_all_spec : forall qs n,
  (forall q, In q qs -> lookup (n_groups n) (q_node q) <> None) ->
  (forall q, In q qs -> exists g, get_type_group n (q_type q) = Ok g) ->
  exists n', apply_all n qs = Ok n' /\
    n_structs n' = n_structs n /\ n_unions n' = n_unions n /\ n_types n' = n_types n /\
    n_idxname n' = n_idxname n /\ n_nameidx n' = n_nameidx n /\
    n_root n' = n_root n /\ n_pending n' = n_pending n /\
    forall node num,
      match find_last (key_is node num) qs with
      | Some q => exists g, get_type_group n (q_type q) = Ok g /\ group_of n' node num = Some g
      | None => group_of n' node num = group_of n node num
      end.
Proof.
  induction qs as [|q qs IH]; intros n HG HT.
  - exists n. cbn. repeat split; auto.
  - cbn [apply_all]. destruct (HT q (or_introl eq_refl)) as [g Hg].
    unfold apply_one. rewrite Hg. cbn [bind].
    destruct (lookup (n_groups n) (q_node q)) as [l|] eqn:L.
    2: { exfalso. apply (HG q (or_introl eq_refl)). exact L. }
    cbn [bind].
    set (n1 := mkNames _ _ _ _ _ _ _ _).
    assert (GE : forall s, get_type_group n1 s = get_type_group n s) by (intros; apply group_ext; reflexivity).
    destruct (IH n1) as (n' & E & H1 & H2 & H3 & H4 & H5 & H6 & H7 & HF).
    + intros q' Hq. unfold n1. cbn. destruct (String.eqb_spec (q_node q) (q_node q')); [discriminate|].
      apply HG. right. exact Hq.
    + intros q' Hq. rewrite GE. apply HT. right. exact Hq.
    + exists n'. split; [exact E|]. unfold n1 in *.
      cbn [n_structs n_unions n_types n_idxname n_nameidx n_root n_pending] in *.
      repeat (split; [assumption|]). intros node num. cbn [find_last].
      specialize (HF node num). destruct (find_last (key_is node num) qs) as [q'|] eqn:F.
      * destruct HF as (g' & Hg' & HS). exists g'. split; [|exact HS].
        rewrite <- Hg'. symmetry. apply GE.
      * destruct (key_is node num q) eqn:K.
        -- exists g. split; [exact Hg|]. rewrite HF.
           unfold key_is in K. apply andb_prop in K. destruct K as [K1 K2].
           apply String.eqb_eq in K1. apply Z.eqb_eq in K2. subst.
           unfold group_of. cbn. rewrite String.eqb_refl. cbn. rewrite Z.eqb_refl. reflexivity.
        -- rewrite HF. unfold group_of. cbn.
           unfold key_is in K. destruct (String.eqb_spec (q_node q) node); [|reflexivity].
           subst. rewrite L. cbn. cbn in K. rewrite K. reflexivity.
Qed.

Lemma step_group_mono : forall l n s, run_steps no_names l = Ok n ->
  forall nd f k, In (IField nd f s k) l -> exists g, get_type_group n s = Ok g.
Proof.
  intros l n s R nd f k Hin. apply in_split in Hin. destruct Hin as (l1 & l2 & ->).
  pose proof (run_steps_ok _ _ R) as [U _ _ _].
  rewrite run_steps_app in R. destruct (run_steps no_names l1) as [n1| |] eqn:E1; try discriminate.
  cbn in R. unfold set_fields in R.
  destruct (get_type_group (request_setting n1 nd f s k) s) as [g| |] eqn:G; cbn in R; try discriminate.
  pose proof (run_steps_ok _ _ E1) as [U1 _ _ _].
  destruct (group_panic n s) as [GP GF].
  destruct (get_type_group n s) as [g'| |] eqn:G'; [eauto| |congruence].
  exfalso. destruct (proj1 GP eq_refl) as [LT NU].
  destruct (group_panic (request_setting n1 nd f s k) s) as [GP1 _].
  assert (C : get_type_group (request_setting n1 nd f s k) s = Panic); [|congruence].
  apply GP1. split; [exact LT|]. cbn.
  destruct (lookup (n_unions n1) s) eqn:X; [|reflexivity].
  assert (D : declared_union l1 s) by (apply U1; congruence).
  destruct D as [a Da]. assert (D : declared_union (l1 ++ IField nd f s k :: l2) s).
  { exists a. apply in_app_iff. auto. }
  apply U in D. congruence.
Qed.

(** The last request for a field. *)
Definition reqs (l : list init_step) : list request :=
  flat_map (fun i => match i with IField nd f t k => [mkReq nd f t k] | _ => [] end) l.

Lemma reqs_in : forall l q, In q (reqs l) <->
  In (IField (q_node q) (q_field q) (q_type q) (q_num q)) l.
Proof.
  intros l q. unfold reqs. rewrite in_flat_map. split.
  - intros (i & Hi & Hq). destruct i; cbn in Hq; try contradiction.
    destruct Hq as [<-|[]]. exact Hi.
  - intros H. eexists. split; [exact H|]. cbn. left. destruct q; reflexivity.
Qed.

Lemma find_last_declared : forall l node num typ, declared_field l node num typ ->
  exists f, find_last (key_is node num) (reqs l) = Some (mkReq node f typ num).
Proof.
  intros l node num typ (l1 & f & l2 & -> & H).
  exists f. unfold reqs. rewrite flat_map_app. cbn [flat_map].
  rewrite find_last_app. cbn [app]. cbn [find_last].
  assert (F : find_last (key_is node num) (flat_map (fun i => match i with IField nd f t k => [mkReq nd f t k] | _ => [] end) l2) = None).
  { apply find_last_none_iff. intros q Hq. apply (reqs_in l2 q) in Hq.
    unfold key_is. destruct (String.eqb_spec (q_node q) node); [|reflexivity].
    destruct (Z.eqb_spec (q_num q) num); [|reflexivity]. subst. exfalso. eapply H; eauto. }
  rewrite F. unfold key_is at 1. cbn. rewrite String.eqb_refl, Z.eqb_refl. reflexivity.
Qed.

Lemma apply_total : forall l n, run_steps no_names l = Ok n ->
  exists n', apply_requests n = Ok n' /\ n_pending n' = [] /\
    n_structs n' = n_structs n /\ n_unions n' = n_unions n /\
    n_types n' = n_types n /\ n_idxname n' = n_idxname n /\ n_nameidx n' = n_nameidx n /\
    n_root n' = n_root n /\
    forall node num,
      match find_last (key_is node num) (reqs l) with
      | Some q => exists g, get_type_group n (q_type q) = Ok g /\ group_of n' node num = Some g
      | None => group_of n' node num = group_of n node num
      end.
Proof.
  intros l n R. pose proof (run_steps_ok _ _ R) as [U S P G].
  unfold apply_requests. rewrite P. fold (reqs l).
  destruct (apply_all_spec (reqs l) n) as (n' & E & H1 & H2 & H3 & H4 & H5 & H6 & H7 & HF).
  - intros q Hq. apply reqs_in in Hq. apply G. eauto.
  - intros q Hq. apply reqs_in in Hq. eapply step_group_mono; eauto.
  - rewrite E. cbn [bind]. eexists. split; [reflexivity|].
    cbn. repeat (split; [reflexivity || assumption|]). exact HF.
Qed.

Lemma applied_groups : forall l n, run_steps no_names l = Ok n ->
  exists n', apply_requests n = Ok n' /\ n_pending n' = [] /\
    forall node num typ, declared_field l node num typ ->
      exists g, group_of n' node num = Some g /\ get_type_group n' typ = Ok g.
Proof.
  intros l n R. destruct (apply_total l n R) as (n' & E & P & H1 & H2 & H3 & H4 & H5 & H6 & HF).
  exists n'. repeat (split; [assumption|]). intros node num typ D.
  destruct (find_last_declared _ _ _ _ D) as [f F]. specialize (HF node num). rewrite F in HF.
  destruct HF as (g & G & Q). exists g. split; [exact Q|]. cbn in G. rewrite <- G.
  apply group_ext; rewrite ?H1, ?H2; reflexivity.
Qed.

Lemma run_steps_groups : forall l n, run_steps no_names l = Ok n ->
  forall node num, group_of n node num <> None -> exists f t, In (IField node f t num) l.
Proof.
  induction l as [|i l IH] using rev_ind; intros n H node num.
  - cbn in H. injection H as <-. cbn. congruence.
  - rewrite run_steps_app in H. destruct (run_steps no_names l) as [n1| |] eqn:E; try discriminate.
    cbn in H. specialize (IH n1 eq_refl node num).
    assert (M : (exists f t, In (IField node f t num) l) ->
                exists f t, In (IField node f t num) (l ++ [i])).
    { intros (f & t & Hf). exists f, t. apply in_app_iff. auto. }
    destruct i as [s e|u a|nd f t k]; cbn in H.
    + injection H as <-. unfold set_name_is_struct. destruct e; auto.
    + injection H as <-. auto.
    + unfold set_fields in H.
      destruct (get_type_group (request_setting n1 nd f t k) t) as [g| |]; cbn [bind] in H; try discriminate.
      injection H as <-. unfold group_of at 1.
      cbn [n_groups lookup request_setting]. destruct (String.eqb_spec nd node).
      * subst. cbn [lookupz]. destruct (Z.eqb_spec k num).
        -- subst. intros _. exists f, t. apply in_app_iff. cbn. auto.
        -- intros X. apply M. apply IH. unfold group_of. unfold sub in X. cbn in X.
           destruct (lookup (n_groups n1) node); [exact X|]. cbn in X. congruence.
      * intros X. apply M. apply IH. exact X.
Qed.

Lemma in_reqs_find : forall l node f t num, In (IField node f t num) l ->
  find_last (key_is node num) (reqs l) <> None.
Proof.
  intros l node f t num H C. rewrite find_last_none_iff in C.
  specialize (C (mkReq node f t num)). unfold key_is in C. cbn in C.
  rewrite String.eqb_refl, Z.eqb_refl in C. discriminate C.
  apply reqs_in. exact H.
Qed.

(** Independence of the order of the initializers. *)
Lemma find_last_unique : forall l q node num,
  NoDup (field_keys l) -> In q (reqs l) -> q_node q = node -> q_num q = num ->
  find_last (key_is node num) (reqs l) = Some q.
Proof.
  intros l q node num ND Hq Hn Hk.
  assert (K : field_keys l = map (fun q => (q_node q, q_num q)) (reqs l)).
  { unfold field_keys, reqs. clear. induction l as [|[]]; cbn; auto. rewrite IHl. reflexivity. }
  rewrite K in ND. clear K. revert ND Hq. generalize (reqs l). clear l.
  induction l as [|x l IH]; cbn; [intros _ []|].
  intros ND [->|Hq].
  - inversion ND as [|? ? NI ND' E]; subst.
    assert (F : find_last (key_is (q_node q) (q_num q)) l = None).
    { apply find_last_none_iff. intros y Hy. unfold key_is.
      destruct (String.eqb_spec (q_node y) (q_node q)); [|reflexivity].
      destruct (Z.eqb_spec (q_num y) (q_num q)); [|reflexivity]. exfalso. apply NI.
      apply in_map_iff. exists y. split; [congruence|exact Hy]. }
    rewrite F. unfold key_is. rewrite String.eqb_refl, Z.eqb_refl. reflexivity.
  - inversion ND; subst. rewrite IH; auto.
Qed.

Lemma order_free : forall l l' n m n' m',
  Permutation l l' -> NoDup (field_keys l) ->
  run_steps no_names l = Ok n -> run_steps no_names l' = Ok m ->
  apply_requests n = Ok n' -> apply_requests m = Ok m' ->
  forall node num, group_of n' node num = group_of m' node num.
Proof.
  intros l l' n m n' m' PM ND R1 R2 A1 A2 node num.
  destruct (apply_total l n R1) as (x & E1 & _ & _ & _ & _ & _ & _ & _ & F1).
  destruct (apply_total l' m R2) as (y & E2 & _ & _ & _ & _ & _ & _ & _ & F2).
  rewrite A1 in E1. injection E1 as <-. rewrite A2 in E2. injection E2 as <-.
  specialize (F1 node num). specialize (F2 node num).
  pose proof (run_steps_ok _ _ R1) as [U1 S1 _ _].
  pose proof (run_steps_ok _ _ R2) as [U2 S2 _ _].
  assert (G : forall s, get_type_group n s = get_type_group m s).
  { intros s. apply group_ext.
    - rewrite U1, U2. unfold declared_union. split; intros [a H]; exists a.
      + eapply Permutation_in; eauto.
      + eapply Permutation_in; [apply Permutation_sym; eauto|auto].
    - rewrite S1, S2. unfold declared_struct. split; intros H.
      + eapply Permutation_in; eauto.
      + eapply Permutation_in; [apply Permutation_sym; eauto|auto]. }
  assert (ND' : NoDup (field_keys l')).
  { eapply Permutation_NoDup; [|exact ND]. unfold field_keys. apply Permutation_flat_map. exact PM. }
  destruct (find_last (key_is node num) (reqs l)) as [q|] eqn:F.
  - destruct (find_last_some _ _ _ _ F) as [Hq K]. unfold key_is in K. apply andb_prop in K.
    destruct K as [K1 K2]. apply String.eqb_eq in K1. apply Z.eqb_eq in K2.
    assert (Hq' : In q (reqs l')).
    { apply reqs_in. apply reqs_in in Hq. eapply Permutation_in; eauto. }
    rewrite (find_last_unique l' q node num ND' Hq' K1 K2) in F2.
    destruct F1 as (g & G1 & ->). destruct F2 as (g' & G2 & ->). rewrite G in G1. congruence.
  - destruct (find_last (key_is node num) (reqs l')) as [q|] eqn:F'.
    + exfalso. destruct (find_last_some _ _ _ _ F') as [Hq K].
      rewrite find_last_none_iff in F. rewrite F in K; [discriminate|].
      apply reqs_in. apply reqs_in in Hq. eapply Permutation_in; [apply Permutation_sym; eauto|auto].
    + rewrite F1, F2.
      destruct (group_of n node num) eqn:X; destruct (group_of m node num) eqn:Y; auto.
      * exfalso. destruct (run_steps_groups _ _ R1 node num) as (f & t & Hf); [congruence|].
        eapply in_reqs_find; eauto.
      * exfalso. destruct (run_steps_groups _ _ R1 node num) as (f & t & Hf); [congruence|].
        eapply in_reqs_find; eauto.
      * exfalso. destruct (run_steps_groups _ _ R2 node num) as (f & t & Hf); [congruence|].
        eapply in_reqs_find; eauto.
Qed.

Lemma apply_twice : forall n n', apply_requests n = Ok n' -> apply_requests n' = Ok n'.
Proof.
  intros n n' H. unfold apply_requests in H.
  destruct (apply_all n (n_pending n)) as [x| |]; cbn in H; try discriminate.
  injection H as <-. reflexivity.
Qed.

(** The root name. *)
Lemma root_first : forall l n, n_root n = "" ->
  n_root (fold_left set_root_name l n) =
  match find (fun s => negb (String.eqb s "")) l with Some s => s | None => "" end.
Proof.
  assert (K : forall l n, n_root n <> "" -> n_root (fold_left set_root_name l n) = n_root n).
  { induction l; cbn; intros n H; [reflexivity|]. unfold set_root_name at 2.
    destruct (String.eqb_spec (n_root n) ""); [contradiction|]. auto. }
  induction l as [|s l IH]; cbn [fold_left find]; intros n H; [exact H|].
  unfold set_root_name at 2. rewrite H. cbn [String.eqb].
  destruct (String.eqb_spec s ""); cbn [negb].
  - subst. apply IH. reflexivity.
  - rewrite K; cbn; auto.
Qed.

(** ** Symbols *)
Record sym_ok (y : symbols) : Prop := mkSymOk {
  so_nodup : NoDup (y_names y);
  so_index : forall s i, lookup (y_index y) s = Some i ->
    0 <= i /\ nth_error (y_names y) (Z.to_nat i) = Some s;
  so_names : forall s, In s (y_names y) -> lookup (y_index y) s <> None }.

Lemma first_index_from_shift : forall A (p : A -> bool) l i,
  first_index_from p l (S i) = option_map S (first_index_from p l i).
Proof.
  induction l; intros i; cbn; [reflexivity|]. destruct (p a); [reflexivity|]. apply IHl.
Qed.

Lemma first_index_new : forall s l, ~ In s l ->
  first_index (fun x => String.eqb x s) (l ++ [s]) = Some (List.length l).
Proof.
  unfold first_index. induction l as [|a l IH]; intros H.
  - cbn. rewrite String.eqb_refl. reflexivity.
  - cbn [app first_index_from]. destruct (String.eqb_spec a s).
    + subst. exfalso. apply H. left. reflexivity.
    + rewrite first_index_from_shift, IH; [reflexivity|]. intros C. apply H. right. exact C.
Qed.

Lemma add_name_cases : forall y s, sym_ok y ->
  (In s (y_names y) /\ add_name y s = y) \/
  (~ In s (y_names y) /\
   add_name y s = mkSyms (y_names y ++ [s]) ((s, zlen (y_names y)) :: y_index y)).
Proof.
  intros y s [ND IX NM]. unfold add_name. destruct (lookup (y_index y) s) as [i|] eqn:L.
  - left. split; [|reflexivity]. destruct (IX _ _ L) as [_ E]. eapply nth_error_In; eauto.
  - right. assert (H : ~ In s (y_names y)) by (intros C; apply NM in C; contradiction).
    split; [exact H|]. rewrite first_index_new by exact H. reflexivity.
Qed.

Lemma add_name_ok : forall y s, sym_ok y -> sym_ok (add_name y s).
Proof.
  intros y s H. destruct (add_name_cases y s H) as [[_ ->]|[NI ->]]; [exact H|].
  destruct H as [ND IX NM]. split; cbn [y_names y_index].
  - apply NoDup_Add with (a := s) (l := y_names y).
    + replace (y_names y) with (y_names y ++ []) at 1 by apply app_nil_r. apply Add_app.
    + auto.
  - intros x i Hx. cbn in Hx. destruct (String.eqb_spec s x).
    + injection Hx as <-. subst. unfold zlen. split; [lia|]. rewrite Nat2Z.id.
      rewrite nth_error_app2 by lia. rewrite Nat.sub_diag. reflexivity.
    + destruct (IX _ _ Hx) as [I0 IE]. split; [exact I0|].
      rewrite nth_error_app1; [exact IE|]. apply nth_error_Some. congruence.
  - intros x Hx. cbn. destruct (String.eqb_spec s x); [discriminate|].
    apply in_app_iff in Hx. destruct Hx as [|[|[]]]; [auto|congruence].
Qed.

Lemma add_names_ok : forall l y, sym_ok y -> sym_ok (add_names y l).
Proof. induction l; cbn; intros; [auto|]. apply IHl. apply add_name_ok. auto. Qed.

Lemma no_symbols_ok : sym_ok no_symbols.
Proof.
  split; cbn; [constructor|discriminate|intros s []].
Qed.

Lemma add_names_distinct : forall l y, sym_ok y ->
  y_names (add_names y l) = y_names y ++ distinct (y_names y) l.
Proof.
  assert (EX : forall l1 l2, (forall s, In s l1 <-> In s l2) ->
    forall l, distinct l1 l = distinct l2 l).
  { intros l1 l2 H l. revert l1 l2 H. induction l; intros l1 l2 H; cbn; [reflexivity|].
    replace (existsb (String.eqb a) l1) with (existsb (String.eqb a) l2).
    - destruct (existsb (String.eqb a) l2); [auto|]. f_equal. apply IHl.
      intros s. cbn. rewrite H. reflexivity.
    - destruct (existsb (String.eqb a) l2) eqn:E2; symmetry.
      + apply existsb_exists in E2. destruct E2 as (x & Hx & Q). apply existsb_exists.
        exists x. split; [apply H; auto|auto].
      + destruct (existsb (String.eqb a) l1) eqn:E1; [|reflexivity].
        apply existsb_exists in E1. destruct E1 as (x & Hx & Q).
        assert (existsb (String.eqb a) l2 = true); [|congruence].
        apply existsb_exists. exists x. split; [apply H; auto|auto]. }
  induction l as [|s l IH]; intros y H; cbn.
  - rewrite app_nil_r. reflexivity.
  - change (fold_left add_name l (add_name y s)) with (add_names (add_name y s) l).
    rewrite IH by (apply add_name_ok; auto).
    destruct (add_name_cases y s H) as [[IN ->]|[NI ->]].
    + replace (existsb (String.eqb s) (y_names y)) with true; [reflexivity|].
      symmetry. apply existsb_exists. exists s. split; [auto|apply String.eqb_refl].
    + replace (existsb (String.eqb s) (y_names y)) with false.
      * cbn [y_names]. rewrite <- app_assoc. cbn. f_equal. f_equal. apply EX.
        intros x. rewrite in_app_iff. cbn. intuition.
      * symmetry. destruct (existsb (String.eqb s) (y_names y)) eqn:E; [|reflexivity].
        apply existsb_exists in E. destruct E as (x & Hx & Q). apply String.eqb_eq in Q.
        subst. contradiction.
Qed.

Lemma symbol_index : forall l s i, nth_error (distinct [] l) i = Some s ->
  symbol (add_names no_symbols l) s = Z.of_nat i.
Proof.
  intros l s i H. pose proof (add_names_ok l _ no_symbols_ok) as [ND IX NM].
  pose proof (add_names_distinct l _ no_symbols_ok) as D. cbn in D.
  unfold symbol. destruct (lookup _ s) as [k|] eqn:L.
  - destruct (IX _ _ L) as [K0 KE]. rewrite D in KE, ND.
    rewrite NoDup_nth_error in ND.
    assert (Z.to_nat k = i); [|lia].
    apply ND; [apply nth_error_Some; congruence|congruence].
  - exfalso. eapply NM; [|exact L]. rewrite D. eapply nth_error_In; eauto.
Qed.

Lemma distinct_in : forall l seen s, ~ In s seen -> In s l -> In s (distinct seen l).
Proof.
  induction l as [|a l IH]; cbn; intros seen s NS H; [contradiction|].
  destruct (existsb (String.eqb a) seen) eqn:E.
  - destruct H as [->|H]; [|auto]. exfalso. apply existsb_exists in E.
    destruct E as (x & Hx & Q). apply String.eqb_eq in Q. subst. contradiction.
  - destruct (String.eqb_spec a s); [left; auto|]. right.
    destruct H as [->|H]; [congruence|]. apply IH; [|exact H]. cbn. intuition.
Qed.

Lemma in_distinct : forall l seen s, In s (distinct seen l) -> In s l.
Proof.
  induction l as [|a l IH]; cbn; intros seen s H; [contradiction|].
  destruct (existsb (String.eqb a) seen); [eauto|]. destruct H as [|H]; eauto.
Qed.

Lemma symbol_back : forall l s, In s l ->
  0 <= symbol (add_names no_symbols l) s < zlen (distinct [] l) /\
  symbol_to_string (add_names no_symbols l) (symbol (add_names no_symbols l) s) = Ok s.
Proof.
  intros l s H. assert (D : In s (distinct [] l)) by (apply distinct_in; auto).
  apply In_nth_error in D. destruct D as [i D].
  rewrite (symbol_index _ _ _ D). unfold symbol_to_string.
  rewrite (add_names_distinct l _ no_symbols_ok). cbn [app no_symbols y_names].
  assert (LT : (i < List.length (distinct [] l))%nat) by (apply nth_error_Some; congruence).
  unfold zlen. split; [lia|].
  destruct (Z.leb_spec (Z.of_nat (List.length (distinct [] l))) (Z.of_nat i)); [lia|].
  unfold zget. destruct (Z.ltb_spec (Z.of_nat i) 0); [lia|]. rewrite Nat2Z.id, D. reflexivity.
Qed.

Lemma symbol_distinct : forall l s t, In s l -> In t l ->
  symbol (add_names no_symbols l) s = symbol (add_names no_symbols l) t -> s = t.
Proof.
  intros l s t Hs Ht E. destruct (symbol_back l s Hs) as [_ A].
  destruct (symbol_back l t Ht) as [_ B]. congruence.
Qed.

Lemma symbol_unknown : forall l s, ~ In s l -> symbol (add_names no_symbols l) s = -1.
Proof.
  intros l s H. unfold symbol. destruct (lookup _ s) as [k|] eqn:L; [|reflexivity].
  exfalso. pose proof (add_names_ok l _ no_symbols_ok) as [ND IX NM].
  destruct (IX _ _ L) as [_ E]. apply nth_error_In in E.
  rewrite (add_names_distinct l _ no_symbols_ok) in E. cbn in E. apply in_distinct in E. auto.
Qed.

Lemma symbol_stable : forall l l' s, In s l ->
  symbol (add_names no_symbols (l ++ l')) s = symbol (add_names no_symbols l) s.
Proof.
  assert (K : forall l l' seen, exists r, distinct seen (l ++ l') = distinct seen l ++ r).
  { induction l as [|a l IH]; intros l' seen; cbn; [eexists; reflexivity|].
    destruct (existsb (String.eqb a) seen); [apply IH|].
    destruct (IH l' (a :: seen)) as [r ->]. eexists. reflexivity. }
  intros l l' s H. assert (D : In s (distinct [] l)) by (apply distinct_in; auto).
  apply In_nth_error in D. destruct D as [i D]. rewrite (symbol_index _ _ _ D).
  apply symbol_index. destruct (K l l' []) as [r ->].
  rewrite nth_error_app1; [exact D|]. apply nth_error_Some. congruence.
Qed.

(** Pairs of symbols. *)
Lemma node_field_value : forall y a b,
  node_field_symbol y a b = Some (u32 (symbol y a * 65536 + symbol y b)).
Proof.
  intros y a b. unfold node_field_symbol, u32. change (2 ^ 32) with 4294967296.
  pose proof (Z.mod_pos_bound (symbol y a) 4294967296 ltac:(lia)).
  pose proof (Z.mod_pos_bound (symbol y b) 4294967296 ltac:(lia)).
  destruct (Z.ltb_spec (symbol y a mod 4294967296) 0); [lia|].
  destruct (Z.ltb_spec (symbol y b mod 4294967296) 0); [lia|]. cbn [orb].
  rewrite Z.shiftl_mul_pow2 by lia. change (2 ^ 16) with 65536.
  f_equal. rewrite <- Z.add_mod by lia. rewrite <- Z.add_mod_idemp_l by lia.
  rewrite Z.mul_mod_idemp_l by lia. rewrite Z.add_mod_idemp_l by lia. reflexivity.
Qed.

Lemma split_pair : forall i, 0 <= i < 4294967296 ->
  Z.shiftr i 16 = i / 65536 /\
  u32 (i - u32 (Z.shiftl (Z.shiftr i 16) 16)) = i mod 65536.
Proof.
  intros i H. rewrite Z.shiftr_div_pow2 by lia. change (2 ^ 16) with 65536.
  split; [reflexivity|]. rewrite Z.shiftl_mul_pow2 by lia. change (2 ^ 16) with 65536.
  unfold u32. change (2 ^ 32) with 4294967296.
  pose proof (Z.div_mod i 65536 ltac:(lia)) as E.
  pose proof (Z.mod_pos_bound i 65536 ltac:(lia)).
  assert (0 <= i / 65536) by (apply Z.div_pos; lia).
  rewrite (Z.mod_small (i / 65536 * 65536)) by lia.
  replace (i - i / 65536 * 65536) with (i mod 65536) by lia.
  apply Z.mod_small. lia.
Qed.

Lemma pair_back : forall l a b, In a l -> In b l -> a <> "" -> b <> "" ->
  zlen (distinct [] l) <= 65536 ->
  exists i, node_field_symbol (add_names no_symbols l) a b = Some i /\
    symbol_to_names (add_names no_symbols l) i = Ok (Some (a, b)).
Proof.
  intros l a b Ha Hb Na Nb LN. rewrite node_field_value. eexists. split; [reflexivity|].
  destruct (symbol_back l a Ha) as [Ra Sa]. destruct (symbol_back l b Hb) as [Rb Sb].
  set (y := add_names no_symbols l) in *.
  unfold u32 at 1. change (2 ^ 32) with 4294967296.
  rewrite Z.mod_small by lia. unfold symbol_to_names.
  destruct (split_pair (symbol y a * 65536 + symbol y b)) as [E1 E2]; [lia|].
  rewrite E2, E1.
  replace ((symbol y a * 65536 + symbol y b) / 65536) with (symbol y a).
  2: { rewrite Z.div_add_l by lia. rewrite Z.div_small by lia. lia. }
  replace ((symbol y a * 65536 + symbol y b) mod 65536) with (symbol y b).
  2: { rewrite Z.add_comm, Z.mod_add by lia. symmetry. apply Z.mod_small. lia. }
  rewrite Sa, Sb. cbn [bind].
  destruct (String.eqb_spec a ""); [contradiction|].
  destruct (String.eqb_spec b ""); [contradiction|]. reflexivity.
Qed.

Lemma same_table_field : forall l a b c d, In a l -> In b l -> In c l -> In d l ->
  zlen (distinct [] l) <= 65536 ->
  exists i j, node_field_symbol (add_names no_symbols l) a b = Some i /\
    node_field_symbol (add_names no_symbols l) c d = Some j /\
    (is_same_table i j = true <-> a = c) /\ (is_same_field i j = true <-> b = d).
Proof.
  intros l a b c d Ha Hb Hc Hd LN. rewrite !node_field_value.
  destruct (symbol_back l a Ha) as [Ra _]. destruct (symbol_back l b Hb) as [Rb _].
  destruct (symbol_back l c Hc) as [Rc _]. destruct (symbol_back l d Hd) as [Rd _].
  set (y := add_names no_symbols l) in *.
  eexists. eexists. split; [reflexivity|]. split; [reflexivity|].
  unfold u32. change (2 ^ 32) with 4294967296. rewrite !Z.mod_small by lia.
  unfold is_same_table, is_same_field.
  destruct (split_pair (symbol y a * 65536 + symbol y b)) as [E1 E2]; [lia|].
  destruct (split_pair (symbol y c * 65536 + symbol y d)) as [F1 F2]; [lia|].
  rewrite E2, F2, E1, F1, !Z.eqb_eq.
  assert (D : forall u v, 0 <= v < 65536 -> (u * 65536 + v) / 65536 = u).
  { intros u v Hv. rewrite Z.div_add_l by lia. rewrite Z.div_small by lia. lia. }
  assert (M : forall u v, 0 <= v < 65536 -> (u * 65536 + v) mod 65536 = v).
  { intros u v Hv. rewrite Z.add_comm, Z.mod_add by lia. apply Z.mod_small. lia. }
  rewrite !D, !M by lia. split; split; intros E; try (subst; reflexivity);
    eapply symbol_distinct; eauto.
Qed.

(** More than 65536 names: two fields of different tables get one number. *)
Fixpoint word (n : nat) : string :=
  match n with O => "" | S n' => String "a" (word n') end.

Definition many (n : nat) : list string := map word (seq 1 (S n)).

Lemma word_inj : forall i j, word i = word j -> i = j.
Proof.
  induction i; destruct j; cbn; intros H; try discriminate; [reflexivity|].
  injection H as H. f_equal. auto.
Qed.

Lemma distinct_nodup : forall l seen, NoDup l -> (forall s, In s l -> ~ In s seen) ->
  distinct seen l = l.
Proof.
  induction l as [|a l IH]; cbn; intros seen ND H; [reflexivity|].
  inversion ND; subst. replace (existsb (String.eqb a) seen) with false.
  - f_equal. apply IH; [auto|]. intros s Hs [->|C]; [contradiction|].
    eapply H; eauto.
  - symmetry. destruct (existsb (String.eqb a) seen) eqn:E; [|reflexivity].
    apply existsb_exists in E. destruct E as (x & Hx & Q). apply String.eqb_eq in Q. subst.
    exfalso. eapply (H x); eauto.
Qed.

Lemma many_symbol : forall n k, (k <= n)%nat ->
  symbol (add_names no_symbols (many n)) (word (S k)) = Z.of_nat k.
Proof.
  intros n k Hk. apply symbol_index. rewrite distinct_nodup.
  - unfold many. rewrite nth_error_map.
    replace (nth_error (seq 1 (S n)) k) with (Some (S k)); [reflexivity|].
    symmetry. rewrite nth_error_nth' with (d := O); [|rewrite seq_length; lia].
    rewrite seq_nth by lia. reflexivity.
  - unfold many. apply FinFun.Injective_map_NoDup; [intros i j; apply word_inj|apply seq_NoDup].
  - intros s _ [].
Qed.

Lemma pair_collision_at : forall n, Z.of_nat n = 65536 -> exists l a b c d,
  In a l /\ In b l /\ In c l /\ In d l /\ (a, b) <> (c, d) /\
  node_field_symbol (add_names no_symbols l) a b = node_field_symbol (add_names no_symbols l) c d.
Proof.
  intros n Hn. exists (many n), (word 1), (word (S n)), (word 2), (word 1).
  assert (I : forall k, (k <= n)%nat -> In (word (S k)) (many n)).
  { intros k Hk. unfold many. apply in_map. apply in_seq. lia. }
  repeat (split; [apply I; lia|]). split.
  - intros C. assert (E : word 1 = word 2) by congruence. discriminate E.
  - rewrite !node_field_value, !many_symbol by lia. rewrite Hn. reflexivity.
Qed.

Lemma pair_collision : exists l a b c d, In a l /\ In b l /\ In c l /\ In d l /\ (a, b) <> (c, d) /\
  node_field_symbol (add_names no_symbols l) a b = node_field_symbol (add_names no_symbols l) c d.
Proof. apply (pair_collision_at (Z.to_nat 65536)). apply Z2Nat.id. lia. Qed.

(** ** Integers *)
Lemma max_int_spec : forall l, l <> [] ->
  exists m, max_int l = Ok m /\ In m l /\ forall x, In x l -> x <= m.
Proof.
  assert (K : forall l r, let m := fold_left (fun r v => if r <? v then v else r) l r in
    (m = r \/ In m l) /\ r <= m /\ forall x, In x l -> x <= m).
  { induction l as [|a l IH]; intros r; cbn.
    - repeat split; [auto|lia|intros x []].
    - destruct (IH (if r <? a then a else r)) as (H1 & H2 & H3).
      destruct (Z.ltb_spec r a); (split; [|split]).
      + destruct H1 as [->|]; auto.
      + lia.
      + intros x [<-|Hx]; [lia|auto].
      + destruct H1 as [->|]; auto.
      + lia.
      + intros x [<-|Hx]; [lia|auto]. }
  intros [|a l] H; [congruence|]. unfold max_int. eexists. split; [reflexivity|].
  destruct (K (a :: l) a) as (H1 & H2 & H3). split; [|exact H3].
  destruct H1 as [E|E]; [rewrite E; left; reflexivity|exact E].
Qed.

Lemma min_int_spec : forall l, l <> [] ->
  exists m, min_int l = Ok m /\ In m l /\ forall x, In x l -> m <= x.
Proof.
  assert (K : forall l r, let m := fold_left (fun r v => if v <? r then v else r) l r in
    (m = r \/ In m l) /\ m <= r /\ forall x, In x l -> m <= x).
  { induction l as [|a l IH]; intros r; cbn.
    - repeat split; [auto|lia|intros x []].
    - destruct (IH (if a <? r then a else r)) as (H1 & H2 & H3).
      destruct (Z.ltb_spec a r); (split; [|split]).
      + destruct H1 as [->|]; auto.
      + lia.
      + intros x [<-|Hx]; [lia|auto].
      + destruct H1 as [->|]; auto.
      + lia.
      + intros x [<-|Hx]; [lia|auto]. }
  intros [|a l] H; [congruence|]. unfold min_int. eexists. split; [reflexivity|].
  destruct (K (a :: l) a) as (H1 & H2 & H3). split; [|exact H3].
  destruct H1 as [E|E]; [rewrite E; left; reflexivity|exact E].
Qed.

Lemma sum_ints_perm : forall l l', Permutation l l' -> sum_ints l = sum_ints l'.
Proof.
  assert (K : forall l s, fold_left (fun s v => s + v) l s = s + fold_right Z.add 0 l).
  { induction l; intros s; cbn; [lia|]. rewrite IHl. lia. }
  intros l l' H. unfold sum_ints. rewrite !K. f_equal.
  induction H; cbn; lia.
Qed.

Lemma sum_ints_app : forall l l', sum_ints (l ++ l') = sum_ints l + sum_ints l'.
Proof.
  assert (K : forall l s, fold_left (fun s v => s + v) l s = s + fold_right Z.add 0 l).
  { induction l; intros s; cbn; [lia|]. rewrite IHl. lia. }
  intros l l'. unfold sum_ints. rewrite fold_left_app, !K. lia.
Qed.
