(** Property theorems about type names, name tables, symbols and field classes
    (C40-C42, C50, C57). *)
From Coq Require Import ZArith List Bool String Lia Permutation.
From Verif Require Import GoLib TableModel NameModel NameSpec NameProofs NameProofs2.
Import ListNotations.
Open Scope string_scope.
Open Scope list_scope.
Open Scope Z_scope.

(** ** C40 *)

(** Full statement: every scalar name is classified by its width.  Missing:
    uint8, see below. *)
Theorem C40_scalar_partial : forall n t e, t <> SUint8 ->
  exists g, get_type_group n (scalar_name t e) = Ok g /\ says g [CBasic (width t)].
Proof. exact scalar_group. Qed.
Print Assumptions C40_scalar_partial.

Theorem C40_vector_scalar_partial : forall n t e, t <> SUint8 ->
  lookup (n_unions n) ("[]" ++ scalar_name t e)%string = None ->
  exists g, get_type_group n ("[]" ++ scalar_name t e)%string = Ok g /\
    says g [CSlice; CBasic (width t)].
Proof. exact vector_scalar_group. Qed.
Print Assumptions C40_vector_scalar_partial.

(** "unt8" stands for "uint8" in the table, so uint8 and vectors of uint8 are
    taken for tables. *)
Theorem C40_uint8_refuted : forall e,
  exists g h, get_type_group no_names (scalar_name SUint8 e) = Ok g /\ says g [CTable] /\
    get_type_group no_names ("[]" ++ scalar_name SUint8 e)%string = Ok h /\
    says h [CSlice; CTable].
Proof. exact uint8_table. Qed.
Print Assumptions C40_uint8_refuted.

(** Names of the schema, whatever the schema declares. *)
Theorem C40_named_partial : forall l n s, run_steps no_names l = Ok n -> plain s ->
  exists g, get_type_group n s = Ok g /\
    (declared_union l s -> says g [CUnion]) /\
    (~ declared_union l s -> declared_struct l s -> says g [CStruct]) /\
    (~ declared_union l s -> ~ declared_struct l s -> says g [CTable]).
Proof. exact plain_classes. Qed.
Print Assumptions C40_named_partial.

Theorem C40_vector_named_partial : forall n e,
  (forall k, ~ In (e, k) name_to_type) -> prefix "byte" e = false ->
  lookup (n_unions n) ("[]" ++ e)%string = None ->
  lookup (n_structs n) ("[]" ++ e)%string = None ->
  exists g, get_type_group n ("[]" ++ e)%string = Ok g /\ says g [CSlice; CTable].
Proof. exact vector_named_group. Qed.
Print Assumptions C40_vector_named_partial.

(** A vector of structs is classified as a vector of tables. *)
Theorem C40_struct_vector_refuted : exists n g, run_steps no_names [IStruct "Record" true] = Ok n /\
  get_type_group n "[]Record" = Ok g /\ says g [CSlice; CTable].
Proof. exact struct_vector. Qed.
Print Assumptions C40_struct_vector_refuted.

(** The first two bytes of a name that is no vector are dropped as well. *)
Theorem C40_tail_refuted : exists g, get_type_group no_names "MyBool" = Ok g /\ says g [CBasic 1].
Proof. exact tail_scalar. Qed.
Print Assumptions C40_tail_refuted.

Theorem C40_bytes_prefix_refuted : exists g, get_type_group no_names "[]byteRange" = Ok g /\
  says g [CSlice; CBasic 1].
Proof. exact bytes_prefix. Qed.
Print Assumptions C40_bytes_prefix_refuted.

(** Exactly the names of fewer than two bytes that are no unions panic. *)
Theorem C40_panics : forall n s,
  (get_type_group n s = Panic <-> (String.length s < 2)%nat /\ lookup (n_unions n) s = None) /\
  get_type_group n s <> OutOfFuel.
Proof. exact group_panic. Qed.
Print Assumptions C40_panics.

Theorem C40_short_name_refuted : exists l, run_steps no_names l = Panic /\
  l = [IStruct "T" false; IField "Root" "F" "T" 0].
Proof. exact short_panics. Qed.
Print Assumptions C40_short_name_refuted.

Theorem C40_is_list : forall e v, is_list_name ("[]" ++ e)%string v = Ok true.
Proof. exact is_list_spec. Qed.
Print Assumptions C40_is_list.

Theorem C40_is_not_list : forall s v, plain s -> is_list_name s v = Ok false.
Proof. exact is_list_plain. Qed.
Print Assumptions C40_is_not_list.

Theorem C40_is_list_short : forall s v, (String.length s < 2)%nat -> s <> "" ->
  is_list_name s v = Panic.
Proof. exact is_list_short. Qed.
Print Assumptions C40_is_list_short.

Example C40_example :
  let l := [IAlias "Index" "IndexNum"; IStruct "Record" true; IStruct "File" false] in
  exists n, run_steps no_names l = Ok n /\ plain "Index" /\ plain "Record" /\ plain "File" /\
    get_type_group n "Index" = Ok 8 /\ get_type_group n "Record" = Ok 2 /\
    get_type_group n "File" = Ok 4 /\ get_type_group n "[]File" = Ok 20 /\
    get_type_group n "[]byte" = Ok 48 /\ get_type_group n "[]Int16" = Ok 80 /\
    get_type_group n "uint64" = Ok 256.
Proof.
  cbv zeta. eexists. split; [reflexivity|].
  assert (P : forall s, (forall a b r, s = String a (String b r) ->
      (2 <= String.length s)%nat /\ prefix "[]" s = false /\
      lookup name_to_type s = None /\ lookup name_to_type r = None) ->
      (exists a b r, s = String a (String b r)) -> plain s).
  { intros s H (a & b & r & E). destruct (H a b r E) as (H1 & H2 & H3 & H4).
    assert (K : forall (m : list (string * scalar)) x, lookup m x = None -> forall k, ~ In (x, k) m).
    { induction m as [|(y, v) m IH]; cbn; intros x L k; [auto|].
      destruct (String.eqb_spec y x); [discriminate|].
      intros [C|C]; [congruence|]. eapply IH; eauto. }
    split; [exact H1|]. split; [exact H2|]. split; [apply K; exact H3|].
    intros a' b' r' k E'. rewrite E in E'. injection E' as <- <- <-. apply K. exact H4. }
  repeat (split; [apply P; [intros a b r E; injection E as <- <- <-; repeat split; cbn; lia|
                            eexists; eexists; eexists; reflexivity]|]).
  repeat split.
Qed.

(** ** C41 *)
Theorem C41_index : forall l s i, nth_error (distinct [] l) i = Some s ->
  symbol (add_names no_symbols l) s = Z.of_nat i.
Proof. exact symbol_index. Qed.
Print Assumptions C41_index.

Theorem C41_back : forall l s, In s l ->
  0 <= symbol (add_names no_symbols l) s < zlen (distinct [] l) /\
  symbol_to_string (add_names no_symbols l) (symbol (add_names no_symbols l) s) = Ok s.
Proof. exact symbol_back. Qed.
Print Assumptions C41_back.

Theorem C41_injective : forall l s t, In s l -> In t l ->
  symbol (add_names no_symbols l) s = symbol (add_names no_symbols l) t -> s = t.
Proof. exact symbol_distinct. Qed.
Print Assumptions C41_injective.

Theorem C41_unknown : forall l s, ~ In s l -> symbol (add_names no_symbols l) s = -1.
Proof. exact symbol_unknown. Qed.
Print Assumptions C41_unknown.

Theorem C41_stable : forall l l' s, In s l ->
  symbol (add_names no_symbols (l ++ l')) s = symbol (add_names no_symbols l) s.
Proof. exact symbol_stable. Qed.
Print Assumptions C41_stable.

(** Pairs of names.  Full statement: for all registered names.  Missing: more
    than 65536 names and the empty name, see below. *)
Theorem C41_pair_partial : forall l a b, In a l -> In b l -> a <> "" -> b <> "" ->
  zlen (distinct [] l) <= 65536 ->
  exists i, node_field_symbol (add_names no_symbols l) a b = Some i /\
    symbol_to_names (add_names no_symbols l) i = Ok (Some (a, b)).
Proof. exact pair_back. Qed.
Print Assumptions C41_pair_partial.

Theorem C41_same_partial : forall l a b c d, In a l -> In b l -> In c l -> In d l ->
  zlen (distinct [] l) <= 65536 ->
  exists i j, node_field_symbol (add_names no_symbols l) a b = Some i /\
    node_field_symbol (add_names no_symbols l) c d = Some j /\
    (is_same_table i j = true <-> a = c) /\ (is_same_field i j = true <-> b = d).
Proof. exact same_table_field. Qed.
Print Assumptions C41_same_partial.

Theorem C41_collision_refuted : exists l a b c d,
  In a l /\ In b l /\ In c l /\ In d l /\ (a, b) <> (c, d) /\
  node_field_symbol (add_names no_symbols l) a b = node_field_symbol (add_names no_symbols l) c d.
Proof. exact pair_collision. Qed.
Print Assumptions C41_collision_refuted.

(** An unregistered name is not reported. *)
Theorem C41_unknown_pair_refuted : exists l i, ~ In "Ghost" l /\
  node_field_symbol (add_names no_symbols l) "Ghost" "name" = Some i /\
  node_field_symbol (add_names no_symbols l) "name" "Ghost" <> None.
Proof. exact unknown_pair. Qed.
Print Assumptions C41_unknown_pair_refuted.

Theorem C41_empty_name_refuted : exists l, In "" l /\ In "File" l /\
  exists i, node_field_symbol (add_names no_symbols l) "File" "" = Some i /\
    symbol_to_names (add_names no_symbols l) i = Ok None.
Proof. exact empty_pair. Qed.
Print Assumptions C41_empty_name_refuted.

Example C41_example :
  let l := ["File"; "name"; "File"; "id"] in
  let y := add_names no_symbols l in
  y_names y = ["File"; "name"; "id"] /\ symbol y "id" = 2 /\ symbol y "x" = -1 /\
  node_field_symbol y "name" "id" = Some 65538 /\
  symbol_to_names y 65538 = Ok (Some ("name", "id")).
Proof. cbn. repeat split. Qed.

(** ** C42 *)
Theorem C42_applied : forall l n, run_steps no_names l = Ok n ->
  exists n', apply_requests n = Ok n' /\ n_pending n' = [] /\
    forall node num typ, declared_field l node num typ ->
      exists g, group_of n' node num = Some g /\ get_type_group n' typ = Ok g.
Proof. exact applied_groups. Qed.
Print Assumptions C42_applied.

Theorem C42_order : forall l l' n m n' m',
  Permutation l l' -> NoDup (field_keys l) ->
  run_steps no_names l = Ok n -> run_steps no_names l' = Ok m ->
  apply_requests n = Ok n' -> apply_requests m = Ok m' ->
  forall node num, group_of n' node num = group_of m' node num.
Proof. exact order_free. Qed.
Print Assumptions C42_order.

(** The initializers themselves are not independent of their order. *)
Theorem C42_order_panic_refuted : exists l l', Permutation l l' /\ NoDup (field_keys l) /\
  run_steps no_names l = Panic /\ exists n, run_steps no_names l' = Ok n.
Proof. exact order_matters. Qed.
Print Assumptions C42_order_panic_refuted.

Theorem C42_twice : forall n n', apply_requests n = Ok n' -> apply_requests n' = Ok n'.
Proof. exact apply_twice. Qed.
Print Assumptions C42_twice.

Theorem C42_root : forall l n, n_root n = "" ->
  n_root (fold_left set_root_name l n) =
  match find (fun s => negb (String.eqb s "")) l with Some s => s | None => "" end.
Proof. exact root_first. Qed.
Print Assumptions C42_root.

(** The field is registered before its type is known to be a struct and gets
    its group when the requests are applied. *)
Example C42_example :
  let l := [IField "Root" "Rec" "Record" 3; IField "Root" "Idx" "Index" 4;
            IStruct "Record" true; IAlias "Index" "IndexNum"] in
  declared_field l "Root" 3 "Record" /\ NoDup (field_keys l) /\
  match run_steps no_names l with
  | Ok n =>
      match apply_requests n with
      | Ok n' =>
          group_of n "Root" 3 = Some 4 /\ group_of n' "Root" 3 = Some 2 /\
          group_of n "Root" 4 = Some 4 /\ group_of n' "Root" 4 = Some 8 /\
          n_root (fold_left set_root_name [""; "Root"; "File"] n') = "Root"
      | _ => False
      end
  | _ => False
  end.
Proof.
  cbv zeta. split; [|split].
  - exists [], "Rec". eexists. split; [reflexivity|]. cbn. intuition congruence.
  - repeat constructor; cbn; intuition congruence.
  - vm_compute. repeat split.
Qed.

(** ** C50 *)
Theorem C50_field_tests : forall i,
  is_field_struct i = Z.testbit i (class_bit CStruct) /\
  is_field_table i = Z.testbit i (class_bit CTable) /\
  is_field_union i = Z.testbit i (class_bit CUnion) /\
  is_field_slice i = Z.testbit i (class_bit CSlice) /\
  is_field_bytes i = Z.testbit i (class_bit CSlice) && Z.testbit i (class_bit (CBasic 1)) /\
  is_field_basic i = existsb (fun w => Z.testbit i (class_bit (CBasic w))) [1; 2; 4; 8]%nat.
Proof. exact field_tests. Qed.
Print Assumptions C50_field_tests.

Theorem C50_one_class : forall n s g, get_type_group n s = Ok g ->
  exists c, (c = CStruct \/ c = CTable \/ c = CUnion \/
             exists w, (w = 1 \/ w = 2 \/ w = 4 \/ w = 8)%nat /\ c = CBasic w) /\
    (says g [c] \/ (prefix "[]" s = true /\ says g [CSlice; c])).
Proof. exact group_shape. Qed.
Print Assumptions C50_one_class.

Example C50_example :
  is_field_bytes 48 = true /\ is_field_table 48 = false /\ is_field_struct (-1) = true /\
  get_type_group no_names "[]byte" = Ok 48.
Proof. repeat split. Qed.

(** ** C57 *)
Theorem C57_max : forall l, l <> [] ->
  exists m, max_int l = Ok m /\ In m l /\ forall x, In x l -> x <= m.
Proof. exact max_int_spec. Qed.
Print Assumptions C57_max.

Theorem C57_min : forall l, l <> [] ->
  exists m, min_int l = Ok m /\ In m l /\ forall x, In x l -> m <= x.
Proof. exact min_int_spec. Qed.
Print Assumptions C57_min.

Theorem C57_sum_order : forall l l', Permutation l l' -> sum_ints l = sum_ints l'.
Proof. exact sum_ints_perm. Qed.
Print Assumptions C57_sum_order.

Theorem C57_sum_app : forall l l', sum_ints (l ++ l') = sum_ints l + sum_ints l'.
Proof. exact sum_ints_app. Qed.
Print Assumptions C57_sum_app.

Example C57_example : max_int [3; -7; 12; 12; 0] = Ok 12 /\ min_int [3; -7; 12] = Ok (-7) /\
  sum_ints [3; -7; 12] = 8 /\ max_int [] = Panic.
Proof. repeat split. Qed.
