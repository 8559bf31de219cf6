(** Inputs on which the name tables do not do what their names say. *)
From Coq Require Import ZArith List Bool String Lia Permutation.
From Verif Require Import GoLib TableModel NameModel NameSpec NameProofs.
Import ListNotations.
Open Scope string_scope.
Open Scope list_scope.
Open Scope Z_scope.

Lemma uint8_table : forall e,
  exists g h, get_type_group no_names (scalar_name SUint8 e) = Ok g /\ says g [CTable] /\
    get_type_group no_names ("[]" ++ scalar_name SUint8 e)%string = Ok h /\
    says h [CSlice; CTable].
Proof.
  intros e. exists (2 ^ 2), (Z.lor (2 ^ 4) (2 ^ 2)).
  split; [destruct e; reflexivity|]. split; [apply says_one; [lia|reflexivity]|].
  split; [destruct e; reflexivity|]. apply says_two; [lia|lia|reflexivity].
Qed.

Lemma tail_scalar : exists g, get_type_group no_names "MyBool" = Ok g /\ says g [CBasic 1].
Proof. exists (2 ^ 5). split; [reflexivity|]. apply says_one; [lia|reflexivity]. Qed.

Lemma bytes_prefix : exists g, get_type_group no_names "[]byteRange" = Ok g /\
  says g [CSlice; CBasic 1].
Proof.
  exists (Z.lor (2 ^ 4) (2 ^ 5)). split; [reflexivity|]. apply says_two; [lia|lia|reflexivity].
Qed.

Lemma struct_vector : exists n g, run_steps no_names [IStruct "Record" true] = Ok n /\
  get_type_group n "[]Record" = Ok g /\ says g [CSlice; CTable].
Proof.
  eexists. exists (Z.lor (2 ^ 4) (2 ^ 2)). split; [reflexivity|]. split; [reflexivity|].
  apply says_two; [lia|lia|reflexivity].
Qed.

Lemma short_panics : exists l, run_steps no_names l = Panic /\
  l = [IStruct "T" false; IField "Root" "F" "T" 0].
Proof. eexists. split; [|reflexivity]. reflexivity. Qed.

Lemma order_matters : exists l l', Permutation l l' /\ NoDup (field_keys l) /\
  run_steps no_names l = Panic /\ exists n, run_steps no_names l' = Ok n.
Proof.
  exists [IField "Root" "F" "U" 0; IAlias "U" "Hop"], [IAlias "U" "Hop"; IField "Root" "F" "U" 0].
  split; [apply perm_swap|]. split; [repeat constructor; intros []|]. split; [reflexivity|].
  eexists. reflexivity.
Qed.

Lemma unknown_pair : exists l i, ~ In "Ghost" l /\
  node_field_symbol (add_names no_symbols l) "Ghost" "name" = Some i /\
  node_field_symbol (add_names no_symbols l) "name" "Ghost" <> None.
Proof.
  exists ["File"; "name"], 4294901761. split; [cbn; intuition congruence|].
  split; [reflexivity|]. discriminate.
Qed.

Lemma empty_pair : exists l, In "" l /\ In "File" l /\
  exists i, node_field_symbol (add_names no_symbols l) "File" "" = Some i /\
    symbol_to_names (add_names no_symbols l) i = Ok None.
Proof.
  exists ["File"; ""]. split; [cbn; auto|]. split; [cbn; auto|].
  eexists. split; reflexivity.
Qed.

(** [IsList] looks at the first two bytes of the name. *)
Lemma is_list_spec : forall e v, is_list_name ("[]" ++ e)%string v = Ok true.
Proof.
  intros e v. unfold is_list_name. cbn [append String.eqb].
  cbn [andb str_from2 bind]. f_equal. apply prefix_cons2.
Qed.

Lemma is_list_plain : forall s v, plain s -> is_list_name s v = Ok false.
Proof.
  intros s v (L & P & _). unfold is_list_name. destruct s as [|a [|b r]]; cbn in L; try lia.
  cbn [String.eqb]. cbn [andb str_from2 bind]. f_equal. exact P.
Qed.

Lemma is_list_short : forall s v, (String.length s < 2)%nat -> s <> "" ->
  is_list_name s v = Panic.
Proof.
  intros s v L N. destruct s as [|a [|b r]]; cbn in L; try lia; [congruence|].
  unfold is_list_name. cbn [String.eqb]. reflexivity.
Qed.
