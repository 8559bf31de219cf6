(** Property theorems about the info package (C47). *)
From Coq Require Import ZArith List Bool Lia Permutation.
From Coq Require Import Strings.Byte.
From Verif Require Import GoLib InfoModel InfoSpec InfoProofs2.
Import ListNotations.
Open Scope Z_scope.

Definition le4 (z : Z) : list byte := le_encode 4 z.
Definition le2 (z : Z) : list byte := le_encode 2 z.
Definition bytes (l : list Z) : list byte := map z2b l.

(** A root table with a number, a string, a table and a vector of two tables.
    The last element of the vector ends at 105. *)
Definition sample : list byte :=
  le4 16 ++ le2 12 ++ le2 20 ++ le2 4 ++ le2 8 ++ le2 12 ++ le2 16 ++
  le4 12 ++ le4 7 ++ le4 12 ++ le4 28 ++ le4 32 ++
  le4 5 ++ bytes [104; 101; 108; 108; 111; 0; 0; 0] ++
  le2 6 ++ le2 8 ++ le2 4 ++ le2 0 ++ le4 8 ++ bytes [9; 0; 0; 0] ++
  le4 2 ++ le4 16 ++ le4 24 ++
  le2 8 ++ le2 9 ++ le2 4 ++ le2 8 ++ le4 8 ++ le4 1 ++ bytes [1; 0; 0; 0] ++
  le4 20 ++ le4 2 ++ bytes [2; 0; 0; 0].
Definition num (n : Z) := OptT n false [].
Definition str := OptT 0 false [].
Definition sample_opts : list option_t :=
  [num 4; str; OptT 0 false [num 1]; OptT 0 true [num 4; num 1]].
(** The same bytes with room behind them. *)
Definition sample_buf : gslice := mkSlice sample (zeros 64).
Definition first_to_last : order := fun _ l => l.
Definition last_to_first : order := fun _ l => rev l.

Lemma first_to_last_ok : rearranges first_to_last.
Proof. intros path l. apply Permutation_refl. Qed.
Lemma last_to_first_ok : rearranges last_to_first.
Proof. intros path l. apply Permutation_sym, Permutation_rev. Qed.

Definition len_of (r : res finfo) : res Z := do i <- r; Ok (i_len i).

(** Whatever the orders in which the maps are visited, either the call panics
    for both or it ends for both, with the same Length, Table and Nest. *)
Theorem C47_order : forall fuel ord ord' buf top opts,
  rearranges ord -> rearranges ord' -> zlen (sl_data buf) < 2 ^ 32 -> (depth opts <= fuel)%nat ->
  (get_info fuel ord buf top opts = Panic /\ get_info fuel ord' buf top opts = Panic) \/
  exists i i', get_info fuel ord buf top opts = Ok i /\ get_info fuel ord' buf top opts = Ok i' /\
    i_len i = i_len i' /\ i_table i = i_table i' /\ i_nest i = i_nest i'.
Proof. exact info_order. Qed.
Print Assumptions C47_order.

(** The Length covers the end of every scalar and string reached from the table,
    with exact positions, in a buffer of the size FlatBuffers allows. *)
Theorem C47_covers_partial : forall fuel ord buf top opts i e,
  rearranges ord -> zlen (sl_data buf) <= 2 ^ 31 -> get_info fuel ord buf top opts = Ok i ->
  reaches (sl_data buf) opts top e -> e < 2 ^ 32 -> e <= i_len i.
Proof. exact info_covers. Qed.
Print Assumptions C47_covers_partial.

(** The Length is the position of the table or one of the ends, in the
    arithmetic of the code. *)
Theorem C47_attained : forall fuel ord buf top opts i,
  rearranges ord -> zlen (sl_data buf) < 2 ^ 32 -> get_info fuel ord buf top opts = Ok i ->
  i_len i = top \/ visits u32 (sl_data buf) opts top (i_len i).
Proof. exact info_attained. Qed.
Print Assumptions C47_attained.

(** FetchAll, in any order, leaves the Length as it is. *)
Theorem C47_fetch_all : forall fuel fuel' ord ord' buf top opts i i',
  rearranges ord -> rearranges ord' -> zlen (sl_data buf) < 2 ^ 32 ->
  get_info fuel ord buf top opts = Ok i -> fetch_all fuel' ord' buf i opts = Ok i' ->
  i_len i' = i_len i.
Proof. exact info_all_len. Qed.
Print Assumptions C47_fetch_all.

Example C47_case :
  len_of (get_root_info 3 first_to_last sample_buf sample_opts) = Ok 105 /\
  len_of (get_root_info 3 last_to_first sample_buf sample_opts) = Ok 105 /\
  depth sample_opts = 3%nat /\ reaches sample sample_opts 16 105.
Proof.
  split; [vm_compute; reflexivity|]. split; [vm_compute; reflexivity|]. split; [vm_compute; reflexivity|].
  assert (W : forall n p v, 0 <= p /\ p + Z.of_nat n <= zlen sample /\ le_decode (firstn n (zskip p sample)) = v ->
              word n sample p v) by (unfold word; intuition auto).
  apply (v_under (fun z => z) sample sample_opts 16 3%nat (OptT 0 true [num 4; num 1]) 32 96).
  - exists 16. split; [|split; reflexivity].
    exists 12, 4, 12, 20. repeat split; try (apply W); vm_compute; repeat split; congruence.
  - apply (r_last (fun z => z) sample (OptT 0 true [num 4; num 1]) 32 32 2 24).
    + exists 0, [num 4; num 1]. split; [reflexivity|]. cbn. intuition discriminate.
    + apply W. vm_compute. repeat split; congruence.
    + apply W. vm_compute. repeat split; congruence.
    + apply W. vm_compute. repeat split; congruence.
  - apply (v_scalar (fun z => z) sample [num 4; num 1] 96 1%nat (num 1) 104 1).
    + exists 8. split; [|split; reflexivity].
      exists 20, 76, 8, 9. repeat split; try (apply W); vm_compute; repeat split; congruence.
    + exists false, []. split; [reflexivity|]. cbn. auto.
Qed.

(** A table without fields is not covered: it takes the bytes 8 to 12, the
    Length is 8.  Full statement of [C47_covers_partial]: also for the ends of
    tables. *)
Theorem C47_table_end_refuted : exists l,
  len_of (get_root_info 1 first_to_last (gs_of l) []) = Ok 8 /\
  exists tlen, word 2 l 6 tlen /\ 8 < 8 + tlen /\ 8 + tlen <= zlen l.
Proof.
  exists (le4 8 ++ le2 4 ++ le2 4 ++ le4 4 ++ le4 0). split; [vm_compute; reflexivity|].
  exists 4. unfold word. vm_compute. repeat split; congruence.
Qed.
Print Assumptions C47_table_end_refuted.

(** The same buffer without the bytes behind the table makes it panic. *)
Theorem C47_empty_table_refuted : exists l,
  zlen l = 12 /\ get_root_info 1 first_to_last (gs_of l) [] = Panic.
Proof. exists (le4 8 ++ le2 4 ++ le2 4 ++ le4 4). split; vm_compute; reflexivity. Qed.
Print Assumptions C47_empty_table_refuted.

(** A string field that is absent (vtable entry 0) is read all the same: the
    distance to the vtable is taken for the distance to the string, and the
    Length ends far behind the buffer. *)
Theorem C47_absent_refuted : exists l,
  (exists i, get_root_info 1 first_to_last (gs_of l) [str; num 4] = Ok i /\
     nth_error (v_table (i_v i)) 0 = Some 0) /\
  len_of (get_root_info 1 first_to_last (gs_of l) [str; num 4]) = Ok 1024 /\ zlen l = 28.
Proof.
  exists (le4 12 ++ le2 8 ++ le2 8 ++ le2 0 ++ le2 4 ++ le4 8 ++ le4 7 ++ le4 1000 ++ le4 0).
  split; [eexists; split; vm_compute; reflexivity|]. split; vm_compute; reflexivity.
Qed.
Print Assumptions C47_absent_refuted.

(** A vector whose elements lie within 64 bytes of the end makes it panic; the
    sample has no bytes left over. *)
Theorem C47_vector_refuted : exists l opts,
  len_of (get_root_info 3 first_to_last (mkSlice l (zeros 64)) opts) = Ok 105 /\
  get_root_info 3 first_to_last (gs_of l) opts = Panic.
Proof. exists sample, sample_opts. split; vm_compute; reflexivity. Qed.
Print Assumptions C47_vector_refuted.

(** The Length recorded for a nested table does depend on the order. *)
Theorem C47_child_refuted : exists i i',
  get_root_info 3 first_to_last sample_buf sample_opts = Ok i /\
  get_root_info 3 last_to_first sample_buf sample_opts = Ok i' /\
  map (fun c => (fst c, i_len (snd c))) (i_childs i) = [(2%nat, 61); (3%nat, 105)] /\
  map (fun c => (fst c, i_len (snd c))) (i_childs i') = [(3%nat, 105); (2%nat, 105)].
Proof.
  match eval vm_compute in (get_root_info 3 first_to_last sample_buf sample_opts) with Ok ?b => exists b end.
  match eval vm_compute in (get_root_info 3 last_to_first sample_buf sample_opts) with Ok ?b => exists b end.
  split; [vm_compute; reflexivity|]. split; [vm_compute; reflexivity|]. split; reflexivity.
Qed.
Print Assumptions C47_child_refuted.

(** FetchAll leaves a table with a string alone: FetchTable has already put
    the length of the string into Table.  The number 7 is never read. *)
Theorem C47_fetch_all_refuted : exists i,
  get_root_info 3 first_to_last sample_buf sample_opts = Ok i /\
  fetch_all 3 first_to_last sample_buf i sample_opts = Ok i /\ i_table i = [5].
Proof.
  match eval vm_compute in (get_root_info 3 first_to_last sample_buf sample_opts) with Ok ?b => exists b end.
  split; [vm_compute; reflexivity|]. split; vm_compute; reflexivity.
Qed.
Print Assumptions C47_fetch_all_refuted.

(** The number of elements of an empty vector is taken for its last element: a
    table is recorded at position 20, where the number 0 is. *)
Theorem C47_empty_vector_refuted : exists l i,
  get_root_info 2 first_to_last (mkSlice l (zeros 64)) [OptT 0 true [num 4]] = Ok i /\
  word 4 l 20 0 /\ i_nest i = [(0%nat, 20)] /\ map fst (i_childs i) = [0%nat].
Proof.
  exists (le4 12 ++ le2 6 ++ le2 8 ++ le2 4 ++ le2 0 ++ le4 8 ++ le4 4 ++ le4 0 ++ zeros 40).
  match eval vm_compute in (get_root_info 2 first_to_last (mkSlice
    (le4 12 ++ le2 6 ++ le2 8 ++ le2 4 ++ le2 0 ++ le4 8 ++ le4 4 ++ le4 0 ++ zeros 40) (zeros 64))
    [OptT 0 true [num 4]]) with Ok ?b => exists b end.
  split; [vm_compute; reflexivity|]. split; [|split; reflexivity].
  unfold word. vm_compute. repeat split; congruence.
Qed.
Print Assumptions C47_empty_vector_refuted.

(** A vtable with more entries than descriptions, from a newer schema, makes it
    panic. *)
Theorem C47_newer_refuted : exists l i,
  get_root_info 1 first_to_last (gs_of l) [num 4; num 4] = Ok i /\
  get_root_info 1 first_to_last (gs_of l) [num 4] = Panic.
Proof.
  exists (le4 12 ++ le2 8 ++ le2 12 ++ le2 4 ++ le2 8 ++ le4 8 ++ le4 7 ++ le4 1).
  match eval vm_compute in (get_root_info 1 first_to_last
    (gs_of (le4 12 ++ le2 8 ++ le2 12 ++ le2 4 ++ le2 8 ++ le4 8 ++ le4 7 ++ le4 1)) [num 4; num 4])
    with Ok ?b => exists b end.
  split; vm_compute; reflexivity.
Qed.
Print Assumptions C47_newer_refuted.
