(** Properties C80-C85: joining vectors and taking parts of them. *)
From Coq Require Import ZArith List Bool Lia.
From Coq Require Import Strings.Byte.
From Verif Require Import GoLib BaseModel BaseSpec TableModel TableSpec ListModel ListSpec AddModel AddSpec.
From Verif Require Import AddProofs AddProofs5 AddProofs6 AddProofs7 AddProofs8 AddProofs9 AddProofs10.
Import ListNotations.
Open Scope Z_scope.

(** ** C80 *)
(** Full statement: for tables with any fields.  False for tables that end in a
    gap, see below; tables with strings, vectors or tables inside are not
    covered.  [built] is any history of [SetAt(Count(), _)], [Add] and [New]. *)
Theorem C80_add_tables_partial : forall ks l a es fs, built ks l es -> built ks a fs -> fs <> nil ->
  appended_size ks (es ++ fs) < 2 ^ 32 - 4 ->
  exists l' a', list_add (ETable ks) false l a = Ok (AOk l' a') /\ built ks l' (es ++ fs) /\
    shows_tables ks l' (es ++ fs) /\ shows_tables ks a' fs.
Proof. exact built_add. Qed.
Print Assumptions C80_add_tables_partial.

(** Tables made by assignments can be appended to whatever was built so far. *)
Theorem C80_append_made_partial : forall ks, Forall (fun k => forall n, inline_size k = Some n -> 1 <= n) ks ->
  Forall (fun k => inline_size k <> None) ks -> 4 + 2 * zlen ks < 65536 -> 4 + inline_total ks < 65536 ->
  forall h, h <> nil -> Forall (fun ap => assign_ok ks (fst ap) (snd ap)) h ->
  (forall f n, zget ks f = Some (KBasic n) -> n <= 4 \/ final_map h f <> None) ->
  exists src sp s, made_by ks h (src, sp, s) /\
    forall l es, built ks l es -> appended_size ks (es ++ [(src, sp, s)]) < 2 ^ 32 - 4 ->
      exists l', set_at (ETable ks) l (zlen es) src sp (-1) = Ok (LOk l') /\ built ks l' (es ++ [(src, sp, s)]).
Proof. exact made_appended. Qed.
Print Assumptions C80_append_made_partial.

(** From end to end: after any history, each field of each element reads as it
    was last assigned before the element went into a vector. *)
Theorem C80_fields_partial : forall ks, Forall (fun k => forall n, inline_size k = Some n -> 1 <= n) ks ->
  Forall (fun k => inline_size k <> None) ks -> 4 + 2 * zlen ks < 65536 -> 4 + inline_total ks < 65536 ->
  forall l es hs, built ks l es -> Forall2 (made_by ks) hs es ->
  list_vlen l = Ok (zlen hs) /\
  forall i h, zget hs i = Some h -> exists t, list_at (ETable ks) l i = Ok (Some t) /\
    forall f k n, zget ks f = Some k -> inline_size k = Some n ->
      read_field (mkT (l_io l) t) f n = Ok (final_map h f).
Proof. exact made_fields. Qed.
Print Assumptions C80_fields_partial.

(** A scalar field of eight bytes that was never set: the element says it is
    longer than what is stored, and everything behind is lost. *)
Theorem C80_gap_refuted : exists a b b' l,
  sample_list wide 1 [x01; x02] = Ok (LOk a) /\ sample_list wide 1 [x03; x04; x05] = Ok (LOk b) /\
  list_add (ETable wide) false a b = Ok (AOk l b') /\ list_vlen l = Ok 5 /\
  first_of wide 1 b 1 = Ok (Some [x04]) /\ bytes_of (first_of wide 1 l 3) <> Some [x04].
Proof. exact add_gap. Qed.
Print Assumptions C80_gap_refuted.

Example C80_example : exists a b b' l,
  sample_list slim 4 [x01; x02] = Ok (LOk a) /\ sample_list slim 4 [x03; x04; x05] = Ok (LOk b) /\
  list_add (ETable slim) false a b = Ok (AOk l b') /\ list_vlen l = Ok 5 /\
  map (first_of slim 4 l) (zseq 5) = map (fun v => Ok (Some [v; x00; x00; x00])) [x01; x02; x03; x04; x05].
Proof.
  match eval vm_compute in (sample_list slim 4 [x01; x02]) with Ok (LOk ?v) => exists v;
    match eval vm_compute in (sample_list slim 4 [x03; x04; x05]) with Ok (LOk ?w) => exists w;
    match eval vm_compute in (list_add (ETable slim) false v w) with Ok (AOk ?l ?c) => exists c, l end end end.
  split; [vm_compute; reflexivity|]. split; [vm_compute; reflexivity|]. split; [vm_compute; reflexivity|].
  split; [vm_compute; reflexivity|vm_compute; reflexivity].
Qed.

(** ** C81 *)
(** Adding a list that was added before: it gets its elements moved. *)
Theorem C81_add_twice_refuted : exists a b b1 b2 l1 l2,
  sample_list slim 4 [x01; x02] = Ok (LOk a) /\ sample_list slim 4 [x03; x04; x05] = Ok (LOk b) /\
  list_add (ETable slim) false a b = Ok (AOk l1 b1) /\
  list_add (ETable slim) false l1 b1 = Ok (AOk l2 b2) /\
  list_vlen l2 = Ok 8 /\
  first_of slim 4 b 0 = Ok (Some [x03; x00; x00; x00]) /\
  bytes_of (first_of slim 4 l2 5) <> Some [x03; x00; x00; x00].
Proof. exact add_twice. Qed.
Print Assumptions C81_add_twice_refuted.

Theorem C81_add_self_refuted : exists a l,
  sample_list slim 4 [x01; x02] = Ok (LOk a) /\
  list_add (ETable slim) true a a = Ok (AOk l l) /\ list_vlen l = Ok 4 /\
  first_of slim 4 a 0 = Ok (Some [x01; x00; x00; x00]) /\
  bytes_of (first_of slim 4 l 2) <> Some [x01; x00; x00; x00].
Proof. exact add_self. Qed.
Print Assumptions C81_add_self_refuted.

(** ** C82 *)
(** Full statement: for all element types and all ranges.  False for a range
    that ends behind the last element, for elements narrower than a slot and for
    tables with a gap; tables with references are not covered. *)
Theorem C82_part_tables_partial : forall ks l es i j, built ks l es -> 0 <= i <= j -> j < zlen es ->
  exists l', new_range (ETable ks) l i j = Ok (LOk l') /\ built ks l' (part es i j) /\
    shows_tables ks l' (part es i j).
Proof. exact built_part. Qed.
Print Assumptions C82_part_tables_partial.

(** Elements stored inline, of at least four bytes, in a buffer without journal. *)
Theorem C82_part_fixed_partial : forall k size l n, fixed_size k = Some size -> 4 <= size ->
  flat (l_io l) -> 4 <= l_pos l -> list_vlen l = Ok n ->
  l_pos l + n * size <= gs_len (b_bytes (l_io l)) ->
  forall i j, 0 <= i <= j -> j < n -> j - i + 1 < 2 ^ 32 ->
  exists l', new_range k l i j = Ok (LOk l') /\ list_vlen l' = Ok (j - i + 1) /\
    forall y, 0 <= y < j - i + 1 -> read_elem k l' y size = read_elem k l (i + y) size /\
      read_elem k l' y size <> Ok None.
Proof. exact fixed_part. Qed.
Print Assumptions C82_part_fixed_partial.

(** Tables in any order behind the slots, in a buffer without journal; every
    vtable lies before its table. *)
Theorem C82_part_any_partial : forall ks l es, lies_flat ks l es ->
  forall i j, 0 <= i <= j -> j < zlen es ->
  exists l', new_range (ETable ks) l i j = Ok (LOk l') /\
    shows_tables ks l' (map (fun e => (l_io l, fst e, snd e)) (part es i j)).
Proof. exact any_part. Qed.
Print Assumptions C82_part_any_partial.

(** The second table of the vector is stored before the first. *)
Example C82_any_case : lies_flat slim descending [(36, 8); (20, 8)] /\ exists l,
  new_range (ETable slim) descending 0 1 = Ok (LOk l) /\
  map (first_of slim 4 l) (zseq 2) = map (fun v => Ok (Some [v; x00; x00; x00])) [x07; x09].
Proof. exact descending_part. Qed.

Theorem C82_beyond_refuted : exists b,
  sample_list slim 4 [x03; x04; x05] = Ok (LOk b) /\ new_range (ETable slim) b 1 5 = Panic.
Proof. exact part_beyond. Qed.
Print Assumptions C82_beyond_refuted.

Theorem C82_bytes_refuted : new_range (EBasic 1) (from_byte_list [x01; x02; x03; x04; x05]) 1 2 = Panic.
Proof. exact part_bytes. Qed.
Print Assumptions C82_bytes_refuted.

Theorem C82_gap_refuted : exists b l,
  sample_list wide 1 [x03; x04; x05] = Ok (LOk b) /\
  new_range (ETable wide) b 0 1 = Ok (LOk l) /\ list_vlen l = Ok 2 /\
  first_of wide 1 b 1 = Ok (Some [x04]) /\ bytes_of (first_of wide 1 l 1) <> Some [x04].
Proof. exact part_gap. Qed.
Print Assumptions C82_gap_refuted.

Example C82_example : exists b l,
  sample_list slim 4 [x03; x04; x05] = Ok (LOk b) /\ new_range (ETable slim) b 1 2 = Ok (LOk l) /\
  map (first_of slim 4 l) (zseq 2) = map (fun v => Ok (Some [v; x00; x00; x00])) [x04; x05].
Proof.
  match eval vm_compute in (sample_list slim 4 [x03; x04; x05]) with Ok (LOk ?w) => exists w;
    match eval vm_compute in (new_range (ETable slim) w 1 2) with Ok (LOk ?l) => exists l end end.
  split; [vm_compute; reflexivity|]. split; [vm_compute; reflexivity|vm_compute; reflexivity].
Qed.

(** ** C83 *)
Theorem C83_first : forall k l es, has_elements k l es -> l_vlen l = zlen es -> es <> nil ->
  exists i, index_on_min_pos k l = Ok i /\ first_least (fun x => x) es i.
Proof. exact index_min. Qed.
Print Assumptions C83_first.

Theorem C83_last : forall k l es size, has_elements k l es -> l_vlen l = zlen es -> es <> nil ->
  (forall p, In p es -> elem_info k (l_io l) p = Ok (Some (size p))) ->
  exists i, index_on_max_pos k l = Ok (Some i) /\ first_greatest (fun p => p + size p) es i.
Proof. exact index_max. Qed.
Print Assumptions C83_last.

(** In a list built by appending, the node that comes first is that of element 0
    and the one that ends last is that of the last element. *)
Example C83_example : exists b,
  sample_list slim 4 [x03; x04; x05] = Ok (LOk b) /\
  map (list_at (ETable slim) b) (zseq 3) = [Ok (Some 24); Ok (Some 40); Ok (Some 56)] /\
  index_on_min_pos (ETable slim) b = Ok 0 /\ index_on_max_pos (ETable slim) b = Ok (Some 2).
Proof.
  match eval vm_compute in (sample_list slim 4 [x03; x04; x05]) with Ok (LOk ?w) => exists w end.
  split; [vm_compute; reflexivity|]. split; [vm_compute; reflexivity|]. split; [vm_compute; reflexivity|vm_compute; reflexivity].
Qed.

(** ** C84 *)
Theorem C84_byte_list : forall bs, zlen bs < 2 ^ 32 ->
  let l := from_byte_list bs in
  list_vlen l = Ok (zlen bs) /\
  list_all (EBasic 1) l = Ok (map (fun i => 4 + i) (zseq (zlen bs))) /\
  forall i, read_elem (EBasic 1) l i 1 = Ok (option_map (fun x => [x]) (zget bs i)).
Proof. exact byte_list_all. Qed.
Print Assumptions C84_byte_list.

Example C84_example :
  map (fun i => read_elem (EBasic 1) (from_byte_list [x61; x62; x63]) i 1) [-1; 0; 2; 3] =
    [Ok None; Ok (Some [x61]); Ok (Some [x63]); Ok None].
Proof. vm_compute. reflexivity. Qed.

(** ** C85 *)
Theorem C85_add_fixed : forall k size, fixed_size k = Some size -> 1 <= size ->
  forall l a vals ws, built_fixed k size l vals -> built_fixed k size a ws -> ws <> nil ->
  zlen vals + zlen ws < 2 ^ 32 ->
  exists l', list_add k false l a = Ok (AOk l' a) /\ built_fixed k size l' (vals ++ ws) /\
    list_vlen l' = Ok (zlen vals + zlen ws) /\
    forall i, read_elem k l' i size = Ok (zget (vals ++ ws) i).
Proof. exact built_fixed_add. Qed.
Print Assumptions C85_add_fixed.

Theorem C85_reads_fixed : forall k size, fixed_size k = Some size -> 1 <= size ->
  forall l vals, built_fixed k size l vals ->
  list_vlen l = Ok (zlen vals) /\ forall i, read_elem k l i size = Ok (zget vals i).
Proof. exact built_fixed_shows. Qed.
Print Assumptions C85_reads_fixed.

Example C85_example : exists a b l,
  run_sets (EStruct 3) init_list [(0, new_base (gs_of [x01; x02; x03]), 0)] = Ok (LOk a) /\
  run_sets (EStruct 3) init_list [(0, new_base (gs_of [x04; x05; x06]), 0); (1, new_base (gs_of [x07; x08; x09]), 0)] = Ok (LOk b) /\
  list_add (EStruct 3) false a b = Ok (AOk l b) /\
  map (fun i => read_elem (EStruct 3) l i 3) (zseq 3) =
    [Ok (Some [x01; x02; x03]); Ok (Some [x04; x05; x06]); Ok (Some [x07; x08; x09])].
Proof.
  do 3 eexists. split; [vm_compute; reflexivity|]. split; [vm_compute; reflexivity|].
  split; [vm_compute; reflexivity|vm_compute; reflexivity].
Qed.
