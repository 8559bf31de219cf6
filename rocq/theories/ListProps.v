(** Property theorems about vectors (C31-C39, C55, C56).  Every theorem is closed
    by the lemma that proves it; the examples show a concrete instance. *)
From Coq Require Import ZArith List Bool Lia Permutation.
From Coq Require Import Strings.Byte.
From Verif Require Import GoLib BaseModel BaseSpec BaseProofs.
From Verif Require Import TableModel TableSpec TableProofs TableProofs2 TableProofs3.
From Verif Require Import ListModel ListSpec ListProofs ListProofs2 ListProofs3 ListProofs5 ListProofs6 ListProofs7.
Import ListNotations.
Open Scope Z_scope.

(** A vector of two tables with one 2-byte field each (values 9 and 3), as other
    FlatBuffers writers lay it out. *)
Definition pair_bytes : list byte :=
  [x02;x00;x00;x00; x0e;x00;x00;x00; x16;x00;x00;x00;
   x06;x00;x06;x00;x04;x00; x06;x00;x00;x00; x09;x00;
   x06;x00;x06;x00;x04;x00; x06;x00;x00;x00; x03;x00].
Definition pair_kind : ekind := ETable [KBasic 2].
Definition pair_node : lnode := mkL (new_base (gs_of pair_bytes)) 4 4 2 32.

(** ** C31 *)
Theorem C31_at_outside : forall k l n i, list_vlen l = Ok n -> (i < 0 \/ n <= i) ->
  list_at k l i = Ok None.
Proof. exact at_outside. Qed.
Print Assumptions C31_at_outside.

Theorem C31_at_inside : forall k l n size i, list_vlen l = Ok n -> fixed_size k = Some size ->
  0 <= size -> 0 <= i < n ->
  exists p, list_at k l i = Ok (Some p) /\ l_pos l <= p /\ p + size <= l_pos l + n * size.
Proof. exact at_inside. Qed.
Print Assumptions C31_at_inside.

(** Tables: the element lies behind the slots and inside the buffer when the
    bytes are laid out per the format. *)
Theorem C31_at_table_inside : forall ks l n i off soff es tl, flat (l_io l) ->
  vector_at (img_bytes (sl_data (b_bytes (l_io l)))) (l_pos l) n -> 0 <= i < n ->
  holds_uint (img_bytes (sl_data (b_bytes (l_io l)))) (l_pos l + i * 4) 4 off ->
  table_at (img_bytes (sl_data (b_bytes (l_io l)))) (l_pos l + i * 4 + off) soff es tl -> 0 <= soff ->
  n * 4 <= i * 4 + off ->
  exists p, list_at (ETable ks) l i = Ok (Some p) /\ l_pos l + n * 4 <= p /\
    p + 4 <= len_buf (l_io l).
Proof. exact at_table_inside. Qed.
Print Assumptions C31_at_table_inside.

Example C31_example : list_vlen pair_node = Ok 2 /\
  map (list_at pair_kind pair_node) [-1; 0; 1; 2] = [Ok None; Ok (Some 18); Ok (Some 30); Ok None].
Proof. split; vm_compute; reflexivity. Qed.

(** ** C32 *)
Theorem C32_fixed_elements : forall k l n size i, flat (l_io l) ->
  vector_at (img_bytes (sl_data (b_bytes (l_io l)))) (l_pos l) n -> fixed_size k = Some size ->
  0 <= i < n -> list_at k l i = Ok (Some (l_pos l + i * size)).
Proof. exact at_fixed_flat. Qed.
Print Assumptions C32_fixed_elements.

Theorem C32_table_elements : forall ks l n i off soff es tl, flat (l_io l) ->
  vector_at (img_bytes (sl_data (b_bytes (l_io l)))) (l_pos l) n -> 0 <= i < n ->
  holds_uint (img_bytes (sl_data (b_bytes (l_io l)))) (l_pos l + i * 4) 4 off ->
  table_at (img_bytes (sl_data (b_bytes (l_io l)))) (l_pos l + i * 4 + off) soff es tl -> 0 <= soff ->
  list_at (ETable ks) l i = Ok (Some (l_pos l + i * 4 + off)).
Proof. exact at_table_flat. Qed.
Print Assumptions C32_table_elements.

Example C32_example :
  let m := img_bytes (sl_data (b_bytes (l_io pair_node))) in
  flat (l_io pair_node) /\ vector_at m 4 2 /\ holds_uint m 8 4 22 /\ table_at m 30 6 [4] 6 /\
  list_at pair_kind pair_node 1 = Ok (Some (4 + 1 * 4 + 22)).
Proof.
  cbv zeta. split; [split; reflexivity|]. split.
  { split; [lia|]. apply holds_uint_check; vm_compute; reflexivity. }
  split; [apply holds_uint_check; vm_compute; reflexivity|]. split; [|vm_compute; reflexivity].
  constructor; try (apply holds_uint_check; vm_compute; reflexivity); try (vm_compute; split; congruence).
  intros i e H. pose proof (GoLemmas.zget_some_range _ _ _ H) as R. change (zlen [4]) with 1 in R.
  assert (i = 0) by lia. subst i. vm_compute in H. injection H as <-.
  apply holds_uint_check; vm_compute; reflexivity.
Qed.

(** ** C33 *)
(** Full statement: the same without the hypothesis on the cached length.  It is
    false, see the refutation below. *)
Theorem C33_queries_partial : forall k l es f, has_elements k l es -> l_vlen l = zlen es ->
  list_select k l f = Ok (filter f es) /\ list_find k l f = Ok (find f es) /\
  list_all k l = Ok es.
Proof. exact queries. Qed.
Print Assumptions C33_queries_partial.

(** A second handle taken before an append: [Count] is 1, [All] is empty. *)
Theorem C33_stale_handle_refuted : exists l l2,
  run_sets (EBasic 4) init_list [(0, sevens, 0)] = Ok (LOk l) /\
  l2 = mkL (l_io l) (l_npos init_list) (l_pos init_list) (l_vlen init_list) (l_size init_list) /\
  has_elements (EBasic 4) l2 [4] /\ list_all (EBasic 4) l2 = Ok [].
Proof. exact stale_all. Qed.
Print Assumptions C33_stale_handle_refuted.

Example C33_example :
  has_elements pair_kind pair_node [18; 30] /\
  list_select pair_kind pair_node (fun p => 20 <? p) = Ok [30] /\
  list_find pair_kind pair_node (fun p => 10 <? p) = Ok (Some 18).
Proof.
  split; [|split; vm_compute; reflexivity]. split; [vm_compute; reflexivity|]. intros i e H.
  pose proof (GoLemmas.zget_some_range _ _ _ H) as R. change (zlen [18; 30]) with 2 in R.
  assert (C : i = 0 \/ i = 1) by lia.
  destruct C as [-> | ->]; vm_compute in H; injection H as <-; vm_compute; reflexivity.
Qed.

(** ** C34 *)
Theorem C34_search_boundary : forall k l f es n, has_elements k l es -> 0 <= n <= zlen es ->
  (forall a b x y, 0 <= a <= b -> zget es a = Some x -> zget es b = Some y ->
     f x = true -> f y = true) ->
  exists r asked, search_index k l n f = Ok (r, asked) /\ 0 <= r <= n /\
    (forall h, In h asked -> 0 <= h < n) /\
    (forall h x, 0 <= h < r -> zget es h = Some x -> f x = false) /\
    (forall h x, r <= h < n -> zget es h = Some x -> f x = true).
Proof. exact search_spec. Qed.
Print Assumptions C34_search_boundary.

(** Any predicate and any [n]: it stops and asks only about indexes below [n]. *)
Theorem C34_search_stops : forall k l f n v, list_vlen l = Ok v ->
  (forall i, exists r, list_at k l i = Ok r) ->
  exists r asked, search_index k l n f = Ok (r, asked) /\
    (forall h, In h asked -> 0 <= h < n).
Proof. exact search_stops. Qed.
Print Assumptions C34_search_stops.

Example C34_example :
  let l := from_byte_list [x01;x02;x05;x07;x09] in
  list_all (EBasic 1) l = Ok [4; 5; 6; 7; 8] /\
  search_index (EBasic 1) l 5 (fun p => 6 <=? p) = Ok (2, [1; 2]) /\
  search_index (EBasic 1) l 5 (fun _ => false) = Ok (5, [4; 2]).
Proof. split; [|split]; vm_compute; reflexivity. Qed.

(** ** C35 *)
Theorem C35_swap_tables : forall ks l ts i j, in_memory (l_io l) -> refers l ts ->
  targets_follow l ts -> 0 <= i < zlen ts -> 0 <= j < zlen ts ->
  exists l', swap_at (ETable ks) l i j = Ok (l', true) /\ in_memory (l_io l') /\
    l_pos l' = l_pos l /\ l_vlen l' = l_vlen l /\ refers l' (swapped ts i j) /\
    (forall c, 0 <= c -> (c < l_pos l + i * 4 \/ l_pos l + i * 4 + 4 <= c) ->
       (c < l_pos l + j * 4 \/ l_pos l + j * 4 + 4 <= c) -> content (l_io l') c = content (l_io l) c).
Proof. exact swap_tables. Qed.
Print Assumptions C35_swap_tables.

Theorem C35_own_inverse : forall ks l ts i j, in_memory (l_io l) -> refers l ts ->
  targets_follow l ts -> 0 <= i < zlen ts -> 0 <= j < zlen ts ->
  exists l1 l2, swap_at (ETable ks) l i j = Ok (l1, true) /\
    swap_at (ETable ks) l1 i j = Ok (l2, true) /\ refers l2 ts.
Proof. exact swap_twice. Qed.
Print Assumptions C35_own_inverse.

Example C35_example :
  in_memory (l_io pair_node) /\ refers pair_node [18; 30] /\ targets_follow pair_node [18; 30] /\
  exists l', swap_at pair_kind pair_node 0 1 = Ok (l', true) /\
    map (list_at pair_kind l') [0; 1] = [Ok (Some 30); Ok (Some 18)].
Proof.
  split; [split; [reflexivity|constructor]|]. split.
  { split; [vm_compute; reflexivity|]. intros i e H.
    pose proof (GoLemmas.zget_some_range _ _ _ H) as R. change (zlen [18; 30]) with 2 in R.
    assert (C : i = 0 \/ i = 1) by lia.
    destruct C as [-> | ->]; vm_compute in H; injection H as <-; vm_compute; reflexivity. }
  split.
  { split; [cbn; lia|]. intros t [<-|[<-|[]]]; vm_compute; split; congruence. }
  eexists. split; vm_compute; reflexivity.
Qed.

(** ** C36 *)
Theorem C36_swap_fixed_refuted : exists l l',
  run_sets (EBasic 4) init_list [(0, sevens, 0); (1, eights, 0)] = Ok (LOk l) /\
  read_elem (EBasic 4) l 0 4 = Ok (Some [x07;x07;x07;x07]) /\
  read_elem (EBasic 4) l 1 4 = Ok (Some [x08;x08;x08;x08]) /\
  swap_at (EBasic 4) l 0 1 = Ok (l', true) /\
  read_elem (EBasic 4) l' 0 4 = Ok (Some [x00;x00;x00;x00]) /\
  read_elem (EBasic 4) l' 1 4 = Ok (Some [x00;x00;x00;x00]).
Proof. exact swap_zeroes. Qed.
Print Assumptions C36_swap_fixed_refuted.

(** What the call does instead, for every list: both elements become zero. *)
Theorem C36_swap_zeroes : forall k l n size i j, in_memory (l_io l) -> 4 <= l_pos l ->
  fixed_size k = Some size -> 1 <= size -> list_vlen l = Ok n -> 0 <= i < n -> 0 <= j < n -> i <> j ->
  exists l', swap_at k l i j = Ok (l', true) /\ l_pos l' = l_pos l /\
    forall m, shows (l_io l) m -> shows (l_io l') (fun c =>
      if ((l_pos l + i * size <=? c) && (c <? l_pos l + i * size + size)) ||
         ((l_pos l + j * size <=? c) && (c <? l_pos l + j * size + size))
      then Some x00 else img_fill m (len_buf (l_io l)) c).
Proof. exact swap_fixed_zero. Qed.
Print Assumptions C36_swap_zeroes.

(** ** C37 *)
Theorem C37_sort_permutes : forall ks less s l ts, in_memory (l_io l) -> refers l ts ->
  targets_follow l ts ->
  (forall l' i j, exists r, less l' i j = Ok r) -> in_bounds (zlen ts) s ->
  exists l' ts', run_sort (ETable ks) less l s = Ok l' /\ in_memory (l_io l') /\
    l_pos l' = l_pos l /\ refers l' ts' /\ Permutation ts ts' /\
    forall c, 0 <= c -> (c < l_pos l \/ l_pos l + zlen ts * 4 <= c) ->
      content (l_io l') c = content (l_io l) c.
Proof. exact sort_permutes. Qed.
Print Assumptions C37_sort_permutes.

Theorem C37_sort_sorts : forall ks less lt s l ts, in_memory (l_io l) -> refers l ts ->
  targets_follow l ts ->
  strict_weak lt -> compares less lt l (zlen ts) -> sorting (zlen ts) s ->
  exists l' ts', run_sort (ETable ks) less l s = Ok l' /\ refers l' ts' /\ Permutation ts ts' /\
    sorted lt ts'.
Proof. exact sort_sorted. Qed.
Print Assumptions C37_sort_sorts.

(** The contract assumed of [sort.Sort] is met by the insertion sort it uses for
    short lists. *)
Theorem C37_insertion_sorting : forall n, 0 <= n -> sorting n (insertion_sort n).
Proof. exact insertion_sorting. Qed.
Print Assumptions C37_insertion_sorting.

(** Comparisons by a byte of the element are of the kind required. *)
Theorem C37_compares_exist : forall l m off n, in_memory (l_io l) -> shows (l_io l) m -> 0 <= off ->
  compares (less_by_byte off) (lt_by_byte m off) l n.
Proof. exact less_by_byte_compares. Qed.
Print Assumptions C37_compares_exist.

Example C37_example : exists l',
  run_sort pair_kind (less_by_byte 4) pair_node (insertion_sort 2) = Ok l' /\
  map (list_at pair_kind l') [0; 1] = [Ok (Some 30); Ok (Some 18)].
Proof. eexists. split; vm_compute; reflexivity. Qed.

(** ** C38 *)
Theorem C38_append_fixed : forall k size ops, fixed_size k = Some size -> 1 <= size ->
  sets_ok size 0 ops -> zlen ops < 2 ^ 32 ->
  exists l, run_sets k init_list (map fst ops) = Ok (LOk l) /\
    list_vlen l = Ok (zlen (final_list ops)) /\ l_vlen l = zlen (final_list ops) /\
    forall i, read_elem k l i size = Ok (zget (final_list ops) i).
Proof. exact built_list. Qed.
Print Assumptions C38_append_fixed.

Example C38_example :
  let ops := [(0, sevens, 0, [x07;x07;x07;x07]); (1, eights, 0, [x08;x08;x08;x08]);
              (0, eights, 0, [x08;x08;x08;x08])] in
  sets_ok 4 0 ops /\ final_list ops = [[x08;x08;x08;x08]; [x08;x08;x08;x08]].
Proof.
  split; [|reflexivity]. cbn [sets_ok].
  split; [lia|]. split; [exists (gs_of [x07;x07;x07;x07]); vm_compute; repeat split; congruence|]. split; [reflexivity|].
  split; [vm_compute; split; congruence|].
  split; [exists (gs_of [x08;x08;x08;x08]); vm_compute; repeat split; congruence|]. split; [reflexivity|].
  split; [vm_compute; split; congruence|].
  split; [exists (gs_of [x08;x08;x08;x08]); vm_compute; repeat split; congruence|]. split; [reflexivity|exact I].
Qed.

(** ** C39 *)
(** Full statement: also for tables with strings, vectors or tables inside, and
    for tables none of whose fields is set (false, see below). *)
Theorem C39_append_tables_partial : forall ks es,
  Forall (fun e => let '(src, sp, s) := e in self_contained ks src sp s) es ->
  appended_size ks es < 2 ^ 32 - 4 ->
  exists l, run_sets (ETable ks) init_list (append_ops 0 es) = Ok (LOk l) /\
    list_vlen l = Ok (zlen es) /\
    forall i src sp s, zget es i = Some (src, sp, s) ->
      exists t, list_at (ETable ks) l i = Ok (Some t) /\
        same_reads src sp (l_io l) t (- vtable_size ks) s /\
        forall j, 0 <= j < zlen ks -> exists e,
          virtual_table src sp j = Ok (sp + e) /\ virtual_table (l_io l) t j = Ok (t + e).
Proof. exact appended_tables. Qed.
Print Assumptions C39_append_tables_partial.

(** From end to end: tables made by Init and any history of assignments, appended
    one after the other; every field of every element reads as assigned. *)
Theorem C39_built_tables_partial : forall ks,
  Forall (fun k => forall n, inline_size k = Some n -> 1 <= n) ks ->
  Forall (fun k => inline_size k <> None) ks ->
  forall hs, 4 + 2 * zlen ks < 65536 -> 4 + inline_total ks < 65536 ->
  Forall (fun h => h <> nil /\ Forall (fun ap => assign_ok ks (fst ap) (snd ap)) h) hs ->
  exists b0 ts, init_table ks = Ok (b0, 4 + 2 * zlen ks) /\
    Forall2 (fun h e => run_assigns ks (mkT b0 (4 + 2 * zlen ks)) (map fst h) =
                        Ok (Some (mkT (fst (fst e)) (snd (fst e)))) /\
                        elem_info (ETable ks) (fst (fst e)) (snd (fst e)) = Ok (Some (snd e))) hs ts /\
    (appended_size ks ts < 2 ^ 32 - 4 ->
     exists l, run_sets (ETable ks) init_list (append_ops 0 ts) = Ok (LOk l) /\
       list_vlen l = Ok (zlen hs) /\
       forall i h, zget hs i = Some h -> exists t, list_at (ETable ks) l i = Ok (Some t) /\
         forall f k n, zget ks f = Some k -> inline_size k = Some n ->
           read_field (mkT (l_io l) t) f n = Ok (final_map h f)).
Proof. exact built_tables. Qed.
Print Assumptions C39_built_tables_partial.

(** Appending a table none of whose fields is set. *)
Theorem C39_empty_table_refuted : exists b p,
  init_table [KBasic 1] = Ok (b, p) /\
  run_sets (ETable [KBasic 1]) init_list (append_ops 0 [(b, p, 1)]) = Panic.
Proof. exact append_empty_table. Qed.
Print Assumptions C39_empty_table_refuted.

Example C39_example :
  let ks := [KBasic 2; KStruct 3] in
  let a := new_base (gs_of [x01;x02;x03]) in
  exists b t1 t2 l,
    init_table ks = Ok (b, 8) /\
    run_assigns ks (mkT b 8) [(0, a, 0); (1, a, 0)] = Ok (Some t1) /\
    run_assigns ks (mkT b 8) [(1, a, 0)] = Ok (Some t2) /\
    run_sets (ETable ks) init_list (append_ops 0 [(t_io t1, 8, 9); (t_io t2, 8, 7)]) = Ok (LOk l) /\
    list_at (ETable ks) l 1 = Ok (Some 37) /\
    read_field (mkT (l_io l) 37) 0 2 = Ok None /\
    read_field (mkT (l_io l) 37) 1 3 = Ok (Some [x01;x02;x03]).
Proof.
  cbv zeta. do 4 eexists. split; [vm_compute; reflexivity|]. split; [vm_compute; reflexivity|].
  split; [vm_compute; reflexivity|]. split; [vm_compute; reflexivity|].
  split; [|split]; vm_compute; reflexivity.
Qed.

(** ** C55 *)
Theorem C55_set_beyond_partial : forall k l idx src sp es, l_vlen l < idx ->
  set_at k l idx src sp es = Ok LErr.
Proof. exact set_at_beyond. Qed.
Print Assumptions C55_set_beyond_partial.

Theorem C55_swap_beyond_partial : forall k l n i j, list_vlen l = Ok n -> n <= i \/ n <= j ->
  swap_at k l i j = Ok (l, false).
Proof. exact swap_at_beyond. Qed.
Print Assumptions C55_swap_beyond_partial.

(** SetAt(-1) overwrites the length word. *)
Theorem C55_set_negative_refuted : exists l l',
  run_sets (EBasic 4) init_list [(0, sevens, 0); (1, eights, 0)] = Ok (LOk l) /\
  list_vlen l = Ok 2 /\ set_at (EBasic 4) l (-1) sevens 0 (-1) = Ok (LOk l') /\
  list_vlen l' <> Ok 2.
Proof. exact set_negative. Qed.
Print Assumptions C55_set_negative_refuted.

(** SwapAt(-1, 0) swaps the length word with the first slot. *)
Theorem C55_swap_negative_refuted : exists l',
  refers two_node [16; 24] /\
  swap_at (ETable []) two_node (-1) 0 = Ok (l', true) /\ list_vlen l' <> Ok 2.
Proof. exact swap_negative. Qed.
Print Assumptions C55_swap_negative_refuted.

(** ** C56 *)
Theorem C56_size_refuted : exists l,
  run_sets (EBasic 4) init_list [(0, sevens, 0); (1, eights, 0)] = Ok (LOk l) /\
  l_vlen l = 2 /\ l_size l = 4.
Proof. exact size_stale. Qed.
Print Assumptions C56_size_refuted.
