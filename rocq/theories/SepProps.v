(** Properties C91-C93: vectors whose data area is kept in a file. *)
From Coq Require Import ZArith List Bool Lia.
From Coq Require Import Strings.Byte.
From Verif Require Import GoLib BaseModel BaseSpec TableModel TableSpec ListModel ListSpec AddModel AddSpec AddProofs9.
From Verif Require Import SepModel SepSpec SepProofs4 SepProofs5.
Import ListNotations.
Open Scope Z_scope.

(** ** C91 *)
(** Full statement: for tables with any fields.  Tables with strings, vectors or
    tables inside are not covered, nor are elements that changed places (refuted
    below).  [built] is any history of [SetAt(Count(), _)], [Add] and [New]. *)
Theorem C91_split_partial : forall ks l es, built ks l es ->
  exists s, write_data_all ks (set_writer l empty_file) = Ok (SOk s) /\ separated ks s es.
Proof. exact sep_split. Qed.
Print Assumptions C91_split_partial.

(** The same after any further [SetAt], [Merge], [Seek] and [Add]. *)
Theorem C91_kept_partial : forall ks g s es, sep_built ks g s es -> separated ks s es.
Proof. exact sep_kept. Qed.
Print Assumptions C91_kept_partial.

(** Every field of every element reads as it was last assigned. *)
Theorem C91_fields_partial : forall ks,
  Forall (fun k => forall n, inline_size k = Some n -> 1 <= n) ks ->
  Forall (fun k => inline_size k <> None) ks ->
  4 + 2 * zlen ks < 65536 -> 4 + inline_total ks < 65536 ->
  forall g s es hs, sep_built ks g s es -> Forall2 (made_or_merged ks) hs es ->
  exists l, whole s = Ok l /\ list_vlen l = Ok (zlen hs) /\
  forall i h, zget hs i = Some h -> exists t, list_at (ETable ks) l i = Ok (Some t) /\
    forall f k n, zget ks f = Some k -> inline_size k = Some n ->
      read_field (mkT (l_io l) t) f n = Ok (final_map h f).
Proof. exact sep_fields. Qed.
Print Assumptions C91_fields_partial.

Example C91_example : exists s, start [x01; x02] empty_file = Ok (SOk s) /\
  s_len s = 32 /\ zlen (data_of s) = 32 /\ firsts slim 4 s = Ok (says [x01; x02]).
Proof.
  match eval vm_compute in (start [x01; x02] empty_file) with Ok (SOk ?s) => exists s end.
  split; [vm_compute; reflexivity|]. split; [vm_compute; reflexivity|]. split; [vm_compute; reflexivity|vm_compute; reflexivity].
Qed.

(** [SwapAt] before [WriteDataAll] is undone by it. *)
Theorem C91_swapped_refuted : exists l l' s, sample_list slim 4 [x01; x02; x03] = Ok (LOk l) /\
  swap_at (ETable slim) l 1 2 = Ok (l', true) /\ map (first_of slim 4 l') (zseq 3) = says [x01; x03; x02] /\
  write_data_all slim (set_writer l' empty_file) = Ok (SOk s) /\ firsts slim 4 s = Ok (says [x01; x02; x03]).
Proof. exact split_swapped. Qed.
Print Assumptions C91_swapped_refuted.

(** ** C92 *)
(** Full statement: for tables at any place of any buffer.  Refuted below for
    tables that are not merged, that do not start their buffer, and for writers
    that cannot write at an offset. *)
Theorem C92_set_partial : forall ks s es src sp e, sep_built ks true s es -> fills_buffer ks src sp e ->
  appended_size ks (es ++ [(src, sp, e)]) < 2 ^ 32 - 4 ->
  exists s', sep_set_at ks s (zlen es) src sp = Ok (SOk s') /\ sep_built ks true s' (es ++ [(src, sp, e)]) /\
    separated ks s' (es ++ [(src, sp, e)]).
Proof. exact sep_set. Qed.
Print Assumptions C92_set_partial.

(** Tables made by assignments can be added once they are merged. *)
Theorem C92_made_partial : forall ks,
  Forall (fun k => forall n, inline_size k = Some n -> 1 <= n) ks ->
  Forall (fun k => inline_size k <> None) ks ->
  4 + 2 * zlen ks < 65536 -> 4 + inline_total ks < 65536 ->
  forall h src sp e, made_by ks h (src, sp, e) ->
  exists b, base_flatten src = Ok b /\ fills_buffer ks b sp e /\ same_reads src sp b sp (- vtable_size ks) e.
Proof. exact made_fills. Qed.
Print Assumptions C92_made_partial.

Example C92_example : exists src b sp e s s', sample slim 4 x03 = Ok (src, sp, e) /\ base_flatten src = Ok b /\
  start [x01; x02] empty_file = Ok (SOk s) /\ sep_set_at slim s 2 b sp = Ok (SOk s') /\
  firsts slim 4 s' = Ok (says [x01; x02; x03]).
Proof. exact set_merged. Qed.

Theorem C92_journaled_refuted : exists src sp e s s', sample slim 4 x03 = Ok (src, sp, e) /\
  start [x01; x02] empty_file = Ok (SOk s) /\ sep_set_at slim s 2 src sp = Ok (SOk s') /\
  read_field (mkT src sp) 0 4 = Ok (Some [x03; x00; x00; x00]) /\
  firsts slim 4 s' = Ok (says [x01; x02] ++ [Ok (Some [x00; x03; x00; x00])]).
Proof. exact set_unmerged. Qed.
Print Assumptions C92_journaled_refuted.

(** The second table of a merged vector, added to a separated one. *)
Theorem C92_inner_refuted : exists l b p s s', sample_list slim 4 [x01; x02] = Ok (LOk l) /\ base_flatten (l_io l) = Ok b /\
  list_at (ETable slim) (set_io l b) 1 = Ok (Some p) /\ read_field (mkT b p) 0 4 = Ok (Some [x02; x00; x00; x00]) /\
  start [x07] empty_file = Ok (SOk s) /\ sep_set_at slim s 1 b p = Ok (SOk s') /\
  firsts slim 4 s' = Ok (says [x07; x04]).
Proof. exact set_inner. Qed.
Print Assumptions C92_inner_refuted.

(** The length of the data grows, the data does not. *)
Theorem C92_plain_refuted : exists src b sp e s s', sample slim 4 x03 = Ok (src, sp, e) /\ base_flatten src = Ok b /\
  start [x01; x02] (Plain (mkFile nil 0)) = Ok (SOk s) /\ sep_set_at slim s 2 b sp = Ok (SOk s') /\
  data_of s' = data_of s /\ s_len s' = s_len s + 16 /\ firsts slim 4 s' = Ok (says [x01; x02] ++ [Ok None]).
Proof. exact set_plain. Qed.
Print Assumptions C92_plain_refuted.

(** ** C93 *)
(** Full statement: without rewinding the file of the argument, and with
    elements added to the result.  Both refuted below. *)
Theorem C93_add_partial : forall ks f g d es s fs, sep_built ks f d es -> sep_built ks g s fs ->
  appended_size ks (es ++ fs) < 2 ^ 32 - 4 ->
  exists n s', sep_add d (rewound s) = Ok (Added n s') /\ sep_built ks false n (es ++ fs) /\
    separated ks n (es ++ fs) /\ separated ks s' fs.
Proof. exact sep_join. Qed.
Print Assumptions C93_add_partial.

Example C93_example : exists a b n b', start [x01; x02] empty_file = Ok (SOk a) /\ start [x03; x04] empty_file = Ok (SOk b) /\
  sep_add a (rewound b) = Ok (Added n b') /\ firsts slim 4 n = Ok (says [x01; x02; x03; x04]).
Proof. exact join_samples. Qed.

Example C93_set_before : exists a b src m sp e s n s', start [x01; x02] empty_file = Ok (SOk a) /\ start [x03; x04] empty_file = Ok (SOk b) /\
  sample slim 4 x05 = Ok (src, sp, e) /\ base_flatten src = Ok m /\
  sep_set_at slim (rewound b) 2 m sp = Ok (SOk s) /\
  sep_add a s = Ok (Added n s') /\ firsts slim 4 n = Ok (says [x01; x02; x03; x04; x05]).
Proof. exact set_then_join. Qed.

Theorem C93_cursor_refuted : exists a b a' b', start [x01; x02] empty_file = Ok (SOk a) /\ start [x03; x04] empty_file = Ok (SOk b) /\
  sep_add a b = Ok (NotAdded a' b').
Proof. exact join_unwound. Qed.
Print Assumptions C93_cursor_refuted.

Theorem C93_set_after_refuted : exists a b n b' src m sp e s, start [x01; x02] empty_file = Ok (SOk a) /\ start [x03; x04] empty_file = Ok (SOk b) /\
  sep_add a (rewound b) = Ok (Added n b') /\ sample slim 4 x05 = Ok (src, sp, e) /\ base_flatten src = Ok m /\
  sep_set_at slim n 4 m sp = Ok (SOk s) /\ firsts slim 4 s = Ok ([Ok None; Ok None; Ok None] ++ says [x04; x05]).
Proof. exact set_joined. Qed.
Print Assumptions C93_set_after_refuted.
