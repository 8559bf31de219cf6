(** Property theorems about the journaled buffer (C01-C15).  Every theorem is
    closed by the lemma that proves it; the examples show a concrete instance. *)
From Coq Require Import ZArith List Bool Lia Sorting.Sorted.
From Coq Require Import Strings.Byte.
From Verif Require Import GoLib BaseModel BaseSpec BaseProofs BaseProofs2 BaseProofs3 BaseProofs4 BaseProofs5 BaseProofs6.
Import ListNotations.
Open Scope Z_scope.

(** ** C01 *)
Theorem C01_last_writer_wins : forall init os, Forall wop_ok os ->
  exists b, run_wops (new_base init) os = Ok b /\ shows b (spec_wops (img_bytes (sl_data init)) os).
Proof. exact history_shows. Qed.
Print Assumptions C01_last_writer_wins.

Example C01_example :
  let os := [OpWriteAt 2 [x0a;x0b;x0c]; OpUpdate 3 [x0d]; OpWrite [x0e]; OpWriteAt 9 [x0f]] in
  Forall wop_ok os /\
  exists b, run_wops (new_base (gs_of [x01;x02;x03;x04])) os = Ok b /\
    map (peek b) [0;1;2;3;4;5;9] =
    [Ok (Some x0e); Ok (Some x02); Ok (Some x0a); Ok (Some x0d); Ok (Some x0c); Ok None; Ok (Some x0f)].
Proof. split; [repeat constructor; cbn; lia|]. eexists; split; vm_compute; reflexivity. Qed.

(** ** C02: holds when no entry starts strictly inside an earlier one; refuted
    in general. *)
Theorem C02_range_read_partial : forall b p off m, in_memory b -> 0 <= off ->
  no_inner_start (b_diffs b) -> shows b m ->
  exists p' n, read_at b p off = Ok (p', n) /\ zlen p' = zlen p /\ 0 <= n /\
    (n = 0 <-> m off = None) /\
    (forall k, 0 <= k < Z.min n (zlen p) -> zget p' k = m (off + k)) /\
    (forall k, n <= k -> zget p' k = zget p k).
Proof. exact read_at_current. Qed.
Print Assumptions C02_range_read_partial.

Example C02_example :
  let b := fst (write_at (fst (write_at (new_base (gs_of [x01;x02;x03;x04])) [x0a;x0b] 2)) [x0c] 1) in
  in_memory b /\ read_at b [x00;x00;x00] 2 = Ok ([x0a;x0b;x00], 2).
Proof. split; [split; [reflexivity|repeat constructor; cbn; lia]|vm_compute; reflexivity]. Qed.

Theorem C02_range_read_refuted : exists os b s k,
  Forall wop_ok os /\ run_wops (new_base (gs_of nil)) os = Ok b /\
  base_r b 0 8 = Ok (Some s) /\ 0 <= k < 8 /\ k < gs_len s /\
  peek b k <> Ok (zget (sl_data s) k).
Proof. exact range_read_stale. Qed.
Print Assumptions C02_range_read_refuted.

(** ** C03 *)
Theorem C03_update_frame : forall b off p, in_memory b -> 0 <= off ->
  exists b', base_u b off (zlen p) p = Ok b' /\ in_memory b' /\
    forall m, shows b m -> shows b' (img_write m off p).
Proof. exact u_frame. Qed.
Print Assumptions C03_update_frame.

Example C03_example :
  let b := fst (write_at (new_base (gs_of [x01;x02])) [x0a;x0b;x0c;x0d] 1) in
  in_memory b /\ exists b', base_u b 2 2 [x11;x12] = Ok b' /\ length (b_diffs b') = 3%nat /\
    map (peek b') [0;1;2;3;4;5] =
    [Ok (Some x01); Ok (Some x0a); Ok (Some x11); Ok (Some x12); Ok (Some x0d); Ok None].
Proof.
  split; [split; [reflexivity|repeat constructor; cbn; lia]|].
  eexists; split; [vm_compute; reflexivity|]. split; vm_compute; reflexivity.
Qed.

(** ** C66 *)

(** Full statement: for every journal.  Missing: journals in which an entry
    starts strictly inside an earlier one. *)
Theorem C66_put_partial : forall b off s m,
  in_memory b -> 0 <= off -> no_inner_start (b_diffs b) -> shows b m ->
  exists b', base_c b off (gs_len s) s = Ok b' /\ in_memory b' /\
    shows b' (img_write m off (sl_data s)).
Proof. exact put_frame. Qed.
Print Assumptions C66_put_partial.

(** An entry is replaced in place although a later one hides part of it. *)
Theorem C66_put_refuted : exists b off s, in_memory b /\ 0 <= off /\
  exists b', base_c b off (gs_len s) s = Ok b' /\ zlen (sl_data s) = 4 /\
    exists k, 0 <= k < 4 /\ peek b' (off + k) <> Ok (zget (sl_data s) k).
Proof. exact put_stale. Qed.
Print Assumptions C66_put_refuted.

(** An entry is replaced in place, and one that is longer is not. *)
Example C66_example :
  let b := fst (write_at (new_base (gs_of [x01;x02])) [x0a;x0b;x0c;x0d] 1) in
  in_memory b /\ no_inner_start (b_diffs b) /\
  (exists b', base_c b 1 4 (gs_of [x11;x12;x13;x14]) = Ok b' /\ length (b_diffs b') = 1%nat /\
    map (peek b') [0;1;2;3;4;5] =
    [Ok (Some x01); Ok (Some x11); Ok (Some x12); Ok (Some x13); Ok (Some x14); Ok None]) /\
  (exists b', base_c b 1 2 (gs_of [x11;x12]) = Ok b' /\
    map (peek b') [0;1;2;3;4;5] =
    [Ok (Some x01); Ok (Some x11); Ok (Some x12); Ok (Some x0c); Ok (Some x0d); Ok None]).
Proof.
  split; [split; [reflexivity|repeat constructor; cbn; lia]|]. split; [|split].
  - intros l1 d l2 e l3 H. apply (f_equal (@length diff)) in H.
    rewrite !app_length in H. cbn in H. rewrite app_length in H. cbn in H. lia.
  - eexists; split; [vm_compute; reflexivity|]. split; vm_compute; reflexivity.
  - eexists; split; vm_compute; reflexivity.
Qed.

(** ** C04 *)
Theorem C04_flatten_content : forall b, in_memory b ->
  exists b', base_flatten b = Ok b' /\ in_memory b' /\ b_diffs b' = nil /\
    len_buf b' = len_buf b /\ b_seek b' = b_seek b /\
    forall m, shows b m -> shows b' (img_fill m (len_buf b)).
Proof. exact flatten_props. Qed.
Print Assumptions C04_flatten_content.

Example C04_example :
  let b := fst (write_at (fst (write_at (new_base (gs_of [x01;x02])) [x0a;x0b] 1)) [x0c] 5) in
  in_memory b /\ exists b', base_flatten b = Ok b' /\
    sl_data (b_bytes b') = [x01;x0a;x0b;x00;x00;x0c].
Proof.
  split; [split; [reflexivity|repeat constructor; cbn; lia]|].
  eexists; split; vm_compute; reflexivity.
Qed.

(** ** C05 *)
Theorem C05_flatten_exact : forall b m, in_memory b -> shows b m ->
  exists b', base_flatten b = Ok b' /\ base_flatten b' = Ok b' /\
    forall off req, 0 <= off < len_buf b -> 0 <= req ->
      exists s, base_r b' off req = Ok (Some s) /\ gs_len s = len_buf b - off /\
        slice_of_image (img_fill m (len_buf b)) off (sl_data s).
Proof. exact flatten_exact. Qed.
Print Assumptions C05_flatten_exact.

Example C05_example :
  let b := fst (write_at (new_base (gs_of [x01;x02])) [x0a;x0b] 1) in
  in_memory b /\ exists b', base_flatten b = Ok b' /\
    base_r b' 1 0 = Ok (Some (gs_of [x0a;x0b])).
Proof.
  split; [split; [reflexivity|repeat constructor; cbn; lia]|].
  eexists; split; vm_compute; reflexivity.
Qed.

(** ** C06 *)
Theorem C06_dedup_invisible : forall b, in_memory b ->
  in_memory (base_dedup b) /\ len_buf (base_dedup b) = len_buf b /\
  (forall m, shows b m -> shows (base_dedup b) m) /\
  (forall d, In d (b_diffs (base_dedup b)) -> In d (b_diffs b)) /\
  (forall i d, nth_error (b_diffs b) i = Some d -> ~ In d (b_diffs (base_dedup b)) ->
     exists j e, (i < j)%nat /\ nth_error (b_diffs b) j = Some e /\
       d_off e <= d_off d /\ d_off d + d_len d <= d_off e + d_len e).
Proof. exact dedup_props. Qed.
Print Assumptions C06_dedup_invisible.

Example C06_example :
  let w b p o := fst (write_at b p o) in
  let b := w (w (w (new_base (gs_of [x01])) [x0a;x0b] 1) [x0c] 2) [x0d;x0e;x0f] 1 in
  in_memory b /\ length (b_diffs b) = 3%nat /\ length (b_diffs (base_dedup b)) = 1%nat.
Proof. split; [split; [reflexivity|repeat constructor; cbn; lia]|]. split; vm_compute; reflexivity. Qed.

(** ** C07: holds for journals without overlap and for journals in offset
    order; refuted in general. *)
Theorem C07_merge_invisible_partial : forall b b' m, in_memory b ->
  (ForallOrdPairs apart (b_diffs b) /\ Forall (fun d => 0 < d_len d) (b_diffs b)
   \/ StronglySorted (fun d e => d_off d <= d_off e) (b_diffs b)) ->
  base_merge_diffs b = Ok b' -> shows b m -> shows b' m.
Proof. exact merge_diffs_shows. Qed.
Print Assumptions C07_merge_invisible_partial.

Example C07_example :
  let w b p o := fst (write_at b p o) in
  let b := w (w (w (new_base (gs_of nil)) [x0a;x0b] 4) [x0c] 9) [x0d;x0e] 6 in
  ForallOrdPairs apart (b_diffs b) /\ Forall (fun d => 0 < d_len d) (b_diffs b) /\
  exists b', base_merge_diffs b = Ok b' /\ length (b_diffs b') = 2%nat /\
    map (peek b') [4;5;6;7;8;9] =
    [Ok (Some x0a); Ok (Some x0b); Ok (Some x0d); Ok (Some x0e); Ok None; Ok (Some x0c)].
Proof.
  split; [repeat constructor; unfold apart; cbn; lia|]. split; [repeat constructor; cbn; lia|].
  eexists; split; [vm_compute; reflexivity|]. split; vm_compute; reflexivity.
Qed.

Theorem C07_merge_refuted : exists os b b' i,
  Forall wop_ok os /\ Forall wop_nonempty os /\
  run_wops (new_base (gs_of nil)) os = Ok b /\ base_merge_diffs b = Ok b' /\
  0 <= i /\ peek b' i <> peek b i.
Proof. exact merge_diffs_changes. Qed.
Print Assumptions C07_merge_refuted.

(** ** C08 *)
Theorem C08_merge_terminates : forall b, in_memory b -> exists b', base_merge_diffs b = Ok b' /\
  in_memory b' /\ ForallOrdPairs (fun d s => ~ touching d s) (b_diffs b').
Proof. exact merge_diffs_ends. Qed.
Print Assumptions C08_merge_terminates.

Example C08_example :
  let w b p o := fst (write_at b p o) in
  let b := w (w (w (w (new_base (gs_of nil)) [x01] 0) [x02] 2) [x03] 8) [x04] 1 in
  in_memory b /\ exists b', base_merge_diffs b = Ok b' /\ map d_off (b_diffs b') = [0; 8].
Proof.
  split; [split; [reflexivity|repeat constructor; cbn; lia]|].
  eexists; split; vm_compute; reflexivity.
Qed.

(** ** C09: holds when at most one entry crosses the insertion point; refuted
    for two. *)
Theorem C09_insert_space_partial : forall b pos size, in_memory b -> 0 <= pos -> 0 <= size ->
  (length (filter (straddles pos) (b_diffs b)) <= 1)%nat ->
  exists b', insert_space b pos size true = Ok b' /\ in_memory b' /\
    forall m, shows b m -> shows b' (img_insert m pos size).
Proof. exact insert_space_shows. Qed.
Print Assumptions C09_insert_space_partial.

Example C09_example :
  let b := fst (write_at (new_base (gs_of [x01;x02;x03;x04;x05])) [x0a;x0b;x0c] 1) in
  in_memory b /\ length (filter (straddles 2) (b_diffs b)) = 1%nat /\
  exists b', insert_space b 2 2 true = Ok b' /\
    map (peek b') [0;1;2;3;4;5;6;7] =
    [Ok (Some x01); Ok (Some x0a); Ok (Some x00); Ok (Some x00); Ok (Some x0b); Ok (Some x0c);
     Ok (Some x05); Ok None].
Proof.
  split; [split; [reflexivity|repeat constructor; cbn; lia]|]. split; [reflexivity|].
  eexists; split; vm_compute; reflexivity.
Qed.

Theorem C09_insert_space_refuted : exists os b b' i,
  Forall wop_ok os /\ Forall wop_nonempty os /\
  run_wops (new_base (gs_of nil)) os = Ok b /\ insert_space b 2 1 true = Ok b' /\
  0 <= i /\ (forall m, shows b m -> peek b' i <> Ok (img_insert m 2 1 i)).
Proof. exact insert_space_two. Qed.
Print Assumptions C09_insert_space_refuted.

Theorem C09_insert_hole_refuted : exists os b b' i,
  Forall wop_ok os /\ Forall wop_nonempty os /\
  run_wops (new_base (gs_of nil)) os = Ok b /\ insert_space b 2 2 false = Ok b' /\
  2 <= i < 4 /\ peek b' i = Ok (Some x03).
Proof. exact insert_space_hole. Qed.
Print Assumptions C09_insert_hole_refuted.

(** ** C10 *)
Theorem C10_copy_overlay : forall b src srcOff size dstOff m ms,
  in_memory b -> in_memory src -> reads_current src ->
  0 <= srcOff -> 0 <= size -> 0 <= dstOff -> shows b m -> shows src ms ->
  exists b' n, base_copy b src srcOff size dstOff 0 = Ok b' /\ in_memory b' /\
    defined_run ms srcOff size n /\ shows b' (img_overlay m ms srcOff n dstOff).
Proof. exact copy_shows. Qed.
Print Assumptions C10_copy_overlay.

(** The hypothesis on the source holds for every buffer in which no entry
    starts strictly inside an earlier one, e.g. after Flatten. *)
Theorem C10_reads_current : forall b, in_memory b -> no_inner_start (b_diffs b) -> reads_current b.
Proof. exact reads_current_ok. Qed.
Print Assumptions C10_reads_current.

Example C10_example :
  let src := fst (write_at (new_base (gs_of [x01;x02;x03])) [x0a;x0b] 2) in
  exists b', base_copy (new_base (gs_of [x11;x12;x13;x14;x15])) src 1 9 1 0 = Ok b' /\
    map (peek b') [0;1;2;3;4;5] =
    [Ok (Some x11); Ok (Some x02); Ok (Some x0a); Ok (Some x0b); Ok (Some x15); Ok None].
Proof. eexists; split; vm_compute; reflexivity. Qed.

(** ** C11: holds when no entry of the destination crosses the copy position
    and the extension equals the size; refuted otherwise. *)
Theorem C11_copy_extend_partial : forall b src srcOff size dstOff m ms,
  in_memory b -> in_memory src -> reads_current src ->
  0 <= srcOff -> 0 <= size -> 0 <= dstOff -> shows b m -> shows src ms ->
  (forall k, 0 <= k < size -> ms (srcOff + k) <> None) ->
  Forall (fun d => straddles dstOff d = false) (b_diffs b) ->
  exists b', base_copy b src srcOff size dstOff size = Ok b' /\ in_memory b' /\
    shows b' (fun i => if i <? dstOff then m i
                       else if i <? dstOff + size then ms (srcOff + (i - dstOff))
                       else m (i - size)).
Proof. exact copy_extend_shows. Qed.
Print Assumptions C11_copy_extend_partial.

Example C11_example :
  exists b', base_copy (new_base (gs_of [x11;x12;x13])) (new_base (gs_of [x01;x02])) 0 2 1 2 = Ok b' /\
    map (peek b') [0;1;2;3;4;5] =
    [Ok (Some x11); Ok (Some x01); Ok (Some x02); Ok (Some x12); Ok (Some x13); Ok None].
Proof. eexists; split; vm_compute; reflexivity. Qed.

Theorem C11_copy_extend_refuted : exists os b src b' i,
  Forall wop_ok os /\ run_wops (new_base (gs_of nil)) os = Ok b /\
  src = new_base (gs_of [x09]) /\ base_copy b src 0 1 2 1 = Ok b' /\ 3 <= i /\
  peek b' i <> peek b (i - 1).
Proof. exact copy_extend_straddle. Qed.
Print Assumptions C11_copy_extend_refuted.

(** ** C12: for histories of non-empty writes; an empty write far out moves
    the reported length beyond the content. *)
Theorem C12_len_buf_partial : forall init os b, Forall wop_ok os -> Forall wop_nonempty os ->
  run_wops (new_base init) os = Ok b ->
  img_len (spec_wops (img_bytes (sl_data init)) os) (len_buf b).
Proof. exact history_len. Qed.
Print Assumptions C12_len_buf_partial.

Example C12_example :
  let os := [OpWriteAt 6 [x0a;x0b]; OpUpdate 1 [x0c;x0d]] in
  Forall wop_ok os /\ Forall wop_nonempty os /\
  exists b, run_wops (new_base (gs_of [x01;x02])) os = Ok b /\ len_buf b = 8.
Proof.
  split; [repeat constructor; cbn; lia|]. split; [repeat constructor; cbn; discriminate|].
  eexists; split; vm_compute; reflexivity.
Qed.

Theorem C12_len_after_write : forall b p off, in_memory b ->
  len_buf (fst (write_at b p off)) = Z.max (len_buf b) (off + zlen p).
Proof. exact len_buf_write. Qed.
Print Assumptions C12_len_after_write.

Theorem C12_len_buf_refuted : exists os b, Forall wop_ok os /\
  run_wops (new_base (gs_of nil)) os = Ok b /\ len_buf b = 100 /\ peek b 99 = Ok None.
Proof. exact len_buf_empty_write. Qed.
Print Assumptions C12_len_buf_refuted.

(** ** C13, content half (independence: HeapProps.v). *)
Theorem C13_dup_content : forall b, in_memory b -> in_memory (base_dup b) /\
  len_buf (base_dup b) = len_buf b /\ forall m, shows b m -> shows (base_dup b) m.
Proof. exact dup_spec. Qed.
Print Assumptions C13_dup_content.

Example C13_example :
  let b := fst (write_at (new_base (gs_of [x01;x02])) [x0a;x0b] 1) in
  in_memory b /\ map (peek (base_dup b)) [0;1;2;3] = map (peek b) [0;1;2;3].
Proof. split; [split; [reflexivity|repeat constructor; cbn; lia]|vm_compute; reflexivity]. Qed.

(** ** C14 *)
Theorem C14_sequential_write : forall ps, exists b b',
  run_wops (new_base (gs_of nil)) (map OpWrite ps) = Ok b /\
  shows b (img_bytes (concat ps)) /\ b_seek b = zlen (concat ps) /\
  base_flatten b = Ok b' /\ sl_data (b_bytes b') = concat ps /\ b_diffs b' = nil.
Proof. exact seq_writes_all. Qed.
Print Assumptions C14_sequential_write.

Theorem C14_write_count : forall b p off,
  snd (base_write b p) = zlen p /\ snd (write_at b p off) = zlen p.
Proof. exact write_count. Qed.
Print Assumptions C14_write_count.

Example C14_example :
  exists b, run_wops (new_base (gs_of nil)) (map OpWrite [[x01;x02]; nil; [x03]]) = Ok b /\
    map (peek b) [0;1;2;3] = [Ok (Some x01); Ok (Some x02); Ok (Some x03); Ok None].
Proof. eexists; split; vm_compute; reflexivity. Qed.

(** ** C15: refuted as stated, because the reported count can exceed the room
    given.  As long as no read reports too much, consecutive reads deliver
    consecutive bytes, and nothing only where there is nothing. *)
Theorem C15_reads_partial : forall ns b m,
  in_memory b -> 0 <= b_seek b -> no_inner_start (b_diffs b) -> shows b m ->
  Forall (fun n => 0 <= n) ns -> reads_fit b ns ->
  exists out, run_reads b ns = Ok out /\ consecutive m (b_seek b) out /\
    length out = length ns.
Proof. exact reads_consecutive. Qed.
Print Assumptions C15_reads_partial.

(** Two bytes, then a journal entry of three: each read gets one piece, the
    last one nothing. *)
Example C15_example :
  let b := mkBase (gs_of [x01;x02]) nil [mkDiff 2 (gs_of [x03;x04;x05])] true 0 in
  in_memory b /\ no_inner_start (b_diffs b) /\ reads_fit b [2; 4; 1] /\
  run_reads b [2; 4; 1] = Ok [[x01;x02]; [x03;x04;x05]; nil].
Proof.
  cbn zeta. split; [|split; [|split]].
  - split; [reflexivity|]. repeat constructor; cbn; lia.
  - intros l1 d l2 e l3 H. apply (f_equal (@length diff)) in H.
    rewrite !app_length in H. cbn in H. rewrite app_length in H. cbn in H. lia.
  - cbn [reads_fit].
    intros ? ? ? E; vm_compute in E; inversion E; subst; split; [lia|].
    intros ? ? ? E2; vm_compute in E2; inversion E2; subst; split; [lia|].
    intros ? ? ? E3; vm_compute in E3; inversion E3; subst; split; [lia|exact I].
  - vm_compute. reflexivity.
Qed.

Theorem C15_read_at_refuted : exists b p off p' n,
  b = new_base (gs_of [x01;x02;x03;x04;x05;x06;x07;x08]) /\ zlen p = 2 /\ off = 0 /\
  read_at b p off = Ok (p', n) /\ zlen p < n.
Proof. exact read_at_overreports. Qed.
Print Assumptions C15_read_at_refuted.

Theorem C15_read_skips_refuted : exists b,
  b = new_base (gs_of [x01;x02;x03;x04]) /\ run_reads b [2; 2] = Ok [[x01;x02]; nil].
Proof. exact read_skips. Qed.
Print Assumptions C15_read_skips_refuted.
