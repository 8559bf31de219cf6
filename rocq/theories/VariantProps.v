(** Property theorems about the buffer variants (C17, C18, C20, C21, C58,
    C59). *)
From Coq Require Import ZArith List Bool Lia.
From Coq Require Import Strings.Byte.
From Verif Require Import GoLib GoLemmas BaseModel BaseSpec BaseProofs.
From Verif Require Import VariantModel VariantSpec VariantProofs VariantProofs2 VariantProofs3.
Import ListNotations.
Open Scope Z_scope.

(** ** C17 *)

Theorem C17_pages : forall n, 0 <= n -> exists k, 1 <= k /\ calc_buf_size n = k * 4096.
Proof. exact calc_pages. Qed.
Print Assumptions C17_pages.

(** Full statement: [0 <= n -> n <= calc_buf_size n].  Missing: the sizes the
    next theorem excludes. *)
Theorem C17_enough_partial : forall n, 0 <= n < 16777216 -> n <= calc_buf_size n.
Proof. exact calc_small. Qed.
Print Assumptions C17_enough_partial.

(** Exactly which sizes are large enough. *)
Theorem C17_enough_iff : forall n, 0 <= n ->
  (n <= calc_buf_size n <-> n <= 4096 \/ n mod 4096 = 0 \/ (n / 4096) mod 4096 <> 0).
Proof. exact calc_enough. Qed.
Print Assumptions C17_enough_iff.

Theorem C17_enough_refuted : exists n, 0 <= n /\ calc_buf_size n < n.
Proof. exact calc_short. Qed.
Print Assumptions C17_enough_refuted.

Example C17_sizes : calc_buf_size 0 = 4096 /\ calc_buf_size 4097 = 8192 /\ calc_buf_size 10000 = 12288 /\
  calc_buf_size 16777217 = 16777216.
Proof. repeat split. Qed.

(** ** C18 *)

Theorem C18_same_read : forall b off req, in_memory b -> 0 <= off -> 1 <= req ->
  nl_r b off req = base_r b off req.
Proof. exact nl_r_base. Qed.
Print Assumptions C18_same_read.

(** A request without a size: NoLayer also accepts an entry that ends at the
    offset, and returns an empty slice where BaseImpl returns the byte. *)
Theorem C18_no_size_refuted : exists b off, in_memory b /\ shows b (img_bytes [x01; x02; x03]) /\
  base_r b off 0 = Ok (Some (gs_of [x03])) /\ nl_r b off 0 = Ok (Some (gs_of [])).
Proof. exact nl_r_zero. Qed.
Print Assumptions C18_no_size_refuted.

(** A buffer with two overlapping journal entries and a base. *)
Definition ex_layers : base :=
  fst (write_at (fst (write_at (new_base (gs_of [x61; x62; x63; x64; x65])) [x01; x02; x03] 1)) [x09] 2).

Example C18_case : in_memory ex_layers /\ length (b_diffs ex_layers) = 2%nat /\
  nl_r ex_layers 2 1 = Ok (Some (gs_of [x09])) /\ nl_r ex_layers 4 1 = Ok (Some (gs_of [x65])).
Proof.
  split; [|vm_compute; auto]. split; [reflexivity|]. repeat constructor; cbn; lia.
Qed.

(** ** C20 *)

(** Full statement: for every [d] and [s] the merged entry holds [s] laid over
    [d].  Missing: [s] before [d], and [s] running past the end of [d] but not
    past its capacity; both fail, see below. *)
Theorem C20_merge_partial : forall d s,
  d_off d <= d_off s ->
  (d_off s + d_len s <= d_off d + d_len d \/ d_off d + d_cap d <= d_off s + d_len s \/
   d_off d + d_len d <= d_off s) ->
  exists d', diff_merge d s = Ok d' /\ d_off d' = d_off d /\
    forall i, d_off d <= i < Z.max (d_off d + d_len d) (d_off s + d_len s) ->
      entry_img d' i = laid_over d s i.
Proof. exact merge_ok. Qed.
Print Assumptions C20_merge_partial.

(** [s] before [d]: the merged bytes are thrown away and the old ones moved to
    the offset of [s]. *)
Theorem C20_before_refuted : forall d s, d_off s < d_off d -> exists d',
  diff_merge d s = Ok d' /\ d_off d' = d_off s /\ d_data d' = d_data d.
Proof. exact merge_before. Qed.
Print Assumptions C20_before_refuted.

Theorem C20_lost_refuted : exists d s d' i, diff_merge d s = Ok d' /\
  entry_img s i = Some x07 /\ entry_img d' i = Some x01.
Proof. exact merge_lost. Qed.
Print Assumptions C20_lost_refuted.

(** [s] running into the spare capacity of [d]: its tail is dropped. *)
Theorem C20_spare_refuted : exists d s d' i, diff_merge d s = Ok d' /\ d_off d <= d_off s /\
  laid_over d s i = Some x0d /\ entry_img d' i = None.
Proof. exact merge_spare. Qed.
Print Assumptions C20_spare_refuted.

Example C20_case : exists d', diff_merge (mkDiff 4 (gs_of [x01; x02])) (mkDiff 5 (gs_of [x07; x08])) = Ok d' /\
  d_off d' = 4 /\ d_data d' = [x01; x07; x08].
Proof. eexists. split; [reflexivity|]. split; reflexivity. Qed.

(** The whole journal.  Full statement: a DoubleLayer read returns the byte the
    buffer shows.  Missing: journals in which an entry starts before the first
    one or leaves a gap after it. *)
Theorem C20_read_partial : forall b d l, in_memory b -> b_diffs b = d :: l -> gap_free d l ->
  forall m i, shows b m -> 0 <= i ->
  exists b' s, dl_r b i 1 = Ok (b', s) /\ shows b' m /\ hd_error (opt_data s) = m i.
Proof. exact dl_read_keeps. Qed.
Print Assumptions C20_read_partial.

Theorem C20_single : forall b off req, in_memory b -> (length (b_diffs b) <= 1)%nat ->
  0 <= off -> 1 <= req ->
  exists s, dl_r b off req = Ok (b, s) /\ base_r b off req = Ok s.
Proof. exact dl_single. Qed.
Print Assumptions C20_single.

(** A gap between two entries reads as zero instead of the bytes below. *)
Theorem C20_gap_refuted : exists os b b' s, Forall wop_ok os /\
  run_wops (new_base (gs_of [x61; x62; x63; x64; x65])) os = Ok b /\
  peek b 2 = Ok (Some x63) /\ dl_r b 2 1 = Ok (b', s) /\ hd_error (opt_data s) = Some x00.
Proof. exact dl_hides. Qed.
Print Assumptions C20_gap_refuted.

(** Three entries without gaps. *)
Definition ex_chain : base :=
  fst (write_at (fst (write_at (fst (write_at (new_base (gs_of [x61; x62; x63; x64; x65; x66]))
    [x01; x02] 1)) [x03; x04] 2)) [x05] 4).

Example C20_chain : in_memory ex_chain /\
  (exists d e f, b_diffs ex_chain = [d; e; f] /\ gap_free d [e; f]) /\
  (exists b' s, dl_r ex_chain 4 1 = Ok (b', s) /\ hd_error (opt_data s) = Some x05).
Proof.
  split; [split; [reflexivity|repeat constructor; cbn; lia]|]. split.
  - do 3 eexists. split; [reflexivity|]. intros l1 s l2 E.
    destruct l1 as [|x [|y l1]]; injection E as; subst.
    + cbn [d_off]. split; [lia|]. intros i Hi. eexists. split; [left; reflexivity|].
      unfold covers. cbn. change (d_len _) with 2. lia.
    + cbn [d_off]. split; [lia|]. intros i Hi.
      assert (i = 1 \/ 2 <= i) as [->|G] by lia.
      * eexists. split; [left; reflexivity|]. reflexivity.
      * eexists. split; [right; left; reflexivity|]. unfold covers. cbn. change (d_len _) with 2. lia.
    + destruct l1; discriminate.
  - eexists. eexists. split; [vm_compute; reflexivity|]. reflexivity.
Qed.

(** ** C21 *)

Theorem C21_direct_read : forall b str data off req, in_memory b -> reads_current b ->
  shows b (img_bytes data) -> len_buf b = zlen data -> 0 <= off -> 0 <= req ->
  exists s, dr_r b str off req = Ok s /\
    slice_of_image (continued data str) off (opt_data s) /\
    (off < zlen data + zlen str -> opt_data s <> []).
Proof. exact dr_read. Qed.
Print Assumptions C21_direct_read.

Example C21_case : dr_r (new_base (gs_of [x01; x02; x03])) [x0a; x0b] 1 4 = Ok (Some (gs_of [x02; x03])) /\
  (exists s, dr_r (new_base (gs_of [x01; x02; x03])) [x0a; x0b] 4 4 = Ok s /\ opt_data s = [x0b]).
Proof. split; [reflexivity|]. eexists. split; [vm_compute; reflexivity|]. reflexivity. Qed.

(** ** C58 *)

Theorem C58_equal_sound : forall b c, in_memory b -> in_memory c -> base_equal b c = true ->
  forall m, shows b m -> shows c m.
Proof. exact equal_shows. Qed.
Print Assumptions C58_equal_sound.

Theorem C58_equal_self : forall b, base_equal b b = true.
Proof. exact equal_refl. Qed.
Print Assumptions C58_equal_self.

(** The converse fails: the same content kept in the journal of one and in the
    bytes of the other. *)
Theorem C58_equal_complete_refuted : exists b c, in_memory b /\ in_memory c /\ base_equal b c = false /\
  forall m, shows b m <-> shows c m.
Proof. exact equal_incomplete. Qed.
Print Assumptions C58_equal_complete_refuted.

Theorem C58_info_length : forall b, in_memory b -> fst (snd (buf_info b)) = len_buf b.
Proof. exact buf_info_len. Qed.
Print Assumptions C58_info_length.

Example C58_case : base_equal ex_layers ex_layers = true /\ base_equal ex_layers ex_chain = false /\
  fst (snd (buf_info ex_layers)) = 5.
Proof. repeat split. Qed.

(** ** C59 *)

(** Full statement: for every buffer, shrink leaves the window.  Missing:
    buffers with a journal; false there, see below. *)
Theorem C59_shrink_partial : forall s start size, 0 <= start -> 0 <= size ->
  exists b', base_shrink (new_base s) start size = Ok b' /\ in_memory b' /\
    forall m, shows (new_base s) m -> shows b' (img_window m start size).
Proof. exact shrink_bytes. Qed.
Print Assumptions C59_shrink_partial.

(** With a journal, none of whose entries starts inside the window and ends
    exactly at its end: the cells of the window are kept.  Missing: nothing is
    left behind the window (false, see below). *)
Theorem C59_shrink_journal_partial : forall b start size, in_memory b -> 0 <= start -> 0 <= size ->
  (forall d, In d (b_diffs b) -> start < d_off d -> d_off d + d_len d <> start + size) ->
  exists b', base_shrink b start size = Ok b' /\ in_memory b' /\
    forall i, 0 <= i < size -> peek b' i = peek b (start + i).
Proof. exact shrink_journal. Qed.
Print Assumptions C59_shrink_journal_partial.

Example C59_journal_case :
  let b := set_diffs (new_base (gs_of [x01; x02; x03; x04; x05; x06])) [mkDiff 1 (gs_of [x0a; x0b]); mkDiff 3 (gs_of [x0c])] in
  exists b', base_shrink b 2 3 = Ok b' /\ map (peek b') [0; 1; 2] = map (fun v => Ok (Some v)) [x0b; x0c; x05].
Proof. eexists. split; [vm_compute; reflexivity|vm_compute; reflexivity]. Qed.

(** A journal entry that ends where the window ends is dropped. *)
Theorem C59_shrink_drops_refuted : exists os b b', Forall wop_ok os /\
  run_wops (new_base (gs_of [x61; x62; x63; x64; x65; x66])) os = Ok b /\
  base_shrink b 2 3 = Ok b' /\ peek b 4 = Ok (Some x58) /\ peek b' 2 = Ok (Some x65).
Proof. exact shrink_drops. Qed.
Print Assumptions C59_shrink_drops_refuted.

(** A journal entry is not cut at the end of the window. *)
Theorem C59_shrink_tail_refuted : exists os b b', Forall wop_ok os /\
  run_wops (new_base (gs_of [])) os = Ok b /\
  base_shrink b 2 3 = Ok b' /\ peek b' 3 = Ok (Some x66).
Proof. exact shrink_tail. Qed.
Print Assumptions C59_shrink_tail_refuted.

Example C59_case : exists b', base_shrink (new_base (gs_of [x01; x02; x03; x04])) 1 2 = Ok b' /\
  peek b' 0 = Ok (Some x02) /\ peek b' 1 = Ok (Some x03) /\ peek b' 2 = Ok None.
Proof. eexists. split; [reflexivity|]. vm_compute. auto. Qed.
