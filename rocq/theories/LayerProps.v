(** Property theorems about inserting space into the buffer variants (C95, C96)
    and choosing a variant (C97). *)
From Coq Require Import ZArith List Bool String.
From Coq Require Import Strings.Byte.
From Verif Require Import GoLib BaseModel BaseSpec BaseProofs VariantModel LayerModel LayerProofs.
Import ListNotations.
Open Scope list_scope.
Open Scope Z_scope.

(** ** C95: inserting space into a NoLayer *)

(** With at most one journal entry across the place.  Missing: more than one,
    where C09 refutes it for the buffer underneath. *)
Theorem C95_nolayer_partial : forall b pos size create m, in_memory b -> shows b m -> 0 <= pos -> 0 <= size ->
  (List.length (filter (straddles pos) (b_diffs b)) <= 1)%nat ->
  exists b', nl_insert b pos size create = Ok b' /\ in_memory b' /\
    (forall i, 0 <= i -> (i < pos \/ pos + size <= i) -> peek b' i = Ok (img_insert m pos size i)) /\
    (create = true -> shows b' (img_insert m pos size)) /\ pos + size <= len_buf b'.
Proof. exact nl_insert_spec. Qed.
Print Assumptions C95_nolayer_partial.

(** At the end of the buffer the space is filled although it was not asked for. *)
Example C95_case : exists b', nl_insert (mkBase (gs_of [x01; x02]) nil [mkDiff 1 (gs_of [x09])] true 0) 2 2 false = Ok b' /\
  map (peek b') [0; 1; 2; 3; 4] = [Ok (Some x01); Ok (Some x09); Ok (Some x00); Ok (Some x00); Ok None] /\ len_buf b' = 4.
Proof. eexists. split; [vm_compute; reflexivity|]. split; vm_compute; reflexivity. Qed.

(** ** C96: inserting space into a DoubleLayer *)

(** Without a journal, at the end of the buffer or behind it *)
Theorem C96_end_partial : forall b pos size m, in_memory b -> b_diffs b = [] -> shows b m -> 0 <= size ->
  gs_len (b_bytes b) <= pos -> exists b', dl_insert b pos size = Ok b' /\ in_memory b' /\ shows b' (img_insert m pos size).
Proof. exact dl_insert_end. Qed.
Print Assumptions C96_end_partial.

(** Inside the only journal entry, when it reaches the end of the buffer, the
    place is not behind its capacity, and it either has room for the space or
    has none from the place on.  Missing: what is refuted below. *)
Theorem C96_entry_partial : forall b d pos size m, in_memory b -> b_diffs b = [d] -> shows b m -> 0 <= size ->
  d_off d <= pos <= d_off d + d_len d -> gs_len (b_bytes b) <= d_off d + d_len d -> pos <= d_cap d ->
  (d_cap d < pos + size \/ d_len d + size <= d_cap d) -> include d pos = true ->
  exists b', dl_insert b pos size = Ok b' /\ in_memory b' /\ shows b' (img_insert m pos size).
Proof. exact dl_insert_entry. Qed.
Print Assumptions C96_entry_partial.

(** At the end of the only entry *)
Theorem C96_append_partial : forall b d size m, in_memory b -> b_diffs b = [d] -> shows b m -> 0 <= size -> 0 < d_len d ->
  gs_len (b_bytes b) <= d_off d + d_len d ->
  exists b', dl_insert b (d_off d + d_len d) size = Ok b' /\ in_memory b' /\ shows b' (img_insert m (d_off d + d_len d) size).
Proof. exact dl_insert_append. Qed.
Print Assumptions C96_append_partial.

(** Behind it: what lies between becomes part of the buffer and reads as zeros. *)
Theorem C96_behind : forall b d pos size m, in_memory b -> b_diffs b = [d] -> shows b m -> 0 <= size ->
  gs_len (b_bytes b) <= d_off d + d_len d -> d_off d + d_len d <= pos ->
  exists b', dl_insert b pos size = Ok b' /\ in_memory b' /\
    shows b' (fun i => if i <? d_off d + d_len d then m i else if i <? pos + size then Some x00 else None).
Proof. exact dl_insert_behind. Qed.
Print Assumptions C96_behind.

Example C96_behind_case : exists b', dl_insert (mkBase (gs_of [x07]) nil [mkDiff 1 (gs_of [x01])] true 0) 3 1 = Ok b' /\
  map (peek b') [0; 1; 2; 3; 4] = [Ok (Some x07); Ok (Some x01); Ok (Some x00); Ok (Some x00); Ok None].
Proof. eexists. split; [vm_compute; reflexivity|]. vm_compute. reflexivity. Qed.

(** Both branches, with and without room *)
Example C96_case :
  (exists b', dl_insert (mkBase (gs_of [x07]) nil [mkDiff 1 (mkSlice [x01; x02; x03] [x05; x05])] true 0) 2 2 = Ok b' /\
    map (peek b') [0; 1; 2; 3; 4; 5; 6] = [Ok (Some x07); Ok (Some x01); Ok (Some x00); Ok (Some x00); Ok (Some x02); Ok (Some x03); Ok None]) /\
  (exists b', dl_insert (mkBase (gs_of [x07]) nil [mkDiff 1 (gs_of [x01; x02; x03])] true 0) 2 2 = Ok b' /\
    map (peek b') [0; 1; 2; 3; 4; 5; 6] = [Ok (Some x07); Ok (Some x01); Ok (Some x00); Ok (Some x00); Ok (Some x02); Ok (Some x03); Ok None]).
Proof. split; eexists; (split; [vm_compute; reflexivity|]); vm_compute; reflexivity. Qed.

(** Without a journal, in front of the end: what follows the place is lost, its
    bytes read as zeros.  For every buffer: *)
Theorem C96_tail_refuted : forall b pos size, in_memory b -> b_diffs b = [] -> 0 <= pos < gs_len (b_bytes b) -> 0 <= size ->
  exists b', dl_insert b pos size = Ok b' /\ in_memory b' /\
    forall i, pos + size <= i < gs_len (b_bytes b) + size -> peek b' i = Ok (Some x00).
Proof. exact dl_insert_tail. Qed.
Print Assumptions C96_tail_refuted.

Example C96_tail_case : exists b m, in_memory b /\ b_diffs b = [] /\ shows b m /\
  exists b', dl_insert b 1 2 = Ok b' /\ peek b' 3 = Ok (Some x00) /\ img_insert m 1 2 3 = Some x02.
Proof. exact dl_tail_refuted. Qed.

(** The test for room compares with the capacity behind the place, the slice
    needs it behind the entry. *)
Theorem C96_room_refuted : exists b d, in_memory b /\ b_diffs b = [d] /\ d_off d = 0 /\ d_len d = 10 /\ d_cap d = 12 /\
  b_bytes b = gs_of [] /\ dl_insert b 5 4 = Panic.
Proof. exact dl_room_refuted. Qed.
Print Assumptions C96_room_refuted.

(** The position in the buffer is used as one in the entry. *)
Theorem C96_offset_refuted : forall b d pos size, b_diffs b = [d] -> include d pos = true -> d_cap d < pos ->
  dl_insert b pos size = Panic.
Proof. exact dl_offset_panics. Qed.
Print Assumptions C96_offset_refuted.

Example C96_offset_case : let b := mkBase (gs_of [x07; x07; x07]) nil [mkDiff 3 (gs_of [x01; x02])] true 0 in
  dl_insert b 4 1 = Panic.
Proof. reflexivity. Qed.

(** An entry that begins behind the place is put at the place. *)
Theorem C96_front_refuted : exists b m, in_memory b /\ shows b m /\
  exists b', dl_insert b 1 1 = Ok b' /\ m 2 = Some x03 /\ m 3 = Some x09 /\ img_insert m 1 1 4 = Some x09 /\
    peek b' 2 = Ok (Some x09) /\ peek b' 4 = Ok None.
Proof. exact dl_front_refuted. Qed.
Print Assumptions C96_front_refuted.

(** Entries that were merged stay in the journal, where they were. *)
Theorem C96_merged_refuted : exists b m, in_memory b /\ shows b m /\
  exists b', dl_insert b 1 1 = Ok b' /\ img_insert m 1 1 2 = Some x02 /\ peek b' 2 = Ok (Some x09).
Proof. exact dl_merged_refuted. Qed.
Print Assumptions C96_merged_refuted.

(** ** C97: choosing the variant by its name *)

Theorem C97_nolayer : forall name, default_base name = KNoLayer <-> name = "NoLayer"%string.
Proof. exact default_nolayer. Qed.
Print Assumptions C97_nolayer.

Theorem C97_double_refuted : default_base "DoubleLayer" = KBase /\
  exists name, name <> "DoubleLayer"%string /\ default_base name = KDoubleLayer.
Proof. exact default_double_refuted. Qed.
Print Assumptions C97_double_refuted.

Example C97_case : map default_base ["NoLayer"; "nolayer"; ""]%string = [KNoLayer; KBase; KBase].
Proof. reflexivity. Qed.
