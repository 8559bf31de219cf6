(** Property theorems about the option [OptUseMovOff] (C119). *)
From Coq Require Import ZArith List Bool.
From Coq Require Import Strings.Byte.
From Verif Require Import GoLib BaseModel BaseSpec TableModel TableSpec ListModel AddModel MovModel MovProofs.
Import ListNotations.
Open Scope Z_scope.

(** Whatever the option, every offset of the list is moved by [d], and neither
    single bytes nor range reads beside the offsets change. *)
Theorem C119_moved : forall l n d o, in_memory (l_io l) -> 0 <= l_pos l -> list_vlen l = Ok n -> 1 <= n ->
  (forall i, 0 <= i < n -> rd 4 (l_io l) (l_pos l + i * 4) = Ok (o i)) ->
  forall new, exists b, move_offset_to_table new l d = Ok (set_io l b) /\ in_memory b /\
    (forall i, 0 <= i < n -> rd 4 b (l_pos l + i * 4) = Ok ((o i + d) mod 2 ^ 32)) /\
    (forall m j, shows (l_io l) m -> 0 <= j < l_pos l \/ l_pos l + n * 4 <= j -> peek b j = Ok (m j)) /\
    forall c q, 0 <= c -> 1 <= zlen q -> (c + zlen q <= l_pos l \/ l_pos l + n * 4 <= c) ->
      delivers (l_io l) c q -> delivers b c q.
Proof. exact moved. Qed.
Print Assumptions C119_moved.

(** Full statement: for every list.  Missing: the empty list, see below. *)
Theorem C119_same_partial : forall l n d o, in_memory (l_io l) -> 0 <= l_pos l -> list_vlen l = Ok n -> 1 <= n ->
  (forall i, 0 <= i < n -> rd 4 (l_io l) (l_pos l + i * 4) = Ok (o i)) ->
  exists b1 b2, move_offset_to_table true l d = Ok (set_io l b1) /\ move_offset_to_table false l d = Ok (set_io l b2) /\
    forall j, 0 <= j -> peek b1 j = peek b2 j.
Proof. exact same_way. Qed.
Print Assumptions C119_same_partial.

(** Whenever moving them at once succeeds, moving them one by one does, with the
    same bytes. *)
Theorem C119_either : forall l d l1, in_memory (l_io l) -> 0 <= l_pos l -> move_offset_to_table true l d = Ok l1 ->
  exists l2, move_offset_to_table false l d = Ok l2 /\ l_pos l2 = l_pos l1 /\
    (forall j, 0 <= j -> peek (l_io l1) j = peek (l_io l2) j).
Proof. exact either_way. Qed.
Print Assumptions C119_either.

(** Two offsets, the first in the bytes and the second in an entry. *)
Definition ex_offsets : lnode :=
  mkL (mkBase (gs_of [x02; x00; x00; x00; x08; x00; x00; x00; x00; x00; x00; x00; x2a]) nil
         [mkDiff 8 (gs_of [x10; x01; x00; x00])] true 0) 4 4 2 0.

Example C119_case : in_memory (l_io ex_offsets) /\ list_vlen ex_offsets = Ok 2 /\
  map (fun i => rd 4 (l_io ex_offsets) (4 + i * 4)) [0; 1] = [Ok 8; Ok 272] /\
  forall new, match move_offset_to_table new ex_offsets (-12) with
    | Ok l => map (fun i => rd 4 (l_io l) (4 + i * 4)) [0; 1] = [Ok 4294967292; Ok 260] /\
        rd 4 (l_io l) 0 = Ok 2 /\ peek (l_io l) 12 = Ok (Some x2a)
    | _ => False
    end.
Proof.
  split; [split; [reflexivity|constructor; [vm_compute; discriminate|constructor]]|].
  split; [vm_compute; reflexivity|]. split; [vm_compute; reflexivity|].
  intros [|]; vm_compute; repeat split.
Qed.

(** The empty list is left alone with the option off; with the option on, which
    is the default, the code panics. *)
Theorem C119_empty_refuted : exists l, list_vlen l = Ok 0 /\ move_offset_to_table false l 4 = Ok l /\
  move_offset_to_table true l 4 = Panic.
Proof. exact (ex_intro _ _ empty_list). Qed.
Print Assumptions C119_empty_refuted.
