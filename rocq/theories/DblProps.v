(** Property theorems about [DoubleLayer] over shared arrays (C117). *)
From Coq Require Import ZArith List Bool Lia.
From Coq Require Import ZifyBool.
From Coq Require Import Strings.Byte.
From Verif Require Import GoLib BaseModel BaseSpec VariantModel VariantSpec HeapModel HeapSpec DblModel DblSpec DblProofs.
Import ListNotations.
Open Scope Z_scope.

(** Merging in place gives what merging values gives when the first entry
    shares no byte with the others. *)
Theorem C117_merge_by_value : forall h b, wf h b -> own_first b ->
  match hd_merge h b with
  | Ok (h', b') => dl_merge (view_base h b) = Ok (view_base h' b') /\ wf h' b' /\ own_first b'
  | Panic => dl_merge (view_base h b) = Panic
  | OutOfFuel => False
  end.
Proof. exact hd_merge_view. Qed.
Print Assumptions C117_merge_by_value.

Theorem C117_read_by_value : forall h b off req, wf h b -> own_first b ->
  match hd_r h b off req with
  | Ok (h', b', s) => dl_r (view_base h b) off req = Ok (view_base h' b', s) /\ wf h' b' /\ own_first b'
  | Panic => dl_r (view_base h b) off req = Panic
  | OutOfFuel => dl_r (view_base h b) off req = OutOfFuel
  end.
Proof. exact reads_view. Qed.
Print Assumptions C117_read_by_value.

(** Two entries in one array, the second starting inside the first and ending
    in its room, and one that lies in another array. *)
Definition ex_arrays : heap := [[x01; x02; x03; x04]; [x11; x12; x13; x14; x2a; x2a; x21; x22; x23]; [x31; x32]].
Definition ex_double : hbase :=
  mkHbase (mkHsl 0 0 4 4) nil
    [mkHdiff 4 (mkHsl 1 0 4 6); mkHdiff 6 (mkHsl 2 0 2 2); mkHdiff 8 (mkHsl 1 6 3 3)] true 0.

Example C117_read_case : wf ex_arrays ex_double /\ own_first ex_double /\
  map (shown_at (Ok (ex_arrays, ex_double))) [3; 4; 5; 6; 7; 8; 10; 11] =
    [Ok (Some x04); Ok (Some x11); Ok (Some x12); Ok (Some x31); Ok (Some x32); Ok (Some x21); Ok (Some x23); Ok None].
Proof.
  split; [|split].
  - split; [vm_compute; repeat split; discriminate|]. split; [|constructor].
    repeat (constructor; [vm_compute; repeat split; discriminate|]). constructor.
  - split; [left; discriminate|]. constructor; [left; discriminate|]. constructor; [|constructor].
    right; left. vm_compute. discriminate.
  - vm_compute. reflexivity.
Qed.

(** Full statement: for every journal.  Missing: entries with a gap between
    them, see below. *)
Theorem C117_gap_free_partial : forall h b d l m, wf h b -> own_first b -> in_memory (view_base h b) ->
  map (view_diff h) (hb_diffs b) = d :: l -> gap_free d l -> shows (view_base h b) m -> hd_shows h b m.
Proof. exact gap_free_shows. Qed.
Print Assumptions C117_gap_free_partial.

Example C117_gap_free_case : in_memory (view_base ex_arrays ex_double) /\
  match map (view_diff ex_arrays) (hb_diffs ex_double) with d :: l => gap_free d l | nil => False end.
Proof.
  split.
  - split; [reflexivity|]. repeat (constructor; [vm_compute; discriminate|]). constructor.
  - cbn [ex_double hb_diffs map]. intros l1 s l2 E.
    assert (IN : d_off s = 6 \/ d_off s = 8).
    { destruct l1 as [|x [|y l1]]; injection E as E; [left|right|]; subst; try reflexivity.
      destruct l1; discriminate. }
    split; [cbn; lia|]. intros i Hi. eexists. split; [left; reflexivity|].
    change ((4 <=? i) && (i <? 4 + 4) = true). cbn [view_diff hd_off d_off] in Hi. lia.
Qed.

(** Full statement: for every journal and every update.  Missing: more than one
    entry before or after, which the theorems below refute, and what C19
    refutes. *)
Theorem C117_update_partial : forall h b off p, wf h b -> in_memory (view_base h b) -> tidy b ->
  (length (hb_diffs b) <= 1)%nat -> 0 <= off -> roomy b off (zlen p) ->
  exists h' b', hd_u h b off (zlen p) p = Ok (h', b') /\ wf h' b' /\ in_memory (view_base h' b') /\
    ((length (hb_diffs b') <= 1)%nat -> forall m, hd_shows h b m -> hd_shows h' b' (img_write m off p)).
Proof. exact one_update. Qed.
Print Assumptions C117_update_partial.

(** Any sequence of updates inside the bytes and inside the only entry shows the
    updates one after the other and leaves the buffer as it is. *)
Theorem C117_runs : forall us h b, wf h b -> in_memory (view_base h b) -> tidy b ->
  (length (hb_diffs b) <= 1)%nat -> Forall (stays b) us ->
  exists h', run_doubles h b us = Ok (h', b) /\ wf h' b /\
    forall m, hd_shows h b m -> hd_shows h' b (img_writes m us).
Proof. exact double_runs. Qed.
Print Assumptions C117_runs.

Definition ex_one : hbase := mkHbase (mkHsl 0 0 4 4) nil [mkHdiff 4 (mkHsl 1 0 4 6)] true 0.

Example C117_runs_case : tidy ex_one /\
  Forall (stays ex_one) [(1, [x41; x42]); (5, [x43]); (4, [x44; x45; x46]); (2, [x47])] /\
  roomy ex_one 10 2 /\
  map (shown_at (run_doubles ex_arrays ex_one [(1, [x41; x42]); (5, [x43]); (4, [x44; x45; x46]); (2, [x47])]))
    [0; 1; 2; 3; 4; 5; 6; 7; 8] =
    [Ok (Some x01); Ok (Some x41); Ok (Some x47); Ok (Some x04); Ok (Some x44); Ok (Some x45); Ok (Some x46); Ok (Some x14); Ok None].
Proof.
  split; [|split; [|split]].
  - split.
    + intros d [<-|[]]. split; [left; discriminate|vm_compute; discriminate].
    + intros [|? [|? ?]] d l2 e l3 E; try discriminate. injection E as _ E. destruct l2; discriminate.
  - repeat (constructor; [split; [vm_compute; discriminate|]; split; [vm_compute; discriminate|];
      first [left; vm_compute; discriminate|
        right; eexists; split; [left; reflexivity|]; split; vm_compute; discriminate]|]).
    constructor.
  - split; [|right; vm_compute; reflexivity]. intros d [<-|[]]. cbn. lia.
  - vm_compute. reflexivity.
Qed.

(** Any sequence of updates of a buffer without entries that stays in the room
    of its bytes and leaves no gap. *)
Theorem C117_plain_runs : forall us h b, wf h b -> hplain b -> fits (a_len (hb_bytes b)) (a_cap (hb_bytes b)) us ->
  exists h' b', run_doubles h b us = Ok (h', b') /\ wf h' b' /\ hplain b' /\
    forall m, hd_shows h b m -> hd_shows h' b' (img_writes m us).
Proof. exact double_plain_runs. Qed.
Print Assumptions C117_plain_runs.

(** Any update of a buffer on nothing and then any sequence of updates inside
    what it wrote. *)
Theorem C117_first : forall off p us, 0 <= off -> 1 <= zlen p ->
  Forall (fun u => 1 <= zlen (snd u) /\ off <= fst u /\ fst u + zlen (snd u) <= off + zlen p) us ->
  exists h b, run_doubles [] hempty ((off, p) :: us) = Ok (h, b) /\
    hd_shows h b (img_writes (fun _ => None) ((off, p) :: us)).
Proof. exact double_first. Qed.
Print Assumptions C117_first.

Example C117_plain_case :
  fits 4 9 [(0, [x51]); (4, [x52; x53]); (3, [x54; x55])] /\
  map (shown_at (run_doubles ex_arrays (mkHbase (mkHsl 1 0 4 9) nil nil true 0) [(0, [x51]); (4, [x52; x53]); (3, [x54; x55])]))
    [0; 1; 3; 4; 5; 6] = [Ok (Some x51); Ok (Some x12); Ok (Some x54); Ok (Some x55); Ok (Some x53); Ok None] /\
  map (shown_at (run_doubles [] hempty [(7, [x11; x12; x13]); (8, [x21]); (8, [x22; x23])])) [6; 7; 8; 9; 10] =
    [Ok None; Ok (Some x11); Ok (Some x22); Ok (Some x23); Ok None].
Proof. split; [cbn; lia|]. split; vm_compute; reflexivity. Qed.

(** An update before the entry of an earlier one loses the earlier one, and
    brings its second byte up at another place. *)
Theorem C117_lost_refuted : exists us,
  map (shown_at (run_doubles [] hempty us)) [600; 601; 11] = [Ok (Some x11); Ok (Some x12); Ok None] /\
  map (shown_at (run_doubles [] hempty (us ++ [(10, [x21])]))) [600; 601; 10; 11] =
    [Ok None; Ok None; Ok (Some x21); Ok (Some x12)].
Proof. exact (ex_intro _ [(600, [x11; x12])] lost_update). Qed.
Print Assumptions C117_lost_refuted.

(** An update behind the entry of an earlier one shows zeros between the two. *)
Theorem C117_zeros_refuted : exists us,
  map (shown_at (run_doubles [] hempty us)) [11; 12; 599] = [Ok (Some x12); Ok None; Ok None] /\
  map (shown_at (run_doubles [] hempty (us ++ [(600, [x21])]))) [11; 12; 599; 600] =
    [Ok (Some x12); Ok (Some x00); Ok (Some x00); Ok (Some x21)].
Proof. exact (ex_intro _ [(10, [x11; x12])] zero_gap). Qed.
Print Assumptions C117_zeros_refuted.
