(** Property theorems about buffers over shared arrays (C13, C19, C60). *)
From Coq Require Import ZArith List Bool Lia.
From Coq Require Import Strings.Byte.
From Verif Require Import GoLib GoLemmas BaseModel BaseSpec HeapModel HeapSpec.
From Verif Require Import HeapProofs HeapProofs2 HeapProofs3 HeapProofs4 HeapProofs5.
Import ListNotations.
Open Scope Z_scope.

(** A buffer to try the theorems on: four bytes in an array of eight, with
    one journal entry behind them. *)
Definition ex_heap : heap := [[x01; x02; x03; x04; x2a; x2a; x2a; x2a]; [x0a; x0b]].
Definition ex_base : hbase :=
  mkHbase (mkHsl 0 0 4 8) nil [mkHdiff 8 (mkHsl 1 0 2 2)] true 0.

Example ex_wf : wf ex_heap ex_base.
Proof.
  split; [vm_compute; intuition discriminate|]. split; [|constructor].
  constructor; [vm_compute; intuition discriminate|constructor].
Qed.

(** ** C13, independence *)

(** The duplicate is the one of the model by value ([C13_dup_content] is about
    that one). *)
Theorem C13_dup_value : forall h b h' c, wf h b -> hb_dup h b = (h', c) ->
  wf h' c /\ view_base h' c = base_dup (view_base h b).
Proof. exact dup_view. Qed.
Print Assumptions C13_dup_value.

(** At every point of every interleaving of changes to the two buffers, a
    change to one is not seen in the other; updates in place included. *)
Theorem C13_independent : forall h b h1 c os h2 b2 c2, wf h b -> hb_dup h b = (h1, c) ->
  run_pair h1 b c os = Ok (h2, b2, c2) ->
  (forall o h3 b3, run_hop h2 b2 o = Ok (h3, b3) -> view_base h3 c2 = view_base h2 c2) /\
  (forall o h3 c3, run_hop h2 c2 o = Ok (h3, c3) -> view_base h3 b2 = view_base h2 b2).
Proof. exact dup_independent. Qed.
Print Assumptions C13_independent.

Example C13_independent_example :
  match hb_dup ex_heap ex_base with
  | (h1, c) =>
      match run_pair h1 ex_base c
              [(true, HNoLayerU 0 2 [x77; x77]); (false, HWriteAt 1 [x66]); (true, HFlatten);
               (false, HNoLayerU 8 1 [x55])] with
      | Ok (h2, b2, c2) =>
          peek (view_base h2 b2) 0 = Ok (Some x77) /\ peek (view_base h2 c2) 0 = Ok (Some x01) /\
          peek (view_base h2 b2) 1 = Ok (Some x77) /\ peek (view_base h2 c2) 1 = Ok (Some x66) /\
          peek (view_base h2 b2) 8 = Ok (Some x0a) /\ peek (view_base h2 c2) 8 = Ok (Some x55)
      | _ => False
      end
  end.
Proof. vm_compute. repeat split. Qed.

(** Copy gives no such guarantee once one of the two is updated in place. *)
Theorem C13_copy_shared : exists h src dst dst' h' d',
  run_hops [] hempty [HWriteAt 0 [x01; x02; x03; x04]] = Ok (h, src) /\
  dst = hempty /\ hb_copy dst src 0 4 0 0 = Ok dst' /\ peek (view_base h src) 0 = Ok (Some x01) /\
  hn_u h dst' 0 1 [x07] = Ok (h', d') /\ peek (view_base h' src) 0 = Ok (Some x07).
Proof. exact nl_copy_shared. Qed.
Print Assumptions C13_copy_shared.

(** ** C19 *)

(** Full statement: without [tidy] and [roomy].  Missing: what the theorems
    below refute. *)
Theorem C19_update_partial : forall h b off p, wf h b -> in_memory (view_base h b) -> tidy b ->
  0 <= off -> roomy b off (zlen p) ->
  exists h' b', hn_u h b off (zlen p) p = Ok (h', b') /\ wf h' b' /\ in_memory (view_base h' b') /\
    forall m, shows (view_base h b) m -> shows (view_base h' b') (img_write m off p).
Proof. exact nl_update. Qed.
Print Assumptions C19_update_partial.

Example C19_update_case : tidy ex_base /\ roomy ex_base 3 2 /\ roomy ex_base 8 5 /\ roomy ex_base 9 1 /\
  roomy ex_base 20 4 /\
  match run_hops ex_heap ex_base (updates [(3, [x11; x12]); (8, [x21; x22; x23; x24; x25]); (20, [x31])]) with
  | Ok (h, b) => map (fun i => peek (view_base h b) i) [2; 3; 4; 5; 8; 12; 20] =
      [Ok (Some x03); Ok (Some x11); Ok (Some x12); Ok None; Ok (Some x21); Ok (Some x25); Ok (Some x31)]
  | _ => False
  end.
Proof.
  split; [|split; [|split; [|split; [|split]]]].
  - split.
    + intros d [<-|[]]. split; [left; discriminate|vm_compute; discriminate].
    + intros [|? [|? ?]] d l2 e l3 E; try discriminate. injection E as _ E. destruct l2; discriminate.
  - split; [|left; vm_compute; discriminate]. intros d [<-|[]]. cbn. lia.
  - split; [|right; vm_compute; reflexivity]. intros d [<-|[]]. cbn. lia.
  - split; [|right; vm_compute; reflexivity]. intros d [<-|[]]. cbn. lia.
  - split; [|right; vm_compute; reflexivity]. intros d [<-|[]]. cbn. lia.
  - vm_compute. reflexivity.
Qed.

(** Every run of updates of a buffer without a journal that stays within the
    capacity and leaves no gap. *)
Theorem C19_plain_runs : forall us h b, wf h b -> hplain b ->
  fits (a_len (hb_bytes b)) (a_cap (hb_bytes b)) us ->
  exists h' b', run_hops h b (updates us) = Ok (h', b') /\ hplain b' /\
    forall m, shows (view_base h b) m -> shows (view_base h' b') (img_writes m us).
Proof. exact plain_updates. Qed.
Print Assumptions C19_plain_runs.

Example C19_plain_case :
  fits 4 8 [(0, [x11]); (4, [x12; x13]); (5, [x14; x15]); (2, [x16; x17; x18])] /\
  match run_hops [[x01; x02; x03; x04; x2a; x2a; x2a; x2a]] (mkHbase (mkHsl 0 0 4 8) nil nil true 0)
          (updates [(0, [x11]); (4, [x12; x13]); (5, [x14; x15]); (2, [x16; x17; x18])]) with
  | Ok (h, b) => sl_data (view h (hb_bytes b)) = [x11; x02; x16; x17; x18; x14; x15]
  | _ => False
  end.
Proof. split; [cbn; lia|vm_compute; reflexivity]. Qed.

(** An update that starts in the spare room of an entry is lost. *)
Theorem C19_spare_refuted : exists h b h' b',
  run_hops [] hempty (updates [(0, [x01; x02; x03; x04])]) = Ok (h, b) /\
  hn_u h b 4 2 [x05; x06] = Ok (h', b') /\ peek (view_base h' b') 4 = Ok None.
Proof. exact nl_spare. Qed.
Print Assumptions C19_spare_refuted.

(** An update that runs past the capacity of the entry it starts in panics. *)
Theorem C19_panic_refuted : exists h b,
  run_hops [] hempty (updates [(0, [x01; x02; x03; x04])]) = Ok (h, b) /\
  hn_u h b 510 4 [x05; x06; x07; x08] = Panic.
Proof. exact nl_panic. Qed.
Print Assumptions C19_panic_refuted.

(** Updating an older entry hides a newer one that lies inside it. *)
Theorem C19_order_refuted : exists h b h' b',
  run_hops [] hempty [HWriteAt 0 [x01; x02; x03; x04]; HWriteAt 2 [x09]] = Ok (h, b) /\
  peek (view_base h b) 2 = Ok (Some x09) /\
  hn_u h b 0 1 [x07] = Ok (h', b') /\ peek (view_base h' b') 2 = Ok (Some x03).
Proof. exact nl_order. Qed.
Print Assumptions C19_order_refuted.

(** Updating the spare room of the bytes brings up what lies before it. *)
Theorem C19_gap_refuted : exists h b h' b', wf h b /\ hplain b /\ peek (view_base h b) 0 = Ok None /\
  hn_u h b 4 2 [x05; x06] = Ok (h', b') /\ peek (view_base h' b') 0 = Ok (Some x2a).
Proof. exact nl_gap. Qed.
Print Assumptions C19_gap_refuted.

(** ** C10, over shared arrays *)

(** Copy shows the bytes of the source also when the two buffers share
    arrays, although it keeps slices of the source's arrays. *)
Theorem C10_copy_arrays : forall h b src srcOff size dstOff m ms, wf h b -> wf h src ->
  in_memory (view_base h b) -> in_memory (view_base h src) -> reads_current (view_base h src) ->
  0 <= srcOff -> 0 <= size -> 0 <= dstOff -> shows (view_base h b) m -> shows (view_base h src) ms ->
  exists b' n, hb_copy b src srcOff size dstOff 0 = Ok b' /\ wf h b' /\
    defined_run ms srcOff size n /\ shows (view_base h b') (img_overlay m ms srcOff n dstOff).
Proof. exact heap_copy_shows. Qed.
Print Assumptions C10_copy_arrays.

(** Source and destination over the same array. *)
Example C10_arrays_case :
  let src := mkHbase (mkHsl 0 1 3 7) nil [mkHdiff 3 (mkHsl 1 0 2 2)] true 0 in
  let dst := mkHbase (mkHsl 0 0 4 8) nil nil true 0 in
  match hb_copy dst src 1 4 2 0 with
  | Ok d => map (fun i => peek (view_base ex_heap d) i) [0; 1; 2; 3; 4; 5; 6] =
      [Ok (Some x01); Ok (Some x02); Ok (Some x03); Ok (Some x04); Ok (Some x0a); Ok (Some x0b); Ok None]
  | _ => False
  end.
Proof. vm_compute. reflexivity. Qed.

(** ** C60 *)

(** Changes to a default buffer leave every slice handed out before as it
    was ... *)
Theorem C60_slices : forall os h b h' b' s, wf h b -> wf_sl h s -> Forall default_op os ->
  run_hops h b os = Ok (h', b') -> view h' s = view h s.
Proof. exact default_ops_quiet. Qed.
Print Assumptions C60_slices.

(** ... and every other buffer, whatever arrays the two share. *)
Theorem C60_buffers : forall os h b h' b' c, wf h b -> wf h c -> Forall default_op os ->
  run_hops h b os = Ok (h', b') -> view_base h' c = view_base h c.
Proof. exact default_ops_buffers. Qed.
Print Assumptions C60_buffers.

(** The effect on the buffer itself is the one of the model by value. *)
Theorem C60_by_value : forall os h b h' b', wf h b -> Forall default_op os ->
  run_hops h b os = Ok (h', b') ->
  fold_left (fun m o => do x <- m; value_op x o) os (Ok (view_base h b)) = Ok (view_base h' b').
Proof. exact default_ops_value. Qed.
Print Assumptions C60_by_value.

(** Two buffers sharing an array, one of them changed in several ways. *)
Example C60_example :
  let b := mkHbase (mkHsl 0 0 4 8) nil nil true 0 in
  let c := mkHbase (mkHsl 0 2 6 6) nil [mkHdiff 6 (mkHsl 0 0 2 2)] true 0 in
  match run_hops ex_heap b [HWriteAt 2 [x99]; HU 1 2 [x88; x88]; HInsert 1 3 true; HFlatten; HU 0 1 [x77]] with
  | Ok (h', b') =>
      wf ex_heap c /\ map (fun i => peek (view_base h' c) i) [0; 1; 6; 7] =
        [Ok (Some x03); Ok (Some x04); Ok (Some x01); Ok (Some x02)] /\
      map (fun i => peek (view_base h' b') i) [0; 1; 2; 3; 4; 5; 6] =
        [Ok (Some x77); Ok (Some x00); Ok (Some x00); Ok (Some x00); Ok (Some x88); Ok (Some x88); Ok (Some x04)]
  | _ => False
  end.
Proof.
  vm_compute. split; [|split; reflexivity].
  split; [intuition discriminate|]. split; [|constructor]. constructor; [intuition discriminate|constructor].
Qed.

(** An update in place is seen through a slice handed out before. *)
Theorem C60_in_place_refuted : exists h b s h' b', wf h b /\ wf_sl h s /\
  hn_u h b 0 1 [x07] = Ok (h', b') /\ view h' s <> view h s.
Proof. exact nl_visible. Qed.
Print Assumptions C60_in_place_refuted.
