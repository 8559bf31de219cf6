(** Property theorems about changing the variant of a buffer (C118). *)
From Coq Require Import ZArith List Bool Lia.
From Coq Require Import ZifyBool.
From Coq Require Import Strings.Byte.
From Verif Require Import GoLib BaseModel BaseSpec VariantModel VariantSpec LayerModel MixModel MixSpec.
From Verif Require Import WrapModel WrapSpec WrapProofs.
Import ListNotations.
Open Scope Z_scope.

(** Full statement: for every buffer.  Missing: a [DirectReader], see below, and
    a [DoubleLayer] with gaps, which shows zeros there (C20). *)
Theorem C118_no_layer_partial : forall v m, sound v -> io_shows v m ->
  layer_shows (new_no_layer v) m /\ forall w, new_no_layer v = Some w -> sound w.
Proof. exact to_no_layer. Qed.
Print Assumptions C118_no_layer_partial.

Theorem C118_dup_partial : forall v m, sound v -> io_shows v m ->
  sound (io_dup v) /\ same_variant (io_dup v) v /\ io_shows (io_dup v) m.
Proof. exact dup_shows. Qed.
Print Assumptions C118_dup_partial.

(** A [BaseImpl] without entries keeps its bytes as a [DoubleLayer]; with entries
    the gaps are filled with zeros.  Missing: the other variants. *)
Theorem C118_double_layer_partial : forall b m, in_memory b -> shows b m ->
  exists w, new_double_layer (Plain b) = Ok (Some w) /\ sound w /\
    (b_diffs b = [] -> io_shows w m) /\ (b_diffs b <> [] -> io_shows w (img_fill m (len_buf b))).
Proof. exact to_double_layer. Qed.
Print Assumptions C118_double_layer_partial.

Theorem C118_bytes : forall k s, exists w, io_bytes k s = Ok (Some w) /\ sound w /\ impl w = new_base s /\
  io_shows w (img_bytes (sl_data s)).
Proof. exact fresh_bytes. Qed.
Print Assumptions C118_bytes.

(** A new list has a buffer of the same variant that shows a length of 0.
    Missing: a [DoubleLayer] when the default is [NoLayer], and a list over a
    [DirectReader], whose new list gets the default variant. *)
Theorem C118_list_partial : forall k v, sound v -> (k = KNoLayer -> forall b, v <> Double b) ->
  exists w, list_io k v = Ok (Some w) /\ sound w /\ same_variant w v /\ io_shows w (img_bytes (zeros 4)).
Proof. exact new_list. Qed.
Print Assumptions C118_list_partial.

Definition ex_journal : base := mkBase (gs_of [x01; x02]) nil [mkDiff 1 (mkSlice [x11; x12] [x2a]); mkDiff 3 (gs_of [x21])] true 0.

Example C118_case : sound (Double ex_journal) /\
  map (byte_at (Ok (Some (Double ex_journal)))) [0; 1; 2; 3; 4] = [Ok (Some x01); Ok (Some x11); Ok (Some x12); Ok (Some x21); Ok None] /\
  map (byte_at (Ok (new_no_layer (Double ex_journal)))) [0; 1; 2; 3; 4] = [Ok (Some x01); Ok (Some x11); Ok (Some x12); Ok (Some x21); Ok None] /\
  map (byte_at (Ok (Some (io_dup (Double ex_journal))))) [0; 1; 2; 3; 4] = [Ok (Some x01); Ok (Some x11); Ok (Some x12); Ok (Some x21); Ok None] /\
  map (byte_at (new_double_layer (Plain ex_journal))) [0; 1; 2; 3; 4] = [Ok (Some x01); Ok (Some x11); Ok (Some x12); Ok (Some x21); Ok None] /\
  map (byte_at (list_io KDoubleLayer (Single ex_journal))) [0; 3; 4] = [Ok (Some x00); Ok (Some x00); Ok None].
Proof.
  split; [|repeat split; vm_compute; reflexivity]. split.
  - split; [reflexivity|]. repeat (constructor; [vm_compute; discriminate|]). constructor.
  - intros d l E. injection E as <- <-. intros l1 s l2 E.
    assert (IN : d_off s = 3).
    { destruct l1 as [|x l1]; injection E as E; [subst; reflexivity|]. destruct l1; discriminate. }
    rewrite IN. split; [cbn; lia|]. intros i Hi. eexists. split; [left; reflexivity|].
    change ((1 <=? i) && (i <? 1 + 2) = true). cbn [d_off] in Hi. lia.
Qed.

(** A [DirectReader] loses its stream when it is made a [NoLayer] and when it is
    duplicated. *)
Theorem C118_stream_refuted : exists v,
  map (byte_at (Ok (Some v))) [1; 2] = [Ok (Some x02); Ok (Some x11)] /\
  map (byte_at (Ok (new_no_layer v))) [1; 2] = [Ok (Some x02); Ok None] /\
  map (byte_at (Ok (Some (io_dup v)))) [1; 2] = [Ok (Some x02); Ok None].
Proof. exact (ex_intro _ _ stream_lost). Qed.
Print Assumptions C118_stream_refuted.

(** A [NoLayer] made a [DoubleLayer] has no buffer left. *)
Theorem C118_no_buffer_refuted : exists v,
  map (byte_at (Ok (Some v))) [0; 1] = [Ok (Some x01); Ok (Some x02)] /\
  map (byte_at (new_double_layer v)) [0; 1] = [Panic; Panic].
Proof. exact (ex_intro _ _ no_double). Qed.
Print Assumptions C118_no_buffer_refuted.

(** Neither has a new list beside one in a [DoubleLayer] when the default is
    [NoLayer]. *)
Theorem C118_list_refuted : exists v, sound v /\ list_io KNoLayer v = Ok None /\ byte_at (list_io KNoLayer v) 0 = Panic.
Proof. exact (ex_intro _ _ list_without). Qed.
Print Assumptions C118_list_refuted.

(** A gap is shown as zeros once the buffer is a [DoubleLayer]. *)
Theorem C118_gap_refuted : exists b, in_memory b /\
  map (byte_at (Ok (Some (Plain b)))) [1; 2; 4] = [Ok (Some x02); Ok None; Ok (Some x05)] /\
  map (byte_at (new_double_layer (Plain b))) [1; 2; 4] = [Ok (Some x02); Ok (Some x00); Ok (Some x05)].
Proof. exact (ex_intro _ _ gap_zeros). Qed.
Print Assumptions C118_gap_refuted.
