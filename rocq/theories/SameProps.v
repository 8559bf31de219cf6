(** Property theorems about the comparison of nodes of buffers whose journals
    have entries (C115). *)
From Coq Require Import ZArith List Bool String.
From Coq Require Import Strings.Byte.
From Verif Require Import GoLib BaseModel BaseSpec TableModel TableSpec NameModel NameSpec StreamModel
  WalkModel WalkSpec WalkProofs6 WalkProofs9 EqualModel EqualSpec EqualProofs3 InsModel InsSpec InsProofs3 BuildModel PutModel PutSpec PutProofs6
  JourSpec JourProofs9 JourProofs10 DocModel DocSpec SameSpec SameProofs.
From Verif Require BuildSpec BuildProofs9 InsProps.
From Verif Require Import EqualProps.
Import ListNotations.
Open Scope string_scope.
Open Scope list_scope.
Open Scope Z_scope.

(** As C86, for buffers with any journals that cut none of the numbers
    compared. *)
Theorem C115_equal_partial : forall n b1 b2 s m1 m2 name p1 p2 v1 v2 z1 z2 f,
  in_memory b1 -> in_memory b2 -> shows b1 m1 -> shows b2 m2 -> describes n s -> members_described n s ->
  stored_table m1 s name p1 v1 -> stored_table m2 s name p2 v2 -> intact b1 m1 v1 -> intact b2 m2 v2 ->
  uncut b1 v1 -> uncut b2 v2 -> full v1 -> full v2 -> (depth v1 <= f)%nat ->
  exists r, node_equal n b1 b2 f (Some (new_node n (Some (p1, z1)) no_vinfo name))
                                 (Some (new_node n (Some (p2, z2)) no_vinfo name)) = Ok r /\
    (r = true <-> within m1 m2 v1 v2).
Proof. exact same_j. Qed.
Print Assumptions C115_equal_partial.

(** Asked both ways, it decides whether the data is the same. *)
Theorem C115_both_partial : forall n b1 b2 s m1 m2 name p1 p2 v1 v2 z1 z2 f,
  in_memory b1 -> in_memory b2 -> shows b1 m1 -> shows b2 m2 -> describes n s -> members_described n s ->
  let c1 := Some (new_node n (Some (p1, z1)) no_vinfo name) in
  let c2 := Some (new_node n (Some (p2, z2)) no_vinfo name) in
  stored_table m1 s name p1 v1 -> stored_table m2 s name p2 v2 -> intact b1 m1 v1 -> intact b2 m2 v2 ->
  uncut b1 v1 -> uncut b2 v2 -> full v1 -> full v2 -> (depth v1 <= f)%nat -> (depth v2 <= f)%nat ->
  (node_equal n b1 b2 f c1 c2 = Ok true /\ node_equal n b2 b1 f c2 c1 = Ok true <-> same_value m1 m2 v1 v2).
Proof. exact both_j. Qed.
Print Assumptions C115_both_partial.

(** After any sequence of calls every table of the document is compared with any
    other as what the calls made of it, as long as no call put anything over a
    part of a number only. *)
Theorem C115_after_partial : forall n s, describes n s -> members_described n s ->
  forall m v cs ts m' v', changes n s m v cs ts m' v' -> forall b name p, in_memory b -> shows b m ->
  stored_table m s name p v -> intact b m v ->
  exists b' k, (forall fuel, (k <= fuel)%nat -> run_calls n fuel b cs = Ok b') /\
    forall b2 m2 tn tp fs q w z1 z2 f, in_memory b2 -> shows b2 m2 -> In (Tab tn tp fs) (tables v') ->
      stored_table m2 s tn q w -> intact b2 m2 w -> uncut_after b ts (Tab tn tp fs) -> uncut b2 w ->
      full (Tab tn tp fs) -> full w -> (depth (Tab tn tp fs) <= f)%nat -> (depth w <= f)%nat ->
      let c1 := Some (new_node n (Some (tp, z1)) no_vinfo tn) in
      let c2 := Some (new_node n (Some (q, z2)) no_vinfo tn) in
      (exists r, node_equal n b' b2 f c1 c2 = Ok r /\ (r = true <-> within m' m2 (Tab tn tp fs) w)) /\
      (exists r, node_equal n b2 b' f c2 c1 = Ok r /\ (r = true <-> within m2 m' w (Tab tn tp fs))) /\
      (node_equal n b' b2 f c1 c2 = Ok true /\ node_equal n b2 b' f c2 c1 = Ok true <-> same_value m' m2 (Tab tn tp fs) w).
Proof. exact same_after. Qed.
Print Assumptions C115_after_partial.

(** ** The sample of C86 with its numbers set *)

Definition pkg : names := InsProps.root_is reg "Shape".

Lemma pkg_described : describes pkg (lookup sch).
Proof. apply InsProps.root_describes. exact sample_described. Qed.

Lemma pkg_members : members_described pkg (lookup sch).
Proof. apply members_described_sound. vm_compute. reflexivity. Qed.

Definition num (typ : string) (t : scalar) (v : Z) : base * cnode :=
  match scalar_node pkg typ t v with Ok x => x | _ => (mem [], mkC None no_vinfo "" [] []) end.

Lemma num_gives : forall nm i l typ t v, lookup (n_idxname pkg) nm = Some l -> lookupz l i = Some typ -> in_range t v ->
  BuildSpec.gives pkg (lookup sch) nm i (TyScalar t) (fst (num typ t v)) (snd (num typ t v)) (BuildSpec.Bytes (scalar_bytes t v)).
Proof.
  intros nm i l typ t v HL HI HR.
  destruct (BuildProofs9.scalar_gives pkg (lookup sch) nm i l typ t v HL HI HR) as (fb & f & E & G).
  unfold num. rewrite E. exact G.
Qed.

Definition version_edit (v : Z) : edit :=
  let x := num "Int32" SInt32 v in
  mkEdit "Shape" 24 0 (TyScalar SInt32) (Scalar 28 4) (fst x) (snd x) (scalar_bytes SInt32 v).
Definition to_version (v : Z) : call := let x := num "Int32" SInt32 v in Set_field "Shape" 24 0 (fst x) (snd x).

Definition shape : val := Eval vm_compute in val_of shape_bytes "Shape" 24.
Definition moved : val := Eval vm_compute in val_of moved_bytes "Shape" 28.

Definition mark_edit (v : Z) : edit :=
  let x := num "Int16" SInt16 v in
  mkEdit "Mark" 68 0 (TyScalar SInt16) (Scalar 72 2) (fst x) (snd x) (scalar_bytes SInt16 v).
Definition to_mark (v : Z) : call := let x := num "Int16" SInt16 v in Set_field "Mark" 68 0 (fst x) (snd x).

(** The version set, and then set to the old one again after the number of the
    mark was set *)
Definition once : list call := [to_version 8].
Definition again : list call := [to_version 8; to_mark 5; to_version 7].
Definition version_trace (v : Z) : trace := mkTrace [(28, 4)] [(28, scalar_bytes SInt32 v)].
Definition again_trace : list trace := [version_trace 8; mkTrace [(72, 2)] [(72, scalar_bytes SInt16 5)]; version_trace 7].
Definition once_base : base := Eval vm_compute in match run_calls pkg 20 (mem shape_bytes) once with Ok b => b | _ => mem [] end.
Definition again_base : base := Eval vm_compute in match run_calls pkg 20 (mem shape_bytes) again with Ok b => b | _ => mem [] end.

Ltac edited := constructor;
  [eexists; eexists; split; [apply only_sound; [vm_compute; tauto|vm_compute; reflexivity]|];
     split; [reflexivity|]; split; [reflexivity|]; split; [intros us; vm_compute; discriminate|reflexivity]
  |reflexivity
  |eapply num_gives; [vm_compute; reflexivity|vm_compute; reflexivity|vm_compute; intuition discriminate]
  |discriminate
  |apply apart_from_sound; vm_compute; reflexivity
  |apply links_from_sound; vm_compute; reflexivity].

Example C115_after_case :
  describes pkg (lookup sch) /\ members_described pkg (lookup sch) /\
  (exists m', changes pkg (lookup sch) (img_bytes shape_bytes) shape again again_trace m' shape) /\
  stored_table (img_bytes shape_bytes) (lookup sch) "Shape" 24 shape /\ intact (mem shape_bytes) (img_bytes shape_bytes) shape /\
  stored_table (img_bytes moved_bytes) (lookup sch) "Shape" 28 moved /\ intact (mem moved_bytes) (img_bytes moved_bytes) moved /\
  uncut_after (mem shape_bytes) again_trace shape /\ uncut (mem moved_bytes) moved /\ full shape /\ full moved /\
  run_calls pkg 20 (mem shape_bytes) once = Ok once_base /\ run_calls pkg 20 (mem shape_bytes) again = Ok again_base /\
  zlen (b_diffs again_base) = 6 /\
  node_equal pkg once_base (mem moved_bytes) 9 (at_pos "Shape" 24) (at_pos "Shape" 28) = Ok false /\
  node_equal pkg again_base (mem moved_bytes) 9 (at_pos "Shape" 24) (at_pos "Shape" 28) = Ok true /\
  node_equal pkg (mem moved_bytes) again_base 9 (at_pos "Shape" 28) (at_pos "Shape" 24) = Ok true /\
  node_equal pkg again_base once_base 9 (at_pos "Shape" 24) (at_pos "Shape" 24) = Ok false.
Proof.
  split; [exact pkg_described|]. split; [exact pkg_members|]. split.
  { eexists. unfold again. eapply Chs_cons; [apply (Ch_field _ _ _ _ (version_edit 8)); edited|].
    eapply Chs_cons; [apply (Ch_field _ _ _ _ (mark_edit 5)); edited|].
    eapply Chs_cons; [apply (Ch_field _ _ _ _ (version_edit 7)); edited|]. apply Chs_nil. }
  split; [apply (decode_sound shape_bytes (lookup sch) 9); vm_compute; reflexivity|]. split; [apply intact_sound; vm_compute; reflexivity|].
  split; [apply (decode_sound moved_bytes (lookup sch) 9); vm_compute; reflexivity|]. split; [apply intact_sound; vm_compute; reflexivity|].
  split; [apply uncut_after_sound; vm_compute; reflexivity|]. split; [apply uncut_sound; vm_compute; reflexivity|].
  split; [apply (full_sound 9); [apply Nat.leb_le; vm_compute; reflexivity|vm_compute; reflexivity]|].
  split; [apply (full_sound 9); [apply Nat.leb_le; vm_compute; reflexivity|vm_compute; reflexivity]|].
  split; [vm_compute; reflexivity|]. split; [vm_compute; reflexivity|]. split; [vm_compute; reflexivity|].
  split; [vm_compute; reflexivity|]. split; [vm_compute; reflexivity|]. split; vm_compute; reflexivity.
Qed.

(** ** Numbers cut by an entry *)

(** The second byte of the version in the journal, with the value it has anyway *)
Definition cut : base := mkBase (gs_of shape_bytes) [] [mkDiff 29 (gs_of [x00])] false 0.

(** A table with a number cut by an entry is not equal to itself, nor to the same
    data without the entry. *)
Theorem C115_cut_refuted : exists b v, in_memory b /\ shows b (img_bytes shape_bytes) /\
  stored_table (img_bytes shape_bytes) (lookup sch) "Shape" 24 v /\ intact b (img_bytes shape_bytes) v /\ full v /\
  forall f, (9 <= f)%nat ->
    node_equal pkg b b f (at_pos "Shape" 24) (at_pos "Shape" 24) = Ok false /\
    node_equal pkg b (mem shape_bytes) f (at_pos "Shape" 24) (at_pos "Shape" 24) = Ok false /\
    node_equal pkg (mem shape_bytes) b f (at_pos "Shape" 24) (at_pos "Shape" 24) = Ok false.
Proof.
  assert (HB : in_memory cut) by (apply in_memory_sound; vm_compute; reflexivity).
  exists cut, shape. split; [exact HB|].
  split; [apply shows_sound; [exact HB|vm_compute; reflexivity|vm_compute; reflexivity]|].
  split; [apply (decode_sound shape_bytes (lookup sch) 9); vm_compute; reflexivity|].
  split; [apply intact_sound; vm_compute; reflexivity|].
  split; [apply (full_sound 9); [apply Nat.leb_le; vm_compute; reflexivity|vm_compute; reflexivity]|].
  intros f Hf; split; [|split]; (eapply equal_final; [exact Hf|vm_compute; reflexivity|discriminate]).
Qed.
Print Assumptions C115_cut_refuted.
