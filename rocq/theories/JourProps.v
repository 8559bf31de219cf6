(** Property theorems about reading and setting fields in a buffer whose journal
    has entries (C106 - C107). *)
From Coq Require Import ZArith List Bool String.
From Coq Require Import Strings.Byte.
From Verif Require Import GoLib BaseModel BaseSpec TableModel TableSpec NameModel NameSpec StreamModel
  WalkModel WalkSpec WalkProofs6 WalkProofs9 EqualSpec InsModel InsSpec InsProofs3 BuildModel PutModel PutSpec PutProofs6
  JourModel JourSpec JourProofs9 JourProofs10.
From Verif Require BuildSpec.
From Verif Require Import WalkProps InsProps PutProps.
Import ListNotations.
Open Scope string_scope.
Open Scope list_scope.
Open Scope Z_scope.

(** ** C106: reading through the journal *)

Theorem C106_field : forall n b m s name p fs i v sz, describes n s -> in_memory b -> shows b m ->
  stored_table m s name p (Tab name p fs) -> intact b m (Tab name p fs) -> zget fs i = Some v ->
  exists f, field_at n b (new_node n (Some (p, sz)) no_vinfo name) i = Ok f /\ stands_for f v.
Proof. exact (fun n b m s name p fs i v sz HD HB HM => jour_field n b m s HD HB HM name p fs i v sz). Qed.
Print Assumptions C106_field.

Theorem C106_union : forall n b m s name p fs tys i us v sz, describes n s -> in_memory b -> shows b m ->
  stored_table m s name p (Tab name p fs) -> intact b m (Tab name p fs) ->
  s name = Some tys -> zget tys i = Some (TyUnion us) -> zget fs i = Some v ->
  let c := new_node n (Some (p, sz)) no_vinfo name in
  match v with
  | Tab tn q _ => In tn us /\ can_follow n b c i = Ok true /\
                  follow_union n b c i = Ok (Some (new_node n (Some (q, -1)) no_vinfo tn))
  | _ => can_follow n b c i = Ok false /\ follow_union n b c i = Ok None
  end.
Proof. exact (fun n b m s name p fs tys i us v sz HD HB HM => jour_union n b m s HD HB HM name p fs tys i us v sz). Qed.
Print Assumptions C106_union.

Theorem C106_elements : forall n b m s name p fs i v sz, describes n s -> in_memory b -> shows b m ->
  stored_table m s name p (Tab name p fs) -> intact b m (Tab name p fs) -> zget fs i = Some v ->
  exists f, field_at n b (new_node n (Some (p, sz)) no_vinfo name) i = Ok f /\
    match v with
    | Scalars q k w => forall j, (0 <= j < k -> exists e, vec_at n b f j = Ok (Some e) /\ c_node e = Some (q + j * w, -1)) /\
                                 (~ 0 <= j < k -> vec_at n b f j = Ok None)
    | Structs q k ms => forall j, (0 <= j < k -> exists e, vec_at n b f j = Ok (Some e) /\
                                     c_node e = Some (q + j * struct_size ms, -1)) /\
                                  (~ 0 <= j < k -> vec_at n b f j = Ok None)
    | Tabs tn q es => (forall j x, zget es j = Some x ->
                         vec_at n b f j = Ok (Some (new_node n (Some (val_pos x, -1)) no_vinfo tn))) /\
                      (forall j, ~ 0 <= j < zlen es -> vec_at n b f j = Ok None)
    | _ => True
    end.
Proof. exact (fun n b m s name p fs i v sz HD HB HM => jour_elements n b m s HD HB HM name p fs i v sz). Qed.
Print Assumptions C106_elements.

Theorem C106_info_partial : forall n b m s name p v sz, describes n s -> in_memory b -> shows b m ->
  stored_table m s name p v -> intact b m v -> measured v ->
  exists k, forall f, (k <= f)%nat ->
    node_info n b f (new_node n (Some (p, sz)) no_vinfo name) = Ok (mkV p (reach v - p) 0).
Proof. exact (fun n b m s name p v sz HD HB HM => jour_info n b m s HD HB HM name p v sz). Qed.
Print Assumptions C106_info_partial.

Theorem C106_len_partial : forall n b m s name p v, describes n s -> in_memory b -> shows b m ->
  stored_table m s name p v -> intact b m v -> measured v -> holds_uint m 0 4 p -> held b 0 4 ->
  exists c k r, root_node n b name = Ok c /\
    (forall f, (k <= f)%nat -> node_len n b f c = Ok r) /\
    r mod 8 = 0 /\ reach v <= r < reach v + 8.
Proof. exact (fun n b m s name p v HD HB HM => jour_len n b m s HD HB HM name p v). Qed.
Print Assumptions C106_len_partial.

Theorem C106_traverse_partial : forall n b m s name p v sz, describes n s -> in_memory b -> shows b m ->
  stored_table m s name p v -> intact b m v -> traversable v ->
  exists k, forall f, (k <= f)%nat -> exists xs,
    traverse n b f (new_node n (Some (p, sz)) no_vinfo name) = Ok xs /\
    map (fun x => (x_parent x, x_idx x, x_child x, x_size x)) xs = sightings v.
Proof. exact (fun n b m s name p v sz HD HB HM => jour_traverse n b m s HD HB HM name p v sz). Qed.
Print Assumptions C106_traverse_partial.

(** ** C107: several updates without flattening in between *)

Theorem C107_edits : forall n s es b m fuel name p v, describes n s -> in_memory b -> shows b m ->
  stored_table m s name p v -> intact b m v -> Forall (editable n s m v) es -> (1 <= fuel)%nat ->
  exists b', put_all n fuel b (map (fun e => (e_table e, e_pos e, e_idx e, e_base e, e_node e)) es) = Ok b' /\
    in_memory b' /\ shows b' (written m es) /\
    stored_table (written m es) s name p v /\ intact b' (written m es) v /\
    forall es1 e es2, es = es1 ++ e :: es2 -> Forall (fun e' => (e_pos e, e_idx e) <> (e_pos e', e_idx e')) es2 ->
      delivers b' (val_pos (e_old e)) (e_bytes e).
Proof. exact (fun n s es b m fuel name p v HD => jour_edits n s HD es b m fuel name p v). Qed.
Print Assumptions C107_edits.

(** The number of the second listed file of the sample set to 9, that of the
    document to 300, and that of the file again, to 10. *)
Definition file_edit (v : Z) : edit :=
  let x := num "Uint64" SUint64 v in
  mkEdit "File" 180 0 (TyScalar SUint64) (Scalar 188 8) (fst x) (snd x) (scalar_bytes SUint64 v).
Definition doc_edit (v : Z) : edit :=
  let x := num "Int32" SInt32 v in
  mkEdit "Doc" 24 0 (TyScalar SInt32) (Scalar 28 4) (fst x) (snd x) (scalar_bytes SInt32 v).
Definition three : list edit := [file_edit 9; doc_edit 300; file_edit 10].

Definition edited : res base :=
  put_all (pkg "Doc") 20 (mem doc_bytes) (map (fun e => (e_table e, e_pos e, e_idx e, e_base e, e_node e)) three).
Definition edited_base : base := Eval vm_compute in match edited with Ok b => b | _ => mem [] end.

Lemma file_editable : forall v, in_range SUint64 v -> editable (pkg "Doc") (lookup sch) (img_bytes doc_bytes) (val_of doc_bytes "Doc") (file_edit v).
Proof.
  intros v HV. constructor.
  - exists [Scalar 188 8; Scalars 200 2 1], [TyScalar SUint64; str]. split; [apply only_sound; [vm_compute; tauto|vm_compute; reflexivity]|].
    split; [reflexivity|]. split; [reflexivity|]. split; [intros us; vm_compute; discriminate|reflexivity].
  - reflexivity.
  - eapply num_gives; [vm_compute; reflexivity|vm_compute; reflexivity|exact HV].
  - discriminate.
  - apply apart_from_sound. vm_compute. reflexivity.
  - apply links_from_sound. vm_compute. reflexivity.
Qed.

Lemma doc_editable : forall v, in_range SInt32 v -> editable (pkg "Doc") (lookup sch) (img_bytes doc_bytes) (val_of doc_bytes "Doc") (doc_edit v).
Proof.
  intros v HV. constructor.
  - eexists. eexists. split; [apply only_sound; [vm_compute; left; reflexivity|vm_compute; reflexivity]|].
    split; [reflexivity|]. split; [reflexivity|]. split; [intros us; vm_compute; discriminate|reflexivity].
  - reflexivity.
  - eapply num_gives; [vm_compute; reflexivity|vm_compute; reflexivity|exact HV].
  - discriminate.
  - apply apart_from_sound. vm_compute. reflexivity.
  - apply links_from_sound. vm_compute. reflexivity.
Qed.

Lemma mem_shows : forall l, shows (mem l) (img_bytes l).
Proof. intros l. apply content_shows; [split; [reflexivity|constructor]|]. intros i Hi. reflexivity. Qed.

Example C107_three : describes (pkg "Doc") (lookup sch) /\ in_memory (mem doc_bytes) /\ shows (mem doc_bytes) (img_bytes doc_bytes) /\
  stored_table (img_bytes doc_bytes) (lookup sch) "Doc" 24 (val_of doc_bytes "Doc") /\
  intact (mem doc_bytes) (img_bytes doc_bytes) (val_of doc_bytes "Doc") /\
  Forall (editable (pkg "Doc") (lookup sch) (img_bytes doc_bytes) (val_of doc_bytes "Doc")) three /\
  edited = Ok edited_base /\ zlen (b_diffs edited_base) = 6 /\ rd 8 edited_base 188 = Ok 10 /\ rd 4 edited_base 28 = Ok 300 /\
  decode (flat_bytes edited_base) (lookup sch) 9 "Doc" 24 = Some (val_of doc_bytes "Doc").
Proof.
  split; [apply pkg_described|]. split; [split; [reflexivity|constructor]|]. split; [apply mem_shows|].
  split; [apply (decode_sound doc_bytes (lookup sch) 9); vm_compute; reflexivity|].
  split; [apply intact_sound; vm_compute; reflexivity|].
  split; [apply Forall_cons; [apply file_editable; vm_compute; intuition discriminate|]; apply Forall_cons; [apply doc_editable; vm_compute; intuition discriminate|];
          apply Forall_cons; [apply file_editable; vm_compute; intuition discriminate|]; apply Forall_nil|].
  repeat (split; [vm_compute; reflexivity|]). vm_compute. reflexivity.
Qed.

(** The journal left by these updates, read without flattening. *)
Example C106_edited : in_memory edited_base /\ b_diffs edited_base <> [] /\ shows edited_base (written (img_bytes doc_bytes) three) /\
  stored_table (written (img_bytes doc_bytes) three) (lookup sch) "Doc" 24 (val_of doc_bytes "Doc") /\
  intact edited_base (written (img_bytes doc_bytes) three) (val_of doc_bytes "Doc") /\
  measured (val_of doc_bytes "Doc") /\ traversable (val_of doc_bytes "Doc") /\ held edited_base 0 4 /\
  follow_union reg edited_base (at_pos "Doc" 24) 3 = Ok (Some (new_node reg (Some (76, -1)) no_vinfo "File")) /\
  exists xs, traverse reg edited_base 20 (at_pos "Doc" 24) = Ok xs /\
    map (fun x => (x_parent x, x_idx x, x_child x, x_size x)) xs = sightings (val_of doc_bytes "Doc").
Proof.
  destruct C107_three as (H1 & H2 & H3 & H4 & H5 & H6 & H7 & _).
  destruct (C107_edits (pkg "Doc") (lookup sch) three (mem doc_bytes) (img_bytes doc_bytes) 20 "Doc" 24 _ H1 H2 H3 H4 H5 H6) as (b' & E & P1 & P2 & P3 & P4 & _);
    [repeat constructor|].
  assert (b' = edited_base) by (unfold edited in H7; congruence). subst b'.
  split; [exact P1|]. split; [discriminate|]. split; [exact P2|]. split; [exact P3|]. split; [exact P4|].
  split; [apply measured_sound; vm_compute; reflexivity|]. split; [apply traversable_sound; vm_compute; reflexivity|].
  split; [apply held_sound; vm_compute; reflexivity|]. split; [vm_compute; reflexivity|].
  eexists. split; vm_compute; reflexivity.
Qed.

(** One byte of the offset to the vtable written again with the value it has:
    everything is still stored, but no field can be read. *)
Theorem C106_cut_refuted : exists l b p v fs i w, base_u (mem l) 25 1 [z2b 0] = Ok b /\ in_memory b /\ shows b (img_bytes l) /\
  stored_table (img_bytes l) (lookup sch) "Doc" p v /\ v = Tab "Doc" p fs /\ zget fs i = Some w /\
  field_at reg b (new_node reg (Some (p, -1)) no_vinfo "Doc") i = Panic.
Proof.
  exists doc_bytes.
  match goal with |- exists b, _ => 
    let r := eval vm_compute in (base_u (mem doc_bytes) 25 1 [z2b 0]) in match r with Ok ?b => exists b end end.
  exists 24, (val_of doc_bytes "Doc"). eexists. exists 0. eexists.
  split; [vm_compute; reflexivity|].
  match goal with |- in_memory ?b /\ _ => assert (M : in_memory b) by (apply in_memory_sound; vm_compute; reflexivity) end.
  split; [exact M|]. split.
  - apply shows_sound; [exact M|vm_compute; reflexivity|vm_compute; reflexivity].
  - split; [apply (decode_sound doc_bytes (lookup sch) 9); vm_compute; reflexivity|]. split; [vm_compute; reflexivity|].
    split; [reflexivity|]. vm_compute. reflexivity.
Qed.
Print Assumptions C106_cut_refuted.
