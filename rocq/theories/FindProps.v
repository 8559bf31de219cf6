(** Property theorems about the search through a journal (C114). *)
From Coq Require Import ZArith List Bool String.
From Coq Require Import Strings.Byte.
From Verif Require Import GoLib BaseModel BaseSpec TableModel TableSpec NameModel NameSpec StreamModel
  WalkModel WalkSpec WalkProofs6 WalkProofs9 WalkProps InsModel InsSpec BuildModel PutModel PutSpec JourSpec JourProofs10
  ElemModel ElemSpec SortModel DocModel DocSpec SearchModel SearchSpec SearchProofs.
From Verif Require FindProofs.
From Verif Require Import InsProps PutProps JourProps ElemProps SortProps DocModel DocProps FillProps.
Import ListNotations.
Open Scope string_scope.
Open Scope list_scope.
Open Scope Z_scope.

(** ** C114: searching a buffer with a journal *)

(** Missing, as in C100: structs, absent numbers and strings, and what is in
    vectors of tables, which is not found. *)
Theorem C114_search_partial : forall n b s m cond name p v sz, in_memory b -> shows b m -> describes n s ->
  plain_names n -> sized cond ->
  stored_table m s name p v -> intact b m v -> measured v -> searchable v ->
  exists k, forall f, (k <= f)%nat ->
    search n b cond f (new_node n (Some (p, sz)) no_vinfo name) = Ok (finds false cond v).
Proof. exact FindProofs.jour_search. Qed.
Print Assumptions C114_search_partial.

(** Giving up at a table that does not contain the position loses nothing else. *)
Theorem C114_position_partial : forall n b s m pos name p v sz, in_memory b -> shows b m -> describes n s -> plain_names n ->
  stored_table m s name p v -> intact b m v -> measured v -> searchable v ->
  exists k, forall f, (k <= f)%nat ->
    search n b (at_position pos) f (new_node n (Some (p, sz)) no_vinfo name) =
    Ok (filter (fun x => at_position pos (snd x)) (finds false all v)).
Proof. exact FindProofs.jour_position. Qed.
Print Assumptions C114_position_partial.

(** The sample with a file put into it: its number and name are found where they
    are now, through the journal. *)
Lemma pkg_plain : plain_names (pkg "Doc").
Proof. apply plain_sound. vm_compute. reflexivity. Qed.

Definition moved : val := Tab "File" 148 [Scalar 152 8; Scalars 168 1 1].

Example C114_case : let m := img_bytes done_bytes in in_memory done_base /\ shows done_base m /\ describes (pkg "Doc") (lookup sch) /\
  plain_names (pkg "Doc") /\ stored_table m (lookup sch) "File" 148 moved /\ intact done_base m moved /\ measured moved /\ searchable moved /\
  search (pkg "Doc") done_base (at_position 155) 20 (new_node (pkg "Doc") (Some (148, -1)) no_vinfo "File") =
    Ok [("File", -1, mkV 148 21 0); ("File", 0, mkV 152 8 0)] /\
  search (pkg "Doc") done_base (at_position 168) 20 (new_node (pkg "Doc") (Some (148, -1)) no_vinfo "File") =
    Ok [("File", -1, mkV 148 21 0); ("File", 1, mkV 168 1 1)].
Proof.
  intros m. assert (HB : in_memory done_base) by (apply in_memory_sound; vm_compute; reflexivity). split; [exact HB|].
  split; [apply shows_sound; [exact HB|vm_compute; reflexivity|vm_compute; reflexivity]|]. split; [apply pkg_described|]. split; [exact pkg_plain|].
  split; [apply (decode_sound done_bytes (lookup sch) 9); vm_compute; reflexivity|].
  split; [apply intact_sound; vm_compute; reflexivity|]. split; [apply measured_sound; vm_compute; reflexivity|].
  split; [apply searchable_sound; vm_compute; reflexivity|]. split; vm_compute; reflexivity.
Qed.

(** After any sequence of calls *)
Theorem C114_after_partial : forall n s, describes n s -> plain_names n ->
  forall m v cs ts m' v', changes n s m v cs ts m' v' -> forall b name p, in_memory b -> shows b m ->
  stored_table m s name p v -> intact b m v ->
  exists b' k, (forall fuel, (k <= fuel)%nat -> run_calls n fuel b cs = Ok b') /\
    forall cond tn tp fs sz, sized cond -> In (Tab tn tp fs) (tables v') -> measured (Tab tn tp fs) -> searchable (Tab tn tp fs) ->
    exists k', forall f, (k' <= f)%nat ->
      search n b' cond f (new_node n (Some (tp, sz)) no_vinfo tn) = Ok (finds false cond (Tab tn tp fs)).
Proof. exact FindProofs.search_after. Qed.
Print Assumptions C114_after_partial.

(** Nothing is lost when a number is set: the document is found as before. *)
Definition search_at (b : base) (pos : Z) (f : nat) : res (list SearchModel.call) :=
  search (pkg "Doc") b (at_position pos) f (new_node (pkg "Doc") (Some (24, -1)) no_vinfo "Doc").

Example C114_after_case : let v := val_of doc_bytes "Doc" in
  (exists m', changes (pkg "Doc") (lookup sch) (img_bytes doc_bytes) v one one_trace m' v) /\
  measured v /\ searchable v /\ In v (tables v) /\
  search_at one_base 190 20 = Ok (finds false (at_position 190) v) /\ finds false (at_position 190) v = [("Doc", -1, mkV 24 178 0)].
Proof.
  intros v. split.
  { eexists. unfold one. eapply Chs_cons; [|apply Chs_nil]. apply (Ch_field _ _ _ _ (file_edit 9)). apply file_editable; vm_compute; intuition discriminate. }
  split; [apply measured_sound; vm_compute; reflexivity|]. split; [apply searchable_sound; vm_compute; reflexivity|].
  split; [vm_compute; left; reflexivity|]. split; vm_compute; reflexivity.
Qed.

(** After exchanging its files the document itself is no longer found at places
    that belong to it. *)
Theorem C114_swapped_refuted : exists b pos d, run_calls (pkg "Doc") 20 (mem doc_bytes) [Swap_elems "Doc" 24 4 0 1] = Ok b /\
  decode (flat_bytes b) (lookup sch) 9 "Doc" 24 = Some d /\ at_position pos (mkV 24 (reach d - 24) 0) = true /\
  forall f, (20 <= f)%nat -> search_at (mem doc_bytes) pos f = Ok [("Doc", -1, mkV 24 (reach d - 24) 0)] /\ search_at b pos f = Ok [].
Proof.
  eexists. exists 190. eexists. split; [vm_compute; reflexivity|]. split; [vm_compute; reflexivity|]. split; [vm_compute; reflexivity|].
  intros f Hf. split; (apply (search_final _ _ _ 20 f); [exact Hf|vm_compute; reflexivity|discriminate]).
Qed.
Print Assumptions C114_swapped_refuted.
