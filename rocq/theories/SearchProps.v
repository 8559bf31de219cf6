(** Property theorems about the search (C100 and C101). *)
From Coq Require Import ZArith List Bool String.
From Coq Require Import Strings.Byte.
From Verif Require Import GoLib BaseModel BaseSpec TableModel TableSpec NameModel NameSpec StreamModel
  WalkModel WalkSpec WalkProofs6 WalkProofs9 WalkProps SearchModel SearchSpec SearchProofs.
Import ListNotations.
Open Scope string_scope.
Open Scope list_scope.
Open Scope Z_scope.

(** ** C100: what is found *)

(** The full property is this one without [searchable] and [no_vectors]. *)
Theorem C100_search_partial : forall n b s cond name p v sz, flat b -> describes n s ->
  plain_names n -> sized cond ->
  stored_table (img_bytes (sl_data (b_bytes b))) s name p v -> measured v -> searchable v -> no_vectors v ->
  exists k, forall f, (k <= f)%nat ->
    search n b cond f (new_node n (Some (p, sz)) no_vinfo name) = Ok (finds true cond v).
Proof. exact search_bare. Qed.
Print Assumptions C100_search_partial.

(** The document of C73 without its files *)
Definition bare_bytes : list byte := firstn 16 doc_bytes ++ [z2b 0] ++ skipn 17 doc_bytes.

Definition bare_val : val :=
  Eval vm_compute in match root_val bare_bytes "Doc" with Some v => v | None => Absent str end.

Lemma sample_plain : plain_names reg.
Proof. apply plain_sound. vm_compute. reflexivity. Qed.

(** The position is in the name of the file that is the body. *)
Example C100_case : flat (mem bare_bytes) /\ describes reg (lookup sch) /\ plain_names reg /\
  sized (at_position 96) /\ stored_table (img_bytes bare_bytes) (lookup sch) "Doc" 24 bare_val /\
  measured bare_val /\ searchable bare_val /\ no_vectors bare_val /\
  search reg (mem bare_bytes) (at_position 96) 20 (new_node reg (Some (24, -1)) no_vinfo "Doc") =
  Ok [("Doc", -1, mkV 24 104 0); ("File", -1, mkV 76 21 0); ("File", 1, mkV 96 1 1)].
Proof.
  split; [split; reflexivity|]. split; [exact sample_described|]. split; [exact sample_plain|].
  split; [apply at_position_sized|].
  split; [apply (decode_sound bare_bytes (lookup sch) 9); vm_compute; reflexivity|].
  split; [apply measured_sound; vm_compute; reflexivity|]. split; [apply searchable_sound; vm_compute; reflexivity|].
  split; [apply no_vectors_sound; vm_compute; reflexivity|vm_compute; reflexivity].
Qed.

(** Nothing in a vector of tables is ever found. *)
Theorem C100_outside : forall n b s cond name p v sz, flat b -> describes n s ->
  plain_names n -> sized cond ->
  stored_table (img_bytes (sl_data (b_bytes b))) s name p v -> measured v -> searchable v ->
  exists k, forall f, (k <= f)%nat ->
    search n b cond f (new_node n (Some (p, sz)) no_vinfo name) = Ok (finds false cond v).
Proof. exact search_outside. Qed.
Print Assumptions C100_outside.

(** The files of the document are not found, although it is. *)
Theorem C100_vectors_refuted : exists pos p v rs, flat (mem doc_bytes) /\
  stored_table (img_bytes doc_bytes) (lookup sch) "Doc" p v /\ measured v /\ searchable v /\
  (forall f, (20 <= f)%nat ->
     search reg (mem doc_bytes) (at_position pos) f (new_node reg (Some (p, -1)) no_vinfo "Doc") = Ok rs) /\
  List.length rs = 1%nat /\ List.length (finds true (at_position pos) v) = 3%nat.
Proof.
  exists 160, 24. do 2 eexists. split; [split; reflexivity|].
  split; [apply (decode_sound doc_bytes (lookup sch) 9); vm_compute; reflexivity|].
  split; [apply measured_sound; vm_compute; reflexivity|]. split; [apply searchable_sound; vm_compute; reflexivity|].
  split; [intros f Hf; apply (search_final _ _ _ 20 f); [exact Hf|vm_compute; reflexivity|discriminate]|].
  split; vm_compute; reflexivity.
Qed.
Print Assumptions C100_vectors_refuted.

(** In a struct with two numbers of four bytes at 16 and 20, the one at 16 is
    taken for the second, and the one at 20 is not found. *)
Theorem C100_struct_refuted : exists t x y, stored_table (img_bytes spot_bytes) (lookup sch) "Spot" 12
    (Tab "Spot" 12 [Struct 16 [SInt32; SInt32]]) /\
  (forall f, (20 <= f)%nat ->
     search reg (mem spot_bytes) (at_position 16) f (new_node reg (Some (12, -1)) no_vinfo "Spot") =
     Ok [t; x; y] /\
     search reg (mem spot_bytes) (at_position 20) f (new_node reg (Some (12, -1)) no_vinfo "Spot") =
     Ok [t; x]) /\ fst x = ("Vec", -1) /\ fst y = ("Vec", 1).
Proof.
  do 3 eexists. split; [apply (decode_sound spot_bytes (lookup sch) 9); vm_compute; reflexivity|].
  split; [intros f Hf; split; apply (search_final _ _ _ 20 f); [exact Hf|vm_compute; reflexivity|discriminate|exact Hf|vm_compute; reflexivity|discriminate]|].
  split; reflexivity.
Qed.
Print Assumptions C100_struct_refuted.

(** An absent number is found at the start of the table. *)
Theorem C100_phantom_refuted : exists p v rs, stored_table (img_bytes num_bytes) (lookup sch) "Num" p v /\
  (forall pos x, In x (finds true (at_position pos) v) -> snd (fst x) = -1) /\
  (forall f, (20 <= f)%nat ->
     search reg (mem num_bytes) (at_position 12) f (new_node reg (Some (p, -1)) no_vinfo "Num") = Ok rs) /\
  exists x, In x rs /\ fst x = ("Num", 0).
Proof.
  exists 12. do 2 eexists. split; [apply (decode_sound num_bytes (lookup sch) 9); vm_compute; reflexivity|].
  split; [intros pos x; cbn [finds]; destruct (at_position _ _); [intros [<-|[]]; reflexivity|intros []]|].
  split; [intros f Hf; apply (search_final _ _ _ 20 f); [exact Hf|vm_compute; reflexivity|discriminate]|].
  eexists. split; [right; left; reflexivity|reflexivity].
Qed.
Print Assumptions C100_phantom_refuted.

(** A table without its string cannot be searched, *)
Theorem C100_string_refuted : exists p v, stored_table (img_bytes file_bytes) (lookup sch) "File" p v /\
  forall cond f, (20 <= f)%nat ->
    search reg (mem file_bytes) cond f (new_node reg (Some (p, -1)) no_vinfo "File") = Panic.
Proof.
  exists 12. eexists. split; [apply (decode_sound file_bytes (lookup sch) 9); vm_compute; reflexivity|].
  intros cond f Hf. apply (search_final _ _ _ 20 f); [exact Hf|vm_compute; reflexivity|discriminate].
Qed.
Print Assumptions C100_string_refuted.

(** nor one whose union has a member that was added to the schema later. *)
Theorem C100_union_refuted : exists c, root_node reg (mem hold_bytes) "Hold" = Ok c /\
  forall cond f, (20 <= f)%nat -> search reg (mem hold_bytes) cond f c = Panic.
Proof.
  eexists. split; [vm_compute; reflexivity|].
  intros cond f Hf. apply (search_final _ _ _ 20 f); [exact Hf|vm_compute; reflexivity|discriminate].
Qed.
Print Assumptions C100_union_refuted.

(** A condition that accepts an [Info] without a size leads into absent
    tables, and there to a panic. *)
Theorem C100_unsized_refuted : exists p v,
  stored_table (img_bytes bare_bytes) (lookup sch) "Doc" p v /\ measured v /\ searchable v /\ no_vectors v /\
  forall f, (20 <= f)%nat ->
    search reg (mem bare_bytes) all f (new_node reg (Some (p, -1)) no_vinfo "Doc") = Panic.
Proof.
  exists 24. eexists. split; [apply (decode_sound bare_bytes (lookup sch) 9); vm_compute; reflexivity|].
  split; [apply measured_sound; vm_compute; reflexivity|]. split; [apply searchable_sound; vm_compute; reflexivity|].
  split; [apply no_vectors_sound; vm_compute; reflexivity|].
  intros f Hf. apply (search_final _ _ _ 20 f); [exact Hf|vm_compute; reflexivity|discriminate].
Qed.
Print Assumptions C100_unsized_refuted.

(** With such a condition a vector of tables is entered, but it is reported at
    the place of its table. *)
Theorem C100_place_refuted : exists x rs, stored_table (img_bytes dir_bytes) (lookup sch) "Dir" 12
    (Tab "Dir" 12 [Tabs "File" 24 [Tab "File" 40 [Scalar 48 8; Scalars 92 20 1];
                                   Tab "File" 64 [Scalar 72 8; Scalars 84 2 1]]]) /\
  (forall f, (20 <= f)%nat ->
     search reg (mem dir_bytes) all f (new_node reg (Some (12, -1)) no_vinfo "Dir") = Ok rs) /\
  List.length rs = 8%nat /\ In x rs /\ fst x = ("[]File", -1) /\ v_pos (snd x) = 12.
Proof.
  do 2 eexists. split; [apply (decode_sound dir_bytes (lookup sch) 9); vm_compute; reflexivity|].
  split; [intros f Hf; apply (search_final _ _ _ 20 f); [exact Hf|vm_compute; reflexivity|discriminate]|].
  split; [reflexivity|]. split; [right; left; reflexivity|]. split; reflexivity.
Qed.
Print Assumptions C100_place_refuted.

(** ** C101: searching a position *)

(** Giving up at a table that does not contain the position loses nothing. *)
Theorem C101_position_partial : forall n b s pos name p v sz, flat b -> describes n s -> plain_names n ->
  stored_table (img_bytes (sl_data (b_bytes b))) s name p v -> measured v -> searchable v -> no_vectors v ->
  exists k, forall f, (k <= f)%nat ->
    search n b (at_position pos) f (new_node n (Some (p, sz)) no_vinfo name) =
    Ok (filter (fun x => at_position pos (snd x)) (finds true all v)).
Proof. exact search_position. Qed.
Print Assumptions C101_position_partial.

(** Nine tables, numbers and strings are there; the body is the fifth. *)
Example C101_case : stored_table (img_bytes bare_bytes) (lookup sch) "Doc" 24 bare_val /\
  measured bare_val /\ searchable bare_val /\ no_vectors bare_val /\
  List.length (finds true all bare_val) = 9%nat /\
  map fst (filter (fun x => at_position 84 (snd x)) (finds true all bare_val)) =
  [("Doc", -1); ("File", -1); ("File", 0)].
Proof.
  split; [apply (decode_sound bare_bytes (lookup sch) 9); vm_compute; reflexivity|].
  split; [apply measured_sound; vm_compute; reflexivity|]. split; [apply searchable_sound; vm_compute; reflexivity|].
  split; [apply no_vectors_sound; vm_compute; reflexivity|]. split; vm_compute; reflexivity.
Qed.

(** A scalar or string is found by each of its bytes. *)
Theorem C101_found_partial : forall n b s pos name p v sz x, flat b -> describes n s -> plain_names n ->
  stored_table (img_bytes (sl_data (b_bytes b))) s name p v -> measured v -> searchable v -> no_vectors v ->
  In x (finds true all v) -> v_pos (snd x) <= pos < v_pos (snd x) + v_size (snd x) ->
  exists k rs, (forall f, (k <= f)%nat ->
    search n b (at_position pos) f (new_node n (Some (p, sz)) no_vinfo name) = Ok rs) /\ In x rs.
Proof. exact search_found. Qed.
Print Assumptions C101_found_partial.

Example C101_found_case : In ("File", 1, mkV 96 1 1) (finds true all bare_val) /\
  In ("Doc", 1, mkV 60 5 5) (finds true all bare_val).
Proof. split; vm_compute; tauto. Qed.
