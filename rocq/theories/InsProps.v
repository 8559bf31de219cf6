(** Property theorems about inserting space into a buffer with a root (C94). *)
From Coq Require Import ZArith List Bool String.
From Coq Require Import Strings.Byte.
From Verif Require Import GoLib BaseModel BaseSpec TableModel TableSpec NameModel NameSpec StreamModel
  WalkModel WalkSpec WalkProofs6 WalkProofs9 EqualSpec InsModel InsSpec InsProofs3 InsProofs12.
From Verif Require Import WalkProps.
Import ListNotations.
Open Scope string_scope.
Open Scope list_scope.
Open Scope Z_scope.

(** The same package with another root type *)
Definition root_is (n : names) (nm : string) : names :=
  mkNames (n_structs n) (n_unions n) (n_types n) (n_groups n) (n_idxname n)
    (n_nameidx n) (n_pending n) nm.

Lemma root_describes : forall n nm s, describes n s -> describes (root_is n nm) s.
Proof. exact (fun n nm s H => H). Qed.
Definition pkg (nm : string) : names := root_is reg nm.
Lemma pkg_described : forall nm, describes (pkg nm) (lookup sch).
Proof. intros nm. apply root_describes. exact sample_described. Qed.

(** A [Doc] without the first note *)
Definition other_bytes : list byte := map z2b
  [24; 0; 0; 0; 20; 0; 32; 0; 4; 0; 8; 0; 12; 0; 16; 0; 20; 0; 24; 0; 0; 0; 28; 0; 20; 0; 0; 0;
   7; 0; 0; 0; 24; 0; 0; 0; 1; 0; 0; 0; 36; 0; 0; 0; 84; 0; 0; 0; 52; 0; 0; 0; 68; 0; 0; 0; 5;
   0; 0; 0; 104; 101; 108; 108; 111; 0; 0; 0; 8; 0; 16; 0; 8; 0; 4; 0; 8; 0; 0; 0; 12; 0; 0; 0;
   5; 0; 0; 0; 0; 0; 0; 0; 1; 0; 0; 0; 122; 0; 0; 0; 2; 0; 0; 0; 10; 0; 0; 0; 20; 0; 0; 0; 0; 0;
   6; 0; 8; 0; 4; 0; 6; 0; 0; 0; 99; 0; 0; 0; 2; 0; 0; 0; 16; 0; 0; 0; 44; 0; 0; 0; 8; 0; 16; 0;
   8; 0; 4; 0; 8; 0; 0; 0; 12; 0; 0; 0; 1; 0; 0; 0; 0; 0; 0; 0; 1; 0; 0; 0; 97; 0; 0; 0; 8; 0;
   16; 0; 8; 0; 4; 0; 8; 0; 0; 0; 12; 0; 0; 0; 2; 0; 0; 0; 0; 0; 0; 0; 2; 0; 0; 0; 98; 99; 0; 0;
   0; 0; 0; 0].

(** A [Dir] with two files that share a vtable *)
Definition shared_bytes : list byte := map z2b
  [12; 0; 0; 0; 0; 0; 6; 0; 8; 0; 4; 0; 6; 0; 0; 0; 4; 0; 0; 0; 2; 0; 0; 0; 16; 0; 0; 0; 36; 0; 0; 0;
   8; 0; 16; 0; 8; 0; 4; 0; 8; 0; 0; 0; 12; 0; 0; 0; 1; 0; 0; 0; 0; 0; 0; 0; 1; 0; 0; 0; 97; 0; 0; 0;
   32; 0; 0; 0; 12; 0; 0; 0; 2; 0; 0; 0; 0; 0; 0; 0; 2; 0; 0; 0; 98; 99; 0; 0].

(** A [Doc] with an empty name that ends where its only file begins *)
Definition touch_bytes : list byte := map z2b
  [24; 0; 0; 0; 20; 0; 32; 0; 4; 0; 8; 0; 12; 0; 16; 0; 20; 0; 24; 0; 28; 0; 0; 0; 20; 0; 0; 0;
   7; 0; 0; 0; 92; 0; 0; 0; 1; 0; 0; 0; 24; 0; 0; 0; 68; 0; 0; 0; 40; 0; 0; 0; 52; 0; 0; 0;
   8; 0; 16; 0; 8; 0; 4; 0; 8; 0; 0; 0; 12; 0; 0; 0; 5; 0; 0; 0; 0; 0; 0; 0; 1; 0; 0; 0; 122; 0; 0; 0;
   1; 0; 0; 0; 10; 0; 0; 0; 0; 0; 6; 0; 8; 0; 4; 0; 6; 0; 0; 0; 99; 0; 0; 0;
   1; 0; 0; 0; 12; 0; 0; 0; 0; 0; 0; 0; 0; 0; 0; 0;
   72; 0; 0; 0; 12; 0; 0; 0; 1; 0; 0; 0; 0; 0; 0; 0; 2; 0; 0; 0; 98; 99; 0; 0].

Definition at_pos (name : string) (p : Z) : cnode := new_node reg (Some (p, -1)) no_vinfo name.

Definition val_of (l : list byte) (nm : string) : val :=
  match root_val l nm with Some v => v | None => Absent str end.

(** The buffer [l] of root type [nm] holds [v], and the offset at [a], which the
    reader follows to [t], is a reference in it. *)
Definition sample (l : list byte) (nm : string) (v : val) (a t : Z) : Prop :=
  stored_table (img_bytes l) (lookup sch) nm (val_pos v) v /\ holds_uint (img_bytes l) 0 4 (val_pos v) /\
  insertable v /\ apart_links (img_bytes l) v /\
  In (a, t) (links (img_bytes l) v) /\ leads (mem l) a t.

Ltac stored l :=
  split; [apply (decode_sound l (lookup sch) 9); vm_compute; reflexivity|];
  split; [apply uint_sound; vm_compute; reflexivity|];
  split; [apply insertable_sound; vm_compute; reflexivity|].
Ltac sampled l := stored l;
  split; [apply apart_sound; vm_compute; reflexivity|];
  split; [vm_compute; tauto|vm_compute; reflexivity].
Ltac inserted :=
  match goal with |- exists b' c', ?x = _ /\ _ =>
    match eval vm_compute in x with Ok (?b, ?c) => exists b, c end end;
  split; [vm_compute; reflexivity|].

(** ** C94: the references that lead across the place *)

(** For buffers without a journal whose values have distinct starts, whose
    offsets share no byte with anything else, and where the code finds every
    reference across the place ([found]): the buffer afterwards stores the same
    value, with everything behind the place moved.  Missing: values with
    structs, a root at 65536 or behind, buffers with a journal, and what is
    refuted below. *)
Theorem C94_insert_partial : forall n b s name p v c cp z pos size create,
  let m := img_bytes (sl_data (b_bytes b)) in
  flat b -> describes n s -> n_root n = name -> stored_table m s name p v -> holds_uint m 0 4 p -> insertable v ->
  p < 65536 -> vtable_of m p <> 0 -> p < pos -> 0 <= size -> zlen (sl_data (b_bytes b)) + size < 4294967296 ->
  c_node c = Some (cp, z) -> 8 <= cp -> (exists l, is_list_name (c_name c) (v_len (c_info c)) = Ok l) ->
  between m pos v -> apart_links m v -> NoDup (starts v) -> found s (c_name c, cp) pos false v ->
  exists k, forall f, (k <= f)%nat -> exists b' c' m',
    node_insert_space n f b c pos size create = Ok (b', c') /\ shows b' m' /\
    holds_uint m' 0 4 p /\ stored_table m' s name p (moved pos size v) /\ same_value m m' v (moved pos size v) /\
    (create = true -> forall i, pos <= i < pos + size -> m' i = Some x00) /\ node_shifted pos size c c'.
Proof. exact insert_moves. Qed.
Print Assumptions C94_insert_partial.

(** Eight bytes between the numbers and the note of the sample: the offsets of
    the note and of the files are moved, that of the name is not, and the
    assumptions of the theorem hold. *)
Example C94_sample :
  let v := val_of doc_bytes "Doc" in let m := img_bytes doc_bytes in
  stored_table m (lookup sch) "Doc" 24 v /\ holds_uint m 0 4 24 /\ insertable v /\ vtable_of m 24 = 4 /\
  between m 112 v /\ apart_links m v /\ NoDup (starts v) /\ found (lookup sch) ("File", 180) 112 false v /\
  (leads (mem doc_bytes) 32 56 /\ leads (mem doc_bytes) 44 128 /\ leads (mem doc_bytes) 52 120 /\
   leads (mem doc_bytes) 132 148 /\ leads (mem doc_bytes) 136 180) /\
  exists b' c', node_insert_buf (pkg "Doc") 20 (mem doc_bytes) (at_pos "File" 180) 112 8 = Ok (b', c') /\
    (leads b' 32 56 /\ leads b' 44 136 /\ leads b' 52 128 /\ leads b' 140 156 /\ leads b' 144 188) /\
    c_node c' = Some (188, -1) /\
    moved 112 8 v = Tab "Doc" 24
      [Scalar 28 4; Scalars 60 5 1; Scalar 36 1; Tab "File" 76 [Scalar 84 8; Scalars 96 1 1];
       Tabs "File" 140 [Tab "File" 156 [Scalar 164 8; Scalars 176 1 1]; Tab "File" 188 [Scalar 196 8; Scalars 208 2 1]];
       Scalars 104 2 4; Tab "Note" 128 [Scalar 132 4]; Absent (TyTable "Note")].
Proof.
  intros v m.
  split; [apply (decode_sound doc_bytes (lookup sch) 9); vm_compute; reflexivity|].
  split; [apply uint_sound; vm_compute; reflexivity|]. split; [apply insertable_sound; vm_compute; reflexivity|].
  split; [vm_compute; reflexivity|]. split; [apply between_sound; vm_compute; reflexivity|].
  split; [apply apart_sound; vm_compute; reflexivity|]. split; [apply distinct_sound; vm_compute; reflexivity|].
  split; [apply found_sound; vm_compute; reflexivity|].
  split; [repeat split; vm_compute; reflexivity|].
  inserted. split; [repeat split; vm_compute; reflexivity|]. split; [reflexivity|vm_compute; reflexivity].
Qed.

(** The same when the first field, a number, is absent. *)
Definition plain_bytes : list byte := firstn 8 doc_bytes ++ [z2b 0] ++ skipn 9 doc_bytes.

Example C94_number_absent :
  let v := val_of plain_bytes "Doc" in let m := img_bytes plain_bytes in
  stored_table m (lookup sch) "Doc" 24 v /\ insertable v /\ ~ traversable v /\
  between m 112 v /\ apart_links m v /\ NoDup (starts v) /\ found (lookup sch) ("File", 180) 112 false v /\
  exists b' c', node_insert_buf (pkg "Doc") 20 (mem plain_bytes) (at_pos "File" 180) 112 8 = Ok (b', c') /\
    (leads b' 32 56 /\ leads b' 44 136 /\ leads b' 52 128 /\ leads b' 140 156 /\ leads b' 144 188) /\
    c_node c' = Some (188, -1).
Proof.
  intros v m.
  split; [apply (decode_sound plain_bytes (lookup sch) 9); vm_compute; reflexivity|].
  split; [apply insertable_sound; vm_compute; reflexivity|].
  split; [intros H; vm_compute in H; inversion H as [| | | | |? ? ? F|]; subst; apply Forall_inv in F; inversion F|].
  split; [apply between_sound; vm_compute; reflexivity|].
  split; [apply apart_sound; vm_compute; reflexivity|]. split; [apply distinct_sound; vm_compute; reflexivity|].
  split; [apply found_sound; vm_compute; reflexivity|].
  inserted. split; [repeat split; vm_compute; reflexivity|reflexivity].
Qed.

(** Without a root, or for a node that would lie in front of it, the bytes are
    shifted and nothing else happens. *)
Theorem C94_outside : forall n f b c cp z pos size q, in_memory b -> 0 <= pos -> 0 <= size ->
  (List.length (filter (straddles pos) (b_diffs b)) <= 1)%nat -> 2 <= zlen q -> delivers b 0 q ->
  c_node c = Some (cp, z) -> cp < 8 -> (exists l, is_list_name (c_name c) (v_len (c_info c)) = Ok l) ->
  exists b' c', node_insert_buf n f b c pos size = Ok (b', c') /\
    (forall m, shows b m -> shows b' (img_insert m pos size)) /\ node_shifted pos size c c'.
Proof. exact insert_outside. Qed.
Print Assumptions C94_outside.

(** A vector of three numbers without a root: eight bytes in front of it. *)
Example C94_outside_sample :
  let b := mem (map z2b [0; 0; 3; 0; 0; 0; 5; 0; 0; 0; 6; 0; 0; 0; 7; 0; 0; 0]) in
  let c := new_node reg (Some (2, -1)) (mkV 6 12 3) "[]int32" in
  let c2 := new_node reg (Some (6, -1)) no_vinfo "Num" in
  (exists b' c', node_insert_buf reg 5 b c 2 8 = Ok (b', c') /\ v_pos (c_info c') = 14 /\ c_node c' = Some (2, -1) /\
    rd 4 b' 14 = Ok 5 /\ rd 4 b' 18 = Ok 6) /\
  (exists b' c', node_insert_buf reg 5 b c2 2 8 = Ok (b', c') /\ c_node c' = Some (14, -1) /\ rd 4 b' 14 = Ok 5).
Proof.
  intros b c c2. split; (inserted; repeat split; vm_compute; reflexivity).
Qed.

(** A reference behind an absent table of its table is not moved. *)
Theorem C94_absent_refuted : exists l v c a t pos size, sample l "Doc" v a t /\
  between (img_bytes l) pos v /\ 24 < pos /\ c = at_pos "File" 76 /\
  exists b' c', node_insert_buf (pkg "Doc") 20 (mem l) c pos size = Ok (b', c') /\
    ~ leads b' (shift pos size a) (shift pos size t).
Proof.
  exists other_bytes, (val_of other_bytes "Doc"), (at_pos "File" 76), 52, 120, 112, 8. split; [sampled other_bytes|].
  split; [apply between_sound; vm_compute; reflexivity|]. split; [reflexivity|]. split; [reflexivity|].
  inserted. vm_compute. discriminate.
Qed.
Print Assumptions C94_absent_refuted.

(** The references of a table that was reached through a union are not moved. *)
Theorem C94_union_refuted : exists l v c a t pos size, sample l "Doc" v a t /\
  between (img_bytes l) pos v /\ 24 < pos /\ c = at_pos "Note" 120 /\
  exists b' c', node_insert_buf (pkg "Doc") 20 (mem l) c pos size = Ok (b', c') /\
    ~ leads b' (shift pos size a) (shift pos size t).
Proof.
  exists doc_bytes, (val_of doc_bytes "Doc"), (at_pos "Note" 120), 80, 92, 92, 8. split; [sampled doc_bytes|].
  split; [apply between_sound; vm_compute; reflexivity|]. split; [reflexivity|]. split; [reflexivity|].
  inserted. vm_compute. discriminate.
Qed.
Print Assumptions C94_union_refuted.

(** The references of the node that [InsertBuf] is called on are not moved. *)
Theorem C94_own_refuted : exists l v c a t pos size, sample l "Doc" v a t /\
  between (img_bytes l) pos v /\ 24 < pos /\ c = at_pos "Doc" 24 /\
  exists b' c', node_insert_buf (pkg "Doc") 20 (mem l) c pos size = Ok (b', c') /\
    ~ leads b' (shift pos size a) (shift pos size t).
Proof.
  exists doc_bytes, (val_of doc_bytes "Doc"), (at_pos "Doc" 24), 52, 120, 112, 8. split; [sampled doc_bytes|].
  split; [apply between_sound; vm_compute; reflexivity|]. split; [reflexivity|]. split; [reflexivity|].
  inserted. vm_compute. discriminate.
Qed.
Print Assumptions C94_own_refuted.

(** The references of a table that begins where an empty vector ends are not
    moved. *)
Theorem C94_touching_refuted : exists l v c a t pos size, sample l "Doc" v a t /\
  between (img_bytes l) pos v /\ 24 < pos /\ c = at_pos "Note" 104 /\
  exists b' c', node_insert_buf (pkg "Doc") 20 (mem l) c pos size = Ok (b', c') /\
    ~ leads b' (shift pos size a) (shift pos size t).
Proof.
  exists touch_bytes, (val_of touch_bytes "Doc"), (at_pos "Note" 104), 132, 144, 144, 8. split; [sampled touch_bytes|].
  split; [apply between_sound; vm_compute; reflexivity|]. split; [reflexivity|]. split; [reflexivity|].
  inserted. vm_compute. discriminate.
Qed.
Print Assumptions C94_touching_refuted.

(** The offset of the root at the start of the buffer is not moved. *)
Theorem C94_root_refuted : exists l v c a t pos size, sample l "Doc" v a t /\
  between (img_bytes l) pos v /\ c = at_pos "Note" 120 /\ leads (mem l) 0 24 /\
  exists b' c', node_insert_buf (pkg "Doc") 20 (mem l) c pos size = Ok (b', c') /\
    ~ leads b' 0 (shift pos size 24).
Proof.
  exists doc_bytes, (val_of doc_bytes "Doc"), (at_pos "Note" 120), 80, 92, 4, 8. split; [sampled doc_bytes|].
  split; [apply between_sound; vm_compute; reflexivity|]. split; [reflexivity|]. split; [reflexivity|].
  inserted. vm_compute. discriminate.
Qed.
Print Assumptions C94_root_refuted.

(** The distance of a table to a vtable it shares with an earlier one is not
    changed. *)
Theorem C94_shared_refuted : exists l v c a t pos size p w, sample l "Dir" v a t /\
  In (p, w) (ties (img_bytes l) v) /\ w = vtable_of (img_bytes l) p /\ 12 < w < p /\ p = pos /\
  (forall x k, In (x, k) (parts (img_bytes l) v) -> one_side pos x k) /\ c = at_pos "File" 40 /\
  rd 4 (mem l) p = Ok (p - w) /\
  exists b' c', node_insert_buf (pkg "Dir") 20 (mem l) c pos size = Ok (b', c') /\
    rd 4 b' (shift pos size p) <> Ok (shift pos size p - shift pos size w).
Proof.
  exists shared_bytes, (val_of shared_bytes "Dir"), (at_pos "File" 40), 28, 64, 64, 8, 64, 32. split; [sampled shared_bytes|].
  split; [vm_compute; tauto|]. split; [reflexivity|]. split; [split; reflexivity|]. split; [reflexivity|].
  split; [|split; [reflexivity|split; [reflexivity|inserted; vm_compute; discriminate]]].
  intros x k H. vm_compute in H. apply one_side_sound.
  repeat (destruct H as [H|H]; [injection H as <- <-; reflexivity|]). destruct H.
Qed.
Print Assumptions C94_shared_refuted.
