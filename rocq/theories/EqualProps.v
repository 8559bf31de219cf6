(** Property theorems about the comparison of nodes (C86). *)
From Coq Require Import ZArith List Bool String.
From Coq Require Import Strings.Byte.
From Verif Require Import GoLib BaseModel BaseSpec TableModel TableSpec NameModel NameSpec
  WalkModel WalkSpec WalkProofs6 EqualModel EqualSpec EqualProofs2 EqualProofs3.
Import ListNotations.
Open Scope string_scope.
Open Scope list_scope.
Open Scope Z_scope.

(** ** A schema and buffers of it *)

(** What the initializers of a generated package do for the schema
    [[
    struct Vec { x: int; y: int; }       union Body { Note, Mark }
    table Note { n: int; }               table Mark { v: short; at: Vec; }
    table Shape { version: int; at: Vec; body: Body; notes: [Note]; path: [Vec]; main: Note; }
    table File { id: ulong; name: string; }
    table Nums { nums: [int]; }          table Dir { notes: [Note]; }
    ]] *)
Definition fields_of (node : string) (l : list (string * string)) : list init_step :=
  map (fun p => IField node (fst (snd p)) (snd (snd p)) (fst p)) (number 0 l).

Definition steps : list init_step :=
  [IStruct "Vec" true; IStruct "Note" false; IStruct "Mark" false; IStruct "Shape" false;
   IStruct "File" false; IStruct "Nums" false; IStruct "Dir" false;
   IAlias "Body" "Note"; IAlias "Body" "Mark"] ++
  fields_of "Vec" [("X", "Int32"); ("Y", "Int32")] ++
  fields_of "Note" [("N", "Int32")] ++
  fields_of "Mark" [("V", "Int16"); ("At", "Vec")] ++
  fields_of "Shape" [("Version", "Int32"); ("At", "Vec"); ("BodyType", "Byte"); ("Body", "Body");
                     ("Notes", "[]Note"); ("Path", "[]Vec"); ("Main", "Note")] ++
  fields_of "File" [("Id", "Uint64"); ("Name", "[]byte")] ++
  fields_of "Nums" [("Nums", "[]int32")] ++
  fields_of "Dir" [("Notes", "[]Note")].

Definition reg : names :=
  match run_steps no_names steps with
  | Ok n => match apply_requests n with Ok n' => n' | _ => no_names end
  | _ => no_names
  end.

Definition vec : list scalar := [SInt32; SInt32].
Definition sch : list (string * list ty) :=
  [("Note", [TyScalar SInt32]); ("Mark", [TyScalar SInt16; TyStruct "Vec" vec]);
   ("Shape", [TyScalar SInt32; TyStruct "Vec" vec; TyScalar SByte; TyUnion ["Note"; "Mark"];
              TyTables "Note"; TyStructs "Vec" vec; TyTable "Note"]);
   ("File", [TyScalar SUint64; TyScalars SByte]); ("Nums", [TyScalars SInt32]);
   ("Dir", [TyTables "Note"])].

Lemma sample_described : describes reg (lookup sch).
Proof. apply describes_sound. vm_compute. reflexivity. Qed.

Lemma sample_members : members_described reg (lookup sch).
Proof. apply members_described_sound. vm_compute. reflexivity. Qed.

(** A [Shape] with a mark as its body *)
Definition shape_bytes : list byte := map z2b
  [24; 0; 0; 0; 0; 0; 18; 0; 36; 0; 4; 0; 8; 0; 16; 0; 20; 0; 24; 0; 28; 0; 32; 0; 18; 0; 0; 0;
   7; 0; 0; 0; 1; 0; 0; 0; 2; 0; 0; 0; 2; 0; 0; 0; 24; 0; 0; 0; 36; 0; 0; 0; 76; 0; 0; 0; 100;
   0; 0; 0; 8; 0; 16; 0; 4; 0; 8; 0; 8; 0; 0; 0; 5; 0; 0; 0; 3; 0; 0; 0; 4; 0; 0; 0; 2; 0; 0; 0;
   16; 0; 0; 0; 28; 0; 0; 0; 0; 0; 6; 0; 8; 0; 4; 0; 6; 0; 0; 0; 1; 0; 0; 0; 0; 0; 6; 0; 8; 0;
   4; 0; 6; 0; 0; 0; 2; 0; 0; 0; 2; 0; 0; 0; 8; 0; 0; 0; 9; 0; 0; 0; 10; 0; 0; 0; 11; 0; 0; 0;
   0; 0; 6; 0; 8; 0; 4; 0; 6; 0; 0; 0; 42; 0; 0; 0].

(** The same data, laid out differently *)
Definition moved_bytes : list byte := map z2b
  [28; 0; 0; 0; 0; 0; 0; 0; 0; 0; 18; 0; 36; 0; 4; 0; 8; 0; 16; 0; 20; 0; 24; 0; 28; 0; 32; 0;
   18; 0; 0; 0; 7; 0; 0; 0; 1; 0; 0; 0; 2; 0; 0; 0; 2; 0; 0; 0; 28; 0; 0; 0; 44; 0; 0; 0; 96; 0;
   0; 0; 124; 0; 0; 0; 0; 0; 0; 0; 8; 0; 16; 0; 4; 0; 8; 0; 8; 0; 0; 0; 5; 0; 0; 0; 3; 0; 0; 0;
   4; 0; 0; 0; 0; 0; 0; 0; 2; 0; 0; 0; 20; 0; 0; 0; 36; 0; 0; 0; 0; 0; 0; 0; 0; 0; 6; 0; 8; 0;
   4; 0; 6; 0; 0; 0; 1; 0; 0; 0; 0; 0; 0; 0; 0; 0; 6; 0; 8; 0; 4; 0; 6; 0; 0; 0; 2; 0; 0; 0; 0;
   0; 0; 0; 2; 0; 0; 0; 8; 0; 0; 0; 9; 0; 0; 0; 10; 0; 0; 0; 11; 0; 0; 0; 0; 0; 0; 0; 0; 0; 6;
   0; 8; 0; 4; 0; 6; 0; 0; 0; 42; 0; 0; 0].

(** One more note at the end of the vector *)
Definition longer_bytes : list byte := map z2b
  [24; 0; 0; 0; 0; 0; 18; 0; 36; 0; 4; 0; 8; 0; 16; 0; 20; 0; 24; 0; 28; 0; 32; 0; 18; 0; 0; 0;
   7; 0; 0; 0; 1; 0; 0; 0; 2; 0; 0; 0; 2; 0; 0; 0; 24; 0; 0; 0; 36; 0; 0; 0; 96; 0; 0; 0; 120;
   0; 0; 0; 8; 0; 16; 0; 4; 0; 8; 0; 8; 0; 0; 0; 5; 0; 0; 0; 3; 0; 0; 0; 4; 0; 0; 0; 3; 0; 0; 0;
   20; 0; 0; 0; 32; 0; 0; 0; 44; 0; 0; 0; 0; 0; 6; 0; 8; 0; 4; 0; 6; 0; 0; 0; 1; 0; 0; 0; 0; 0;
   6; 0; 8; 0; 4; 0; 6; 0; 0; 0; 2; 0; 0; 0; 0; 0; 6; 0; 8; 0; 4; 0; 6; 0; 0; 0; 3; 0; 0; 0; 2;
   0; 0; 0; 8; 0; 0; 0; 9; 0; 0; 0; 10; 0; 0; 0; 11; 0; 0; 0; 0; 0; 6; 0; 8; 0; 4; 0; 6; 0; 0;
   0; 42; 0; 0; 0].

(** Another number in the struct of the mark *)
Definition other_bytes : list byte := map z2b
  [24; 0; 0; 0; 0; 0; 18; 0; 36; 0; 4; 0; 8; 0; 16; 0; 20; 0; 24; 0; 28; 0; 32; 0; 18; 0; 0; 0;
   7; 0; 0; 0; 1; 0; 0; 0; 2; 0; 0; 0; 2; 0; 0; 0; 24; 0; 0; 0; 36; 0; 0; 0; 76; 0; 0; 0; 100;
   0; 0; 0; 8; 0; 16; 0; 4; 0; 8; 0; 8; 0; 0; 0; 5; 0; 0; 0; 3; 0; 0; 0; 6; 0; 0; 0; 2; 0; 0; 0;
   16; 0; 0; 0; 28; 0; 0; 0; 0; 0; 6; 0; 8; 0; 4; 0; 6; 0; 0; 0; 1; 0; 0; 0; 0; 0; 6; 0; 8; 0;
   4; 0; 6; 0; 0; 0; 2; 0; 0; 0; 2; 0; 0; 0; 8; 0; 0; 0; 9; 0; 0; 0; 10; 0; 0; 0; 11; 0; 0; 0;
   0; 0; 6; 0; 8; 0; 4; 0; 6; 0; 0; 0; 42; 0; 0; 0].

(** Two files that differ in the second letter of their names, and one whose
    name is empty *)
Definition ab_bytes : list byte := map z2b
  [12; 0; 0; 0; 8; 0; 16; 0; 4; 0; 12; 0; 8; 0; 0; 0; 1; 0; 0; 0; 0; 0; 0; 0; 4; 0; 0; 0; 2; 0;
   0; 0; 97; 98; 0; 0].
Definition ac_bytes : list byte := map z2b
  [12; 0; 0; 0; 8; 0; 16; 0; 4; 0; 12; 0; 8; 0; 0; 0; 1; 0; 0; 0; 0; 0; 0; 0; 4; 0; 0; 0; 2; 0;
   0; 0; 97; 99; 0; 0].
Definition unnamed_bytes : list byte := map z2b
  [12; 0; 0; 0; 8; 0; 16; 0; 4; 0; 12; 0; 8; 0; 0; 0; 1; 0; 0; 0; 0; 0; 0; 0; 4; 0; 0; 0; 0; 0;
   0; 0].

(** Two vectors with one number each *)
Definition one_bytes : list byte := map z2b
  [12; 0; 0; 0; 0; 0; 6; 0; 8; 0; 4; 0; 6; 0; 0; 0; 4; 0; 0; 0; 1; 0; 0; 0; 1; 0; 0; 0].
Definition two_bytes : list byte := map z2b
  [12; 0; 0; 0; 0; 0; 6; 0; 8; 0; 4; 0; 6; 0; 0; 0; 4; 0; 0; 0; 1; 0; 0; 0; 2; 0; 0; 0].

(** A [Dir] (or a [Note]) without its only field, and a [Dir] with a note *)
Definition bare_bytes : list byte := map z2b
  [12; 0; 0; 0; 0; 0; 6; 0; 4; 0; 0; 0; 6; 0; 0; 0].
Definition dir_bytes : list byte := map z2b
  [12; 0; 0; 0; 0; 0; 6; 0; 8; 0; 4; 0; 6; 0; 0; 0; 4; 0; 0; 0; 1; 0; 0; 0; 12; 0; 0; 0; 0; 0;
   6; 0; 8; 0; 4; 0; 6; 0; 0; 0; 1; 0; 0; 0].

Definition mem (l : list byte) : base := new_base (gs_of l).
Definition at_pos (name : string) (p : Z) : option cnode := Some (new_node reg (Some (p, -1)) no_vinfo name).

Definition val_of (l : list byte) (name : string) (p : Z) : val :=
  match decode l (lookup sch) 9 name p with Some v => v | None => Absent (TyTable name) end.

(** ** C86 *)

(** The full statement is that [Equal] is true exactly if the two nodes hold the
    same data.  For tables with everything present and without vectors of
    scalars it does not panic, and is true exactly if the first holds what the
    second does, up to further elements at the end of vectors of the second. *)
Theorem C86_equal_partial : forall n b1 b2 s name p1 p2 v1 v2 z1 z2 f,
  flat b1 -> flat b2 -> describes n s -> members_described n s ->
  let m1 := img_bytes (sl_data (b_bytes b1)) in
  let m2 := img_bytes (sl_data (b_bytes b2)) in
  stored_table m1 s name p1 v1 -> stored_table m2 s name p2 v2 -> full v1 -> full v2 ->
  (depth v1 <= f)%nat ->
  exists r, node_equal n b1 b2 f (Some (new_node n (Some (p1, z1)) no_vinfo name))
                                 (Some (new_node n (Some (p2, z2)) no_vinfo name)) = Ok r /\
    (r = true <-> within m1 m2 v1 v2).
Proof. exact tables_same. Qed.
Print Assumptions C86_equal_partial.

(** Asked both ways, it decides whether the data is the same. *)
Theorem C86_both_partial : forall n b1 b2 s name p1 p2 v1 v2 z1 z2 f,
  flat b1 -> flat b2 -> describes n s -> members_described n s ->
  let m1 := img_bytes (sl_data (b_bytes b1)) in
  let m2 := img_bytes (sl_data (b_bytes b2)) in
  let c1 := Some (new_node n (Some (p1, z1)) no_vinfo name) in
  let c2 := Some (new_node n (Some (p2, z2)) no_vinfo name) in
  stored_table m1 s name p1 v1 -> stored_table m2 s name p2 v2 -> full v1 -> full v2 ->
  (depth v1 <= f)%nat -> (depth v2 <= f)%nat ->
  (node_equal n b1 b2 f c1 c2 = Ok true /\ node_equal n b2 b1 f c2 c1 = Ok true <->
   same_value m1 m2 v1 v2).
Proof. exact equal_both. Qed.
Print Assumptions C86_both_partial.

(** A root with a struct, a union, a table and vectors of tables and of
    structs, compared with the same data elsewhere and with other data. *)
Example C86_case :
  flat (mem shape_bytes) /\ flat (mem moved_bytes) /\
  describes reg (lookup sch) /\ members_described reg (lookup sch) /\
  stored_table (img_bytes shape_bytes) (lookup sch) "Shape" 24 (val_of shape_bytes "Shape" 24) /\
  stored_table (img_bytes moved_bytes) (lookup sch) "Shape" 28 (val_of moved_bytes "Shape" 28) /\
  stored_table (img_bytes other_bytes) (lookup sch) "Shape" 24 (val_of other_bytes "Shape" 24) /\
  full (val_of shape_bytes "Shape" 24) /\ full (val_of moved_bytes "Shape" 28) /\
  full (val_of other_bytes "Shape" 24) /\
  depth (val_of shape_bytes "Shape" 24) = 3%nat /\
  node_equal reg (mem shape_bytes) (mem moved_bytes) 3 (at_pos "Shape" 24) (at_pos "Shape" 28) = Ok true /\
  node_equal reg (mem moved_bytes) (mem shape_bytes) 3 (at_pos "Shape" 28) (at_pos "Shape" 24) = Ok true /\
  node_equal reg (mem shape_bytes) (mem other_bytes) 3 (at_pos "Shape" 24) (at_pos "Shape" 24) = Ok false.
Proof.
  split; [split; reflexivity|]. split; [split; reflexivity|]. split; [exact sample_described|].
  split; [exact sample_members|].
  split; [apply (decode_sound shape_bytes (lookup sch) 9); vm_compute; reflexivity|].
  split; [apply (decode_sound moved_bytes (lookup sch) 9); vm_compute; reflexivity|].
  split; [apply (decode_sound other_bytes (lookup sch) 9); vm_compute; reflexivity|].
  split; [apply (full_sound 9); [apply Nat.leb_le; vm_compute; reflexivity|vm_compute; reflexivity]|].
  split; [apply (full_sound 9); [apply Nat.leb_le; vm_compute; reflexivity|vm_compute; reflexivity]|].
  split; [apply (full_sound 9); [apply Nat.leb_le; vm_compute; reflexivity|vm_compute; reflexivity]|].
  split; [vm_compute; reflexivity|].
  split; [vm_compute; reflexivity|]. split; [vm_compute; reflexivity|]. vm_compute. reflexivity.
Qed.

(** A vector with further elements compares equal in one direction. *)
Theorem C86_longer_refuted : exists l1 l2 p v1 v2,
  stored_table (img_bytes l1) (lookup sch) "Shape" p v1 /\
  stored_table (img_bytes l2) (lookup sch) "Shape" p v2 /\ full v1 /\ full v2 /\
  ~ same_value (img_bytes l1) (img_bytes l2) v1 v2 /\
  (forall f, (9 <= f)%nat -> node_equal reg (mem l1) (mem l2) f (at_pos "Shape" p) (at_pos "Shape" p) = Ok true) /\
  (forall f, (9 <= f)%nat -> node_equal reg (mem l2) (mem l1) f (at_pos "Shape" p) (at_pos "Shape" p) = Ok false).
Proof.
  exists shape_bytes, longer_bytes, 24, (val_of shape_bytes "Shape" 24), (val_of longer_bytes "Shape" 24).
  split; [apply (decode_sound shape_bytes (lookup sch) 9); vm_compute; reflexivity|].
  split; [apply (decode_sound longer_bytes (lookup sch) 9); vm_compute; reflexivity|].
  split; [apply (full_sound 9); [apply Nat.leb_le; vm_compute; reflexivity|vm_compute; reflexivity]|].
  split; [apply (full_sound 9); [apply Nat.leb_le; vm_compute; reflexivity|vm_compute; reflexivity]|].
  split.
  - intros H.
    assert (E : map (fun v => match v with Tabs _ _ es => zlen es | _ => 0 end)
                  (match val_of shape_bytes "Shape" 24 with Tab _ _ fs => fs | _ => [] end) =
                map (fun v => match v with Tabs _ _ es => zlen es | _ => 0 end)
                  (match val_of longer_bytes "Shape" 24 with Tab _ _ fs => fs | _ => [] end)).
    { destruct H; try reflexivity. induction H as [|x y l l' A _ IH]; [reflexivity|]. cbn [map]. f_equal; [|exact IH].
      destruct A; congruence. }
    vm_compute in E. discriminate.
  - split; intros f Hf; (eapply equal_final; [exact Hf|vm_compute; reflexivity|discriminate]).
Qed.
Print Assumptions C86_longer_refuted.

(** Of strings only the first byte is compared. *)
Theorem C86_string_refuted : exists l1 l2 p v1 v2,
  stored_table (img_bytes l1) (lookup sch) "File" p v1 /\
  stored_table (img_bytes l2) (lookup sch) "File" p v2 /\
  ~ same_value (img_bytes l1) (img_bytes l2) v1 v2 /\
  (forall f, (9 <= f)%nat -> node_equal reg (mem l1) (mem l2) f (at_pos "File" p) (at_pos "File" p) = Ok true) /\
  (forall f, (9 <= f)%nat -> node_equal reg (mem l2) (mem l1) f (at_pos "File" p) (at_pos "File" p) = Ok true).
Proof.
  exists ab_bytes, ac_bytes, 12, (Tab "File" 12 [Scalar 16 8; Scalars 32 2 1]), (Tab "File" 12 [Scalar 16 8; Scalars 32 2 1]).
  split; [apply (decode_sound ab_bytes (lookup sch) 9); vm_compute; reflexivity|].
  split; [apply (decode_sound ac_bytes (lookup sch) 9); vm_compute; reflexivity|].
  split.
  - intros H. inversion H as [| | | | |? ? ? ? ? F|]; subst. inversion F as [|? ? ? ? _ F1]; subst.
    inversion F1 as [|? ? ? ? S _]; subst. inversion S as [| | |? ? ? ? ? _ B| | |]; subst.
    specialize (B 1 ltac:(split; [discriminate|reflexivity])). vm_compute in B. discriminate.
  - split; intros f Hf; (eapply equal_final; [exact Hf|vm_compute; reflexivity|discriminate]).
Qed.
Print Assumptions C86_string_refuted.

(** A table whose empty string ends the buffer is not equal to itself. *)
Theorem C86_self_refuted : exists l p v,
  stored_table (img_bytes l) (lookup sch) "File" p v /\
  forall f, (9 <= f)%nat -> node_equal reg (mem l) (mem l) f (at_pos "File" p) (at_pos "File" p) = Ok false.
Proof.
  exists unnamed_bytes, 12, (val_of unnamed_bytes "File" 12).
  split; [apply (decode_sound unnamed_bytes (lookup sch) 9); vm_compute; reflexivity|].
  intros f Hf; (eapply equal_final; [exact Hf|vm_compute; reflexivity|discriminate]).
Qed.
Print Assumptions C86_self_refuted.

(** Vectors of numbers are not compared at all. *)
Theorem C86_numbers_refuted : exists l1 l2 p v1 v2,
  stored_table (img_bytes l1) (lookup sch) "Nums" p v1 /\
  stored_table (img_bytes l2) (lookup sch) "Nums" p v2 /\
  ~ same_value (img_bytes l1) (img_bytes l2) v1 v2 /\
  (forall f, (9 <= f)%nat -> node_equal reg (mem l1) (mem l2) f (at_pos "Nums" p) (at_pos "Nums" p) = Ok true) /\
  (forall f, (9 <= f)%nat -> node_equal reg (mem l2) (mem l1) f (at_pos "Nums" p) (at_pos "Nums" p) = Ok true).
Proof.
  exists one_bytes, two_bytes, 12, (Tab "Nums" 12 [Scalars 24 1 4]), (Tab "Nums" 12 [Scalars 24 1 4]).
  split; [apply (decode_sound one_bytes (lookup sch) 9); vm_compute; reflexivity|].
  split; [apply (decode_sound two_bytes (lookup sch) 9); vm_compute; reflexivity|].
  split.
  - intros H. inversion H as [| | | | |? ? ? ? ? F|]; subst. inversion F as [|? ? ? ? S _]; subst.
    inversion S as [| | |? ? ? ? ? _ B| | |]; subst.
    specialize (B 0 ltac:(split; [discriminate|reflexivity])). vm_compute in B. discriminate.
  - split; intros f Hf; (eapply equal_final; [exact Hf|vm_compute; reflexivity|discriminate]).
Qed.
Print Assumptions C86_numbers_refuted.

(** An absent vector compares equal to any vector. *)
Theorem C86_absent_vector_refuted : exists l1 l2 p v1 v2,
  stored_table (img_bytes l1) (lookup sch) "Dir" p v1 /\
  stored_table (img_bytes l2) (lookup sch) "Dir" p v2 /\
  ~ within (img_bytes l1) (img_bytes l2) v1 v2 /\
  forall f, (9 <= f)%nat -> node_equal reg (mem l1) (mem l2) f (at_pos "Dir" p) (at_pos "Dir" p) = Ok true.
Proof.
  exists bare_bytes, dir_bytes, 12, (Tab "Dir" 12 [Absent (TyTables "Note")]), (val_of dir_bytes "Dir" 12).
  split; [apply (decode_sound bare_bytes (lookup sch) 9); vm_compute; reflexivity|].
  split; [apply (decode_sound dir_bytes (lookup sch) 9); vm_compute; reflexivity|].
  split.
  - intros H. vm_compute in H. inversion H as [| | | | |? ? ? ? ? F|]; subst. inversion F as [|? ? ? ? S _]; subst.
    inversion S.
  - intros f Hf; (eapply equal_final; [exact Hf|vm_compute; reflexivity|discriminate]).
Qed.
Print Assumptions C86_absent_vector_refuted.

(** Comparing a table without one of its numbers panics. *)
Theorem C86_absent_scalar_refuted : exists l p v,
  stored_table (img_bytes l) (lookup sch) "Note" p v /\
  forall f, (9 <= f)%nat -> node_equal reg (mem l) (mem l) f (at_pos "Note" p) (at_pos "Note" p) = Panic.
Proof.
  exists bare_bytes, 12, (val_of bare_bytes "Note" 12).
  split; [apply (decode_sound bare_bytes (lookup sch) 9); vm_compute; reflexivity|].
  intros f Hf; (eapply equal_final; [exact Hf|vm_compute; reflexivity|discriminate]).
Qed.
Print Assumptions C86_absent_scalar_refuted.
