(** Property theorems about the generic reader (C72 to C79). *)
From Coq Require Import ZArith List Bool String.
From Coq Require Import Strings.Byte.
From Verif Require Import GoLib BaseModel BaseSpec TableModel TableSpec NameModel NameSpec StreamModel
  WalkModel WalkSpec WalkProofs4 WalkProofs5 WalkProofs6 WalkProofs7 WalkProofs8 WalkProofs9.
Import ListNotations.
Open Scope string_scope.
Open Scope list_scope.
Open Scope Z_scope.

(** ** A schema and buffers of it *)

(** What the initializers of a generated package do for the schema
    [[
    struct Vec { x: int; y: int; }        union Body { File, Note }
    table File { id: ulong; name: string; }
    table Note { n: int; }                table Num { n: long; }
    table Flag { f: bool; }               table Opt { note: Note; }
    table Dir { files: [File]; }          table Spot { at: Vec; }
    table Hold { body: Body; }            table Texts { texts: [string]; }
    table Pack { files: [File]; note: Note; }
    table Doc { version: int; name: string; body: Body; files: [File];
                nums: [int]; main: Note; other: Note; }
    table Root { version: int; name: string; body: Body; files: [File]; at: Vec;
                 nums: [int]; main: Note; other: Note; marks: [Vec]; }
    ]] *)
Definition fields (node : string) (l : list (string * string)) : list init_step :=
  map (fun p => IField node (fst (snd p)) (snd (snd p)) (fst p)) (number 0 l).

Definition steps : list init_step :=
  [IStruct "Vec" true; IStruct "File" false; IStruct "Note" false; IStruct "Num" false;
   IStruct "Flag" false; IStruct "Opt" false; IStruct "Dir" false; IStruct "Spot" false;
   IStruct "Hold" false; IStruct "Texts" false; IStruct "Pack" false; IStruct "Doc" false; IStruct "Root" false;
   IAlias "Body" "File"; IAlias "Body" "Note"] ++
  fields "Vec" [("X", "Int32"); ("Y", "Int32")] ++
  fields "File" [("Id", "Uint64"); ("Name", "[]byte")] ++
  fields "Note" [("N", "Int32")] ++ fields "Num" [("N", "Int64")] ++
  fields "Flag" [("F", "Bool")] ++ fields "Opt" [("Note", "Note")] ++
  fields "Dir" [("Files", "[]File")] ++ fields "Spot" [("At", "Vec")] ++
  fields "Hold" [("BodyType", "Byte"); ("Body", "Body")] ++
  fields "Texts" [("Texts", "[][]byte")] ++
  fields "Pack" [("Files", "[]File"); ("Note", "Note")] ++
  fields "Doc" [("Version", "Int32"); ("Name", "[]byte"); ("BodyType", "Byte"); ("Body", "Body");
                ("Files", "[]File"); ("Nums", "[]int32"); ("Main", "Note"); ("Other", "Note")] ++
  fields "Root" [("Version", "Int32"); ("Name", "[]byte"); ("BodyType", "Byte"); ("Body", "Body");
                 ("Files", "[]File"); ("At", "Vec"); ("Nums", "[]int32"); ("Main", "Note");
                 ("Other", "Note"); ("Marks", "[]Vec")].

Definition reg : names :=
  match run_steps no_names steps with
  | Ok n => match apply_requests n with Ok n' => n' | _ => no_names end
  | _ => no_names
  end.

Definition vec : list scalar := [SInt32; SInt32].
Definition str : ty := TyScalars SByte.
Definition body : ty := TyUnion ["File"; "Note"].
Definition sch : list (string * list ty) :=
  [("File", [TyScalar SUint64; str]); ("Note", [TyScalar SInt32]); ("Num", [TyScalar SInt64]);
   ("Flag", [TyScalar SBool]); ("Opt", [TyTable "Note"]); ("Dir", [TyTables "File"]);
   ("Spot", [TyStruct "Vec" vec]); ("Hold", [TyScalar SByte; body]);
   ("Pack", [TyTables "File"; TyTable "Note"]);
   ("Doc", [TyScalar SInt32; str; TyScalar SByte; body; TyTables "File"; TyScalars SInt32;
            TyTable "Note"; TyTable "Note"]);
   ("Root", [TyScalar SInt32; str; TyScalar SByte; body; TyTables "File"; TyStruct "Vec" vec;
             TyScalars SInt32; TyTable "Note"; TyTable "Note"; TyStructs "Vec" vec])].

Lemma sample_described : describes reg (lookup sch).
Proof. apply describes_sound. vm_compute. reflexivity. Qed.


(** A [Root] with everything but the second note *)
Definition root_bytes : list byte := map z2b
  [28; 0; 0; 0; 24; 0; 44; 0; 4; 0; 8; 0; 12; 0; 16; 0; 20; 0; 24; 0; 32; 0; 36; 0; 0; 0; 40; 0;
   24; 0; 0; 0; 7; 0; 0; 0; 36; 0; 0; 0; 2; 0; 0; 0; 44; 0; 0; 0; 100; 0; 0; 0; 232; 3; 0; 0;
   208; 7; 0; 0; 36; 0; 0; 0; 56; 0; 0; 0; 60; 0; 0; 0; 5; 0; 0; 0; 104; 101; 108; 108; 111; 0;
   6; 0; 8; 0; 4; 0; 6; 0; 0; 0; 42; 0; 0; 0; 3; 0; 0; 0; 10; 0; 0; 0; 20; 0; 0; 0; 30; 0; 0; 0;
   0; 0; 6; 0; 8; 0; 4; 0; 6; 0; 0; 0; 99; 0; 0; 0; 2; 0; 0; 0; 1; 0; 0; 0; 2; 0; 0; 0; 3; 0; 0;
   0; 4; 0; 0; 0; 2; 0; 0; 0; 16; 0; 0; 0; 44; 0; 0; 0; 8; 0; 16; 0; 8; 0; 4; 0; 8; 0; 0; 0; 12;
   0; 0; 0; 1; 0; 0; 0; 0; 0; 0; 0; 1; 0; 0; 0; 97; 0; 0; 0; 8; 0; 16; 0; 8; 0; 4; 0; 8; 0; 0;
   0; 12; 0; 0; 0; 2; 0; 0; 0; 0; 0; 0; 0; 2; 0; 0; 0; 98; 99; 0; 0].

(** A [Doc] with everything but the second note *)
Definition doc_bytes : list byte := map z2b
  [24; 0; 0; 0; 20; 0; 32; 0; 4; 0; 8; 0; 12; 0; 16; 0; 20; 0; 24; 0; 28; 0; 0; 0; 20; 0; 0; 0;
   7; 0; 0; 0; 24; 0; 0; 0; 1; 0; 0; 0; 36; 0; 0; 0; 84; 0; 0; 0; 52; 0; 0; 0; 68; 0; 0; 0; 5;
   0; 0; 0; 104; 101; 108; 108; 111; 0; 0; 0; 8; 0; 16; 0; 8; 0; 4; 0; 8; 0; 0; 0; 12; 0; 0; 0;
   5; 0; 0; 0; 0; 0; 0; 0; 1; 0; 0; 0; 122; 0; 0; 0; 2; 0; 0; 0; 10; 0; 0; 0; 20; 0; 0; 0; 0; 0;
   6; 0; 8; 0; 4; 0; 6; 0; 0; 0; 99; 0; 0; 0; 2; 0; 0; 0; 16; 0; 0; 0; 44; 0; 0; 0; 8; 0; 16; 0;
   8; 0; 4; 0; 8; 0; 0; 0; 12; 0; 0; 0; 1; 0; 0; 0; 0; 0; 0; 0; 1; 0; 0; 0; 97; 0; 0; 0; 8; 0;
   16; 0; 8; 0; 4; 0; 8; 0; 0; 0; 12; 0; 0; 0; 2; 0; 0; 0; 0; 0; 0; 0; 2; 0; 0; 0; 98; 99; 0; 0;
   0; 0; 0; 0].

(** A [Dir] whose first file has its name behind the second file *)
Definition dir_bytes : list byte := map z2b
  [12; 0; 0; 0; 0; 0; 6; 0; 8; 0; 4; 0; 6; 0; 0; 0; 4; 0; 0; 0; 2; 0; 0; 0; 16; 0; 0; 0; 36; 0;
   0; 0; 8; 0; 16; 0; 8; 0; 4; 0; 8; 0; 0; 0; 44; 0; 0; 0; 1; 0; 0; 0; 0; 0; 0; 0; 8; 0; 16; 0;
   8; 0; 4; 0; 8; 0; 0; 0; 12; 0; 0; 0; 2; 0; 0; 0; 0; 0; 0; 0; 2; 0; 0; 0; 98; 99; 0; 0; 20; 0;
   0; 0; 97; 32; 108; 111; 110; 103; 32; 110; 97; 109; 101; 44; 32; 116; 111; 32; 98; 101; 32;
   108; 0; 0; 0; 0; 0; 0; 0; 0].

(** A [File] without a name *)
Definition file_bytes : list byte := map z2b
  [12; 0; 0; 0; 8; 0; 16; 0; 8; 0; 0; 0; 8; 0; 0; 0; 0; 0; 0; 0; 3; 0; 0; 0; 0; 0; 0; 0; 0; 0;
   0; 0].

(** An [Opt] without its note *)
Definition opt_bytes : list byte := map z2b
  [16; 0; 0; 0; 0; 0; 0; 0; 0; 0; 6; 0; 4; 0; 0; 0; 6; 0; 0; 0].

(** A [Num] without its number *)
Definition num_bytes : list byte := map z2b
  [12; 0; 0; 0; 0; 0; 6; 0; 4; 0; 0; 0; 6; 0; 0; 0].

(** A [Dir] without files *)
Definition nodir_bytes : list byte := map z2b
  [12; 0; 0; 0; 0; 0; 6; 0; 4; 0; 0; 0; 6; 0; 0; 0].

(** A [Spot] *)
Definition spot_bytes : list byte := map z2b
  [12; 0; 0; 0; 0; 0; 6; 0; 12; 0; 4; 0; 6; 0; 0; 0; 1; 0; 0; 0; 2; 0; 0; 0].

(** A [Hold] whose body is of a third, unknown type *)
Definition hold_bytes : list byte := map z2b
  [12; 0; 0; 0; 8; 0; 12; 0; 4; 0; 8; 0; 8; 0; 0; 0; 3; 0; 0; 0; 12; 0; 0; 0; 0; 0; 6; 0; 8; 0;
   4; 0; 6; 0; 0; 0; 42; 0; 0; 0].

(** A [Texts] with two strings *)
Definition texts_bytes : list byte := map z2b
  [12; 0; 0; 0; 0; 0; 6; 0; 8; 0; 4; 0; 6; 0; 0; 0; 4; 0; 0; 0; 2; 0; 0; 0; 8; 0; 0; 0; 12; 0;
   0; 0; 1; 0; 0; 0; 97; 0; 0; 0; 2; 0; 0; 0; 98; 99; 0; 0].

(** Two roots [Num], one after the other *)
Definition pair_bytes : list byte := map z2b
  [16; 0; 0; 0; 0; 0; 0; 0; 0; 0; 6; 0; 16; 0; 8; 0; 6; 0; 0; 0; 0; 0; 0; 0; 77; 0; 0; 0; 0; 0;
   0; 0; 16; 0; 0; 0; 0; 0; 0; 0; 0; 0; 6; 0; 16; 0; 8; 0; 6; 0; 0; 0; 0; 0; 0; 0; 77; 0; 0; 0;
   0; 0; 0; 0].

(** A [Flag] without padding behind it *)
Definition flag_bytes : list byte := map z2b
  [12; 0; 0; 0; 0; 0; 6; 0; 5; 0; 4; 0; 6; 0; 0; 0; 1].

(** A [Pack] whose note begins where the empty vector of files ends *)
Definition pack_bytes : list byte := map z2b
  [12; 0; 0; 0; 8; 0; 12; 0; 4; 0; 8; 0; 8; 0; 0; 0; 16; 0; 0; 0; 16; 0; 0; 0; 0; 0; 6; 0; 8; 0;
   4; 0; 0; 0; 0; 0; 10; 0; 0; 0; 42; 0; 0; 0].

Definition mem (l : list byte) : base := new_base (gs_of l).

(** The value stored as the root of the buffer. *)
Definition root_val (l : list byte) (name : string) : option val :=
  match uint_at l 0 4 with Some p => decode l (lookup sch) 9 name p | None => None end.

Definition root_len (l : list byte) (name : string) : res Z :=
  do c <- root_node reg (mem l) name; node_len reg (mem l) 20 c.

(** ** C72: sizes *)

Theorem C72_info_partial : forall n b s name p v sz, flat b -> describes n s ->
  stored_table (img_bytes (sl_data (b_bytes b))) s name p v -> measured v ->
  exists k, forall f, (k <= f)%nat ->
    node_info n b f (new_node n (Some (p, sz)) no_vinfo name) = Ok (mkV p (reach v - p) 0).
Proof. exact (fun n b s name p v sz HF HD => measured_info n b s HF HD name p v sz). Qed.
Print Assumptions C72_info_partial.

Theorem C72_len_partial : forall n b s name p v, flat b -> describes n s ->
  stored_table (img_bytes (sl_data (b_bytes b))) s name p v -> measured v ->
  holds_uint (img_bytes (sl_data (b_bytes b))) 0 4 p ->
  exists c k r, root_node n b name = Ok c /\
    (forall f, (k <= f)%nat -> node_len n b f c = Ok r) /\
    r mod 8 = 0 /\ reach v <= r < reach v + 8.
Proof. exact (fun n b s name p v HF HD => measured_len n b s HF HD name p v). Qed.
Print Assumptions C72_len_partial.

(** A root with a string, a union, tables, a struct, vectors of tables, of
    numbers and of structs. *)
Example C72_case : exists v, flat (mem root_bytes) /\ describes reg (lookup sch) /\
  stored_table (img_bytes root_bytes) (lookup sch) "Root" 28 v /\ measured v /\
  holds_uint (img_bytes root_bytes) 0 4 28 /\ reach v = 222 /\
  root_len root_bytes "Root" = Ok 224.
Proof.
  eexists. split; [split; reflexivity|]. split; [exact sample_described|].
  split; [apply (decode_sound root_bytes (lookup sch) 9); vm_compute; reflexivity|].
  split; [apply measured_sound; vm_compute; reflexivity|].
  split; [apply uint_sound; vm_compute; reflexivity|]. split; vm_compute; reflexivity.
Qed.

(** The size of a vector of tables is that of its last table, even if another
    one reaches farther. *)
Theorem C72_vector_refuted : exists l p v c r, stored_table (img_bytes l) (lookup sch) "Dir" p v /\
  holds_uint (img_bytes l) 0 4 p /\ root_node reg (mem l) "Dir" = Ok c /\
  (forall f, (20 <= f)%nat -> node_len reg (mem l) f c = Ok r) /\ r < reach v.
Proof.
  exists dir_bytes, 12. do 3 eexists. split; [apply (decode_sound dir_bytes (lookup sch) 9); vm_compute; reflexivity|].
  split; [apply uint_sound; vm_compute; reflexivity|]. split; [vm_compute; reflexivity|]. split.
  - intros f Hf. apply (len_final _ _ 20 f); [exact Hf|vm_compute; reflexivity|discriminate].
  - vm_compute. reflexivity.
Qed.
Print Assumptions C72_vector_refuted.

(** A table without any of its fields has size -1. *)
Theorem C72_empty_refuted : exists l p v c r, stored_table (img_bytes l) (lookup sch) "Opt" p v /\
  holds_uint (img_bytes l) 0 4 p /\ root_node reg (mem l) "Opt" = Ok c /\
  (forall f, (20 <= f)%nat -> node_len reg (mem l) f c = Ok r) /\ r < reach v.
Proof.
  exists opt_bytes, 16. do 3 eexists. split; [apply (decode_sound opt_bytes (lookup sch) 9); vm_compute; reflexivity|].
  split; [apply uint_sound; vm_compute; reflexivity|]. split; [vm_compute; reflexivity|]. split.
  - intros f Hf. apply (len_final _ _ 20 f); [exact Hf|vm_compute; reflexivity|discriminate].
  - vm_compute. reflexivity.
Qed.
Print Assumptions C72_empty_refuted.

(** An absent number counts as if it were stored at the start of the table. *)
Theorem C72_scalar_refuted : exists l p v c r, stored_table (img_bytes l) (lookup sch) "Num" p v /\
  holds_uint (img_bytes l) 0 4 p /\ root_node reg (mem l) "Num" = Ok c /\
  (forall f, (20 <= f)%nat -> node_len reg (mem l) f c = Ok r) /\
  reach v = zlen l /\ reach v + 8 <= r.
Proof.
  exists num_bytes, 12. do 3 eexists. split; [apply (decode_sound num_bytes (lookup sch) 9); vm_compute; reflexivity|].
  split; [apply uint_sound; vm_compute; reflexivity|]. split; [vm_compute; reflexivity|]. split.
  - intros f Hf. apply (len_final _ _ 20 f); [exact Hf|vm_compute; reflexivity|discriminate].
  - vm_compute. split; [reflexivity|discriminate].
Qed.
Print Assumptions C72_scalar_refuted.

(** A table without its string has no size at all. *)
Theorem C72_string_refuted : exists l p v c, stored_table (img_bytes l) (lookup sch) "File" p v /\
  holds_uint (img_bytes l) 0 4 p /\ root_node reg (mem l) "File" = Ok c /\
  forall f, (20 <= f)%nat -> node_len reg (mem l) f c = Panic.
Proof.
  exists file_bytes, 12. do 2 eexists. split; [apply (decode_sound file_bytes (lookup sch) 9); vm_compute; reflexivity|].
  split; [apply uint_sound; vm_compute; reflexivity|]. split; [vm_compute; reflexivity|].
  intros f Hf. apply (len_final _ _ 20 f); [exact Hf|vm_compute; reflexivity|discriminate].
Qed.
Print Assumptions C72_string_refuted.

(** The strings of a vector of strings do not count: the string found through
    the second slot lies behind the length. *)
Theorem C72_strings_refuted : exists l c r q k p, root_node reg (mem l) "Texts" = Ok c /\
  vector_from (img_bytes l) 16 q 2 /\ vector_from (img_bytes l) (q + 4) p k /\
  (forall f, (20 <= f)%nat -> node_len reg (mem l) f c = Ok r) /\ r <= p /\ 0 < k.
Proof.
  exists texts_bytes. eexists. exists 24, 24, 2, 44.
  split; [vm_compute; reflexivity|].
  split; [split; [split; [discriminate|apply uint_sound; vm_compute; reflexivity]|apply uint_sound; vm_compute; reflexivity]|].
  split; [split; [split; [discriminate|apply uint_sound; vm_compute; reflexivity]|apply uint_sound; vm_compute; reflexivity]|].
  split; [|split; [discriminate|reflexivity]].
  intros f Hf. apply (len_final _ _ 20 f); [exact Hf|vm_compute; reflexivity|discriminate].
Qed.
Print Assumptions C72_strings_refuted.

(** ** C73: traversal *)

Theorem C73_traverse_partial : forall n b s name p v sz, flat b -> describes n s ->
  stored_table (img_bytes (sl_data (b_bytes b))) s name p v -> traversable v ->
  exists k, forall f, (k <= f)%nat -> exists xs,
    traverse n b f (new_node n (Some (p, sz)) no_vinfo name) = Ok xs /\
    map (fun x => (x_parent x, x_idx x, x_child x, x_size x)) xs = sightings v.
Proof. exact (fun n b s name p v sz HF HD => traversal n b s HF HD name p v sz). Qed.
Print Assumptions C73_traverse_partial.

Definition doc_val : val :=
  Eval vm_compute in match root_val doc_bytes "Doc" with Some v => v | None => Absent str end.

(** A root with a string, a union, a table and vectors of tables and of
    numbers: 18 sightings. *)
Example C73_case : flat (mem doc_bytes) /\ describes reg (lookup sch) /\
  stored_table (img_bytes doc_bytes) (lookup sch) "Doc" 24 doc_val /\ traversable doc_val /\
  zlen (sightings doc_val) = 18 /\
  exists xs, traverse reg (mem doc_bytes) 20 (new_node reg (Some (24, -1)) no_vinfo "Doc") = Ok xs /\
    map (fun x => (x_parent x, x_idx x, x_child x, x_size x)) xs = sightings doc_val.
Proof.
  split; [split; reflexivity|]. split; [exact sample_described|].
  split; [apply (decode_sound doc_bytes (lookup sch) 9); vm_compute; reflexivity|].
  split; [apply traversable_sound; vm_compute; reflexivity|].
  split; [vm_compute; reflexivity|]. eexists. split; [vm_compute; reflexivity|vm_compute; reflexivity].
Qed.

(** An absent number is shown as if it were at the start of the table. *)
Theorem C73_phantom_refuted : exists l p v c xs, stored_table (img_bytes l) (lookup sch) "Num" p v /\
  root_node reg (mem l) "Num" = Ok c /\ sightings v = [] /\
  (forall f, (20 <= f)%nat -> traverse reg (mem l) f c = Ok xs) /\ xs <> [].
Proof.
  exists num_bytes, 12. do 3 eexists. split; [apply (decode_sound num_bytes (lookup sch) 9); vm_compute; reflexivity|].
  split; [vm_compute; reflexivity|]. split; [reflexivity|]. split.
  - intros f Hf. apply (traverse_final _ _ 20 f); [exact Hf|vm_compute; reflexivity|discriminate].
  - discriminate.
Qed.
Print Assumptions C73_phantom_refuted.

(** An absent vector stops the traversal with a panic. *)
Theorem C73_vector_refuted : exists l p v c, stored_table (img_bytes l) (lookup sch) "Dir" p v /\
  root_node reg (mem l) "Dir" = Ok c /\
  forall f, (20 <= f)%nat -> traverse reg (mem l) f c = Panic.
Proof.
  exists nodir_bytes, 12. do 2 eexists. split; [apply (decode_sound nodir_bytes (lookup sch) 9); vm_compute; reflexivity|].
  split; [vm_compute; reflexivity|].
  intros f Hf. apply (traverse_final _ _ 20 f); [exact Hf|vm_compute; reflexivity|discriminate].
Qed.
Print Assumptions C73_vector_refuted.

(** Both members of a struct are shown at the same place. *)
Theorem C73_struct_refuted : exists l p v c xs, stored_table (img_bytes l) (lookup sch) "Spot" p v /\
  root_node reg (mem l) "Spot" = Ok c /\
  (forall f, (20 <= f)%nat -> traverse reg (mem l) f c = Ok xs) /\
  map place_of (sightings v) = [16; 16; 20] /\ map x_child xs = [16; 16; 16].
Proof.
  exists spot_bytes, 12. do 3 eexists. split; [apply (decode_sound spot_bytes (lookup sch) 9); vm_compute; reflexivity|].
  split; [vm_compute; reflexivity|]. split.
  - intros f Hf. apply (traverse_final _ _ 20 f); [exact Hf|vm_compute; reflexivity|discriminate].
  - split; reflexivity.
Qed.
Print Assumptions C73_struct_refuted.

(** ** C74: unions *)

Theorem C74_union : forall n b s name p fs tys i us v sz, flat b -> describes n s ->
  stored_table (img_bytes (sl_data (b_bytes b))) s name p (Tab name p fs) ->
  s name = Some tys -> zget tys i = Some (TyUnion us) -> zget fs i = Some v ->
  let c := new_node n (Some (p, sz)) no_vinfo name in
  match v with
  | Tab tn q _ => In tn us /\ can_follow n b c i = Ok true /\
                  follow_union n b c i = Ok (Some (new_node n (Some (q, -1)) no_vinfo tn))
  | _ => can_follow n b c i = Ok false /\ follow_union n b c i = Ok None
  end.
Proof. exact (fun n b s name p fs tys i us v sz HF HD => union_found n b s HF HD name p fs tys i us v sz). Qed.
Print Assumptions C74_union.

(** The body of the document is its first member, a file; that of the root its
    second, a note. *)
Example C74_case : exists fs gs, root_val doc_bytes "Doc" = Some (Tab "Doc" 24 fs) /\
  root_val root_bytes "Root" = Some (Tab "Root" 28 gs) /\
  (exists hs, zget fs 3 = Some (Tab "File" 76 hs)) /\ (exists hs, zget gs 3 = Some (Tab "Note" 88 hs)) /\
  follow_union reg (mem doc_bytes) (new_node reg (Some (24, -1)) no_vinfo "Doc") 3 =
    Ok (Some (new_node reg (Some (76, -1)) no_vinfo "File")) /\
  follow_union reg (mem root_bytes) (new_node reg (Some (28, -1)) no_vinfo "Root") 3 =
    Ok (Some (new_node reg (Some (88, -1)) no_vinfo "Note")).
Proof.
  do 2 eexists. split; [vm_compute; reflexivity|]. split; [vm_compute; reflexivity|].
  split; [eexists; reflexivity|]. split; [eexists; reflexivity|]. split; vm_compute; reflexivity.
Qed.

(** ** C75: fields and members *)

Theorem C75_field : forall n b s name p fs i v sz, flat b -> describes n s ->
  stored_table (img_bytes (sl_data (b_bytes b))) s name p (Tab name p fs) -> zget fs i = Some v ->
  exists f, field_at n b (new_node n (Some (p, sz)) no_vinfo name) i = Ok f /\ stands_for f v.
Proof. exact (fun n b s name p fs i v sz HF HD => field_found n b s HF HD name p fs i v sz). Qed.
Print Assumptions C75_field.

Theorem C75_member : forall n b sn ms p sz i t, struct_described n sn ms -> zget ms i = Some t ->
  exists f, field_at n b (new_node n (Some (p, sz)) no_vinfo sn) i = Ok f /\
    c_node f = Some (p + struct_size (zfirst i ms), -1).
Proof. exact member_found. Qed.
Print Assumptions C75_member.

Example C75_case : exists fs, root_val root_bytes "Root" = Some (Tab "Root" 28 fs) /\
  zget fs 0 = Some (Scalar 32 4) /\ zget fs 1 = Some (Scalars 76 5 1) /\ zget fs 5 = Some (Struct 52 vec) /\
  zget fs 6 = Some (Scalars 100 3 4) /\ zget fs 8 = Some (Absent (TyTable "Note")) /\
  zget fs 9 = Some (Structs 132 2 vec) /\ struct_described reg "Vec" vec /\
  exists f g, field_at reg (mem root_bytes) (new_node reg (Some (28, -1)) no_vinfo "Root") 5 = Ok f /\
    field_at reg (mem root_bytes) f 1 = Ok g /\ c_node g = Some (56, -1).
Proof.
  eexists. split; [vm_compute; reflexivity|]. repeat (split; [reflexivity|]). split.
  - pose proof sample_described "Spot" _ eq_refl as (_ & _ & l & L & H).
    destruct (H 0 (TyStruct "Vec" vec) eq_refl) as (typ & g & _ & _ & F). exact (proj2 (proj2 F)).
  - do 2 eexists. split; [vm_compute; reflexivity|]. split; vm_compute; reflexivity.
Qed.

(** ** C76: elements of vectors *)

Theorem C76_elements_partial : forall n b s name p fs i v sz, flat b -> describes n s ->
  stored_table (img_bytes (sl_data (b_bytes b))) s name p (Tab name p fs) -> zget fs i = Some v ->
  exists f, field_at n b (new_node n (Some (p, sz)) no_vinfo name) i = Ok f /\
    match v with
    | Scalars q k w => forall j, (0 <= j < k -> exists e, vec_at n b f j = Ok (Some e) /\ c_node e = Some (q + j * w, -1)) /\
                                 (~ 0 <= j < k -> vec_at n b f j = Ok None)
    | Structs q k ms => forall j, (0 <= j < k -> exists e, vec_at n b f j = Ok (Some e) /\
                                     c_node e = Some (q + j * struct_size ms, -1)) /\
                                  (~ 0 <= j < k -> vec_at n b f j = Ok None)
    | Tabs tn q es => (forall j x, zget es j = Some x ->
                         vec_at n b f j = Ok (Some (new_node n (Some (val_pos x, -1)) no_vinfo tn))) /\
                      (forall j, ~ 0 <= j < zlen es -> vec_at n b f j = Ok None)
    | _ => True
    end.
Proof. exact (fun n b s name p fs i v sz HF HD => elements_found n b s HF HD name p fs i v sz). Qed.
Print Assumptions C76_elements_partial.

Example C76_case : exists fs es, root_val root_bytes "Root" = Some (Tab "Root" 28 fs) /\
  zget fs 4 = Some (Tabs "File" 152 es) /\ map val_pos es = [168; 200] /\
  exists f g, field_at reg (mem root_bytes) (new_node reg (Some (28, -1)) no_vinfo "Root") 4 = Ok f /\
    vec_at reg (mem root_bytes) f 1 = Ok (Some (new_node reg (Some (200, -1)) no_vinfo "File")) /\
    vec_at reg (mem root_bytes) f 2 = Ok None /\
    field_at reg (mem root_bytes) (new_node reg (Some (28, -1)) no_vinfo "Root") 9 = Ok g /\
    exists e, vec_at reg (mem root_bytes) g 1 = Ok (Some e) /\ c_node e = Some (140, -1).
Proof.
  do 2 eexists. split; [vm_compute; reflexivity|]. split; [reflexivity|]. split; [reflexivity|].
  do 2 eexists. split; [vm_compute; reflexivity|]. split; [vm_compute; reflexivity|]. split; [vm_compute; reflexivity|].
  split; [vm_compute; reflexivity|]. eexists. split; [vm_compute; reflexivity|vm_compute; reflexivity].
Qed.

(** All elements of a vector of strings are found at its start. *)
Theorem C76_strings_refuted : exists l c f e0 e1 q,
  root_node reg (mem l) "Texts" = Ok c /\ field_at reg (mem l) c 0 = Ok f /\
  vector_from (img_bytes l) 16 q 2 /\
  vec_at reg (mem l) f 0 = Ok (Some e0) /\ vec_at reg (mem l) f 1 = Ok (Some e1) /\
  c_node e0 = Some (q, -1) /\ c_node e1 = Some (q, -1).
Proof.
  exists texts_bytes. do 4 eexists. exists 24. split; [vm_compute; reflexivity|]. split; [vm_compute; reflexivity|].
  split; [split; [split; [discriminate|apply uint_sound; vm_compute; reflexivity]|apply uint_sound; vm_compute; reflexivity]|].
  split; [vm_compute; reflexivity|]. split; [vm_compute; reflexivity|]. split; reflexivity.
Qed.
Print Assumptions C76_strings_refuted.

(** ** C77: successive roots *)

(** [HasNext] is false for a root that is alone, but also for one that is
    followed by another. *)
Theorem C77_has_next_partial : forall n b s name p v, flat b -> describes n s ->
  stored_table (img_bytes (sl_data (b_bytes b))) s name p v -> measured v ->
  holds_uint (img_bytes (sl_data (b_bytes b))) 0 4 p ->
  reach v <= len_buf b -> len_buf b mod 4 = 0 ->
  exists c k, root_node n b name = Ok c /\ forall f, (k <= f)%nat -> has_next n b f c = Ok false.
Proof. exact (fun n b s name p v HF HD => no_next n b s HF HD name p v). Qed.
Print Assumptions C77_has_next_partial.

Example C77_has_next_case : exists v, stored_table (img_bytes root_bytes) (lookup sch) "Root" 28 v /\ measured v /\
  reach v <= len_buf (mem root_bytes) /\ len_buf (mem root_bytes) mod 4 = 0 /\
  exists c, root_node reg (mem root_bytes) "Root" = Ok c /\ has_next reg (mem root_bytes) 20 c = Ok false.
Proof.
  eexists. split; [apply (decode_sound root_bytes (lookup sch) 9); vm_compute; reflexivity|].
  split; [apply measured_sound; vm_compute; reflexivity|].
  split; [vm_compute; discriminate|]. split; [vm_compute; reflexivity|]. eexists. split; [vm_compute; reflexivity|vm_compute; reflexivity].
Qed.

Theorem C77_has_next_refuted : exists l r v, 
  stored_table (img_bytes l) (lookup sch) "Num" 16 v /\ holds_uint (img_bytes l) 0 4 16 /\
  root_len l "Num" = Ok r /\ holds_uint (img_bytes l) r 4 16 /\
  (exists v', stored_table (img_bytes l) (lookup sch) "Num" (r + 16) v') /\
  exists c, root_node reg (mem l) "Num" = Ok c /\
    forall f, (20 <= f)%nat -> has_next reg (mem l) f c = Ok false.
Proof.
  exists pair_bytes, 32. eexists. split; [apply (decode_sound pair_bytes (lookup sch) 9); vm_compute; reflexivity|].
  split; [apply uint_sound; vm_compute; reflexivity|]. split; [vm_compute; reflexivity|].
  split; [apply uint_sound; vm_compute; reflexivity|].
  split; [eexists; apply (decode_sound pair_bytes (lookup sch) 9); vm_compute; reflexivity|].
  eexists. split; [vm_compute; reflexivity|]. intros f Hf. unfold has_next.
  rewrite (len_final reg (mem pair_bytes) 20 f _ (Ok 32) Hf); [vm_compute; reflexivity|vm_compute; reflexivity|discriminate].
Qed.
Print Assumptions C77_has_next_refuted.

(** [HasNext] is true for a root that fills the buffer, if the buffer is not
    padded. *)
Theorem C77_alone_refuted : exists l p v c, stored_table (img_bytes l) (lookup sch) "Flag" p v /\
  holds_uint (img_bytes l) 0 4 p /\ reach v = zlen l /\ root_node reg (mem l) "Flag" = Ok c /\
  forall f, (20 <= f)%nat -> has_next reg (mem l) f c = Ok true.
Proof.
  exists flag_bytes, 12. do 2 eexists. split; [apply (decode_sound flag_bytes (lookup sch) 9); vm_compute; reflexivity|].
  split; [apply uint_sound; vm_compute; reflexivity|]. split; [vm_compute; reflexivity|].
  split; [vm_compute; reflexivity|]. intros f Hf. unfold has_next.
  rewrite (len_final reg (mem flag_bytes) 20 f _ (Ok 24) Hf); [vm_compute; reflexivity|vm_compute; reflexivity|discriminate].
Qed.
Print Assumptions C77_alone_refuted.

(** On a buffer without a reader [Next] never gets anywhere: it returns the
    same root or panics. *)
Theorem C77_next_stays : forall n b f c nb c', root_next n b f (memory_next b) c = Ok (nb, c') ->
  nb = b /\ c' = c.
Proof. exact next_stays. Qed.
Print Assumptions C77_next_stays.

(** It panics although another root follows; it returns the same root if the
    root seems to be longer than the buffer. *)
Example C77_next_case :
  (exists c, root_node reg (mem pair_bytes) "Num" = Ok c /\
     root_next reg (mem pair_bytes) 20 (memory_next (mem pair_bytes)) c = Panic) /\
  (exists c, root_node reg (mem flag_bytes) "Flag" = Ok c /\
     root_next reg (mem flag_bytes) 20 (memory_next (mem flag_bytes)) c = Ok (mem flag_bytes, c)).
Proof. split; (eexists; split; [vm_compute; reflexivity|vm_compute; reflexivity]). Qed.

(** Even if the rest of the buffer is handed over, the new root has no name, so
    it has no fields to be measured by and its own [Next] is lost. *)
Theorem C77_next_refuted : exists l r c nb c',
  root_len l "Num" = Ok r /\ root_node reg (mem l) "Num" = Ok c /\
  root_next reg (mem l) 20 (fun z => Ok (mem (zskip z l))) c = Ok (nb, c') /\
  (exists v, stored_table (img_bytes (sl_data (b_bytes nb))) (lookup sch) "Num" 16 v /\
     measured v) /\
  c_node c' = Some (16, -1) /\
  forall f, (20 <= f)%nat -> node_len reg nb f c' = Panic.
Proof.
  exists pair_bytes, 32. do 3 eexists. split; [vm_compute; reflexivity|]. split; [vm_compute; reflexivity|].
  split; [vm_compute; reflexivity|]. split.
  - eexists. split; [apply (decode_sound _ (lookup sch) 9); vm_compute; reflexivity|].
    apply measured_sound; vm_compute; reflexivity.
  - split; [reflexivity|].
    intros f Hf. apply (len_final _ _ 20 f); [exact Hf|vm_compute; reflexivity|discriminate].
Qed.
Print Assumptions C77_next_refuted.

(** ** C78: trees *)

Theorem C78_trees_partial : forall n b s name p v sz, flat b -> describes n s ->
  stored_table (img_bytes (sl_data (b_bytes b))) s name p v -> traversable v ->
  exists k, forall f, (k <= f)%nat -> exists ts ps,
    all_tree n b f (new_node n (Some (p, sz)) no_vinfo name) = Ok (ts, ps) /\
    Forall2 (fun t q => exists c, t = Some c /\ stands_at c q) ts (p :: map place_of (sightings v)) /\
    Forall2 (fun q o => exists j, o = Some (Z.of_nat j) /\
        nth_error (p :: map place_of (sightings v)) j = Some q /\
        forall i, (i < j)%nat -> nth_error (p :: map place_of (sightings v)) i <> Some q)
      (map owner_of (sightings v)) ps.
Proof. exact (fun n b s name p v sz HF HD => trees_found n b s HF HD name p v sz). Qed.
Print Assumptions C78_trees_partial.

Example C78_case : stored_table (img_bytes doc_bytes) (lookup sch) "Doc" 24 doc_val /\ traversable doc_val /\
  exists ts ps, all_tree reg (mem doc_bytes) 20 (new_node reg (Some (24, -1)) no_vinfo "Doc") = Ok (ts, ps) /\
    zlen ts = 19 /\ firstn 7 ps = [Some 0; Some 0; Some 0; Some 0; Some 4; Some 4; Some 0].
Proof.
  split; [apply (decode_sound doc_bytes (lookup sch) 9); vm_compute; reflexivity|].
  split; [apply traversable_sound; vm_compute; reflexivity|].
  do 2 eexists. split; [vm_compute; reflexivity|]. split; vm_compute; reflexivity.
Qed.

(** Trees are told apart by position only: a table that begins where an empty
    vector ends loses its fields to the vector. *)
Theorem C78_parent_refuted : exists l v ts ps j c,
  stored_table (img_bytes l) (lookup sch) "Pack" 12 v /\ traversable v /\
  (exists q, v = Tab "Pack" 12 [Tabs "File" q []; Tab "Note" q [Scalar (q + 4) 4]]) /\
  all_tree reg (mem l) 20 (new_node reg (Some (12, -1)) no_vinfo "Pack") = Ok (ts, ps) /\
  zget ps 2 = Some (Some j) /\ zget ts j = Some (Some c) /\ c_name c = "[]File".
Proof.
  exists pack_bytes. do 3 eexists. exists 1. eexists.
  split; [apply (decode_sound pack_bytes (lookup sch) 9); vm_compute; reflexivity|].
  split; [apply traversable_sound; vm_compute; reflexivity|].
  split; [exists 36; reflexivity|]. split; [vm_compute; reflexivity|].
  split; [vm_compute; reflexivity|]. split; vm_compute; reflexivity.
Qed.
Print Assumptions C78_parent_refuted.

(** ** C79: unions of a newer schema *)

(** A type byte beyond the members known makes [Len] panic. *)
Theorem C79_unknown_refuted : exists l c, root_node reg (mem l) "Hold" = Ok c /\
  (exists soff tl, table_at (img_bytes l) 12 soff [4; 8] tl) /\
  holds_uint (img_bytes l) 16 1 3 /\ lookup (n_unions reg) "Body" = Some ["File"; "Note"] /\
  forall f, (20 <= f)%nat -> node_len reg (mem l) f c = Panic.
Proof.
  exists hold_bytes. eexists. split; [vm_compute; reflexivity|].
  split; [do 2 eexists; apply (header_sound hold_bytes 12 2); vm_compute; reflexivity|].
  split; [apply uint_sound; vm_compute; reflexivity|]. split; [vm_compute; reflexivity|].
  intros f Hf. apply (len_final _ _ 20 f); [exact Hf|vm_compute; reflexivity|discriminate].
Qed.
Print Assumptions C79_unknown_refuted.

(** The traversal passes over the union and shows only its type. *)
Example C79_traversal : exists c xs, root_node reg (mem hold_bytes) "Hold" = Ok c /\
  traverse reg (mem hold_bytes) 20 c = Ok xs /\ map x_child xs = [16].
Proof. do 2 eexists. split; [vm_compute; reflexivity|]. split; [vm_compute; reflexivity|]. reflexivity. Qed.
