(** Property theorems about filling Go structs (C102). *)
From Coq Require Import ZArith List Bool String.
From Coq Require Import Strings.Byte.
From Verif Require Import GoLib BaseModel BaseSpec TableModel TableSpec NameModel NameSpec StreamModel
  WalkModel WalkSpec WalkProofs4 WalkProofs6 WalkProps UnmarshalModel UnmarshalSpec UnmarshalProofs UnmarshalProofs2.
Import ListNotations.
Open Scope string_scope.
Open Scope list_scope.
Open Scope Z_scope.

(** ** C102: a Go struct is filled from a table or struct *)

(** Missing: Go fields with the names of strings that are not there and of
    vectors of longer numbers, or of another type, where the code panics (see
    below), and buffers with a journal. *)
Theorem C102_table_partial : forall n b s name p sz tys vs l fs, flat b -> describes n s ->
  stored_table (img_bytes (sl_data (b_bytes b))) s name p (Tab name p vs) -> s name = Some tys ->
  field_names n name l -> zlen l = zlen tys -> Forall (fits n name tys vs l) fs ->
  exists fs', unmarshal n b (new_node n (Some (p, sz)) no_vinfo name) (PStruct fs) = Ok (Filled fs') /\
    Forall2 (received (img_bytes (sl_data (b_bytes b))) tys vs l) fs fs'.
Proof. exact (fun n b s name p sz tys vs l fs HF HD => fill_table n b s HF HD name p sz tys vs l fs). Qed.
Print Assumptions C102_table_partial.

Definition doc_names : list string := ["Version"; "Name"; "BodyType"; "Body"; "Files"; "Nums"; "Main"; "Other"].
Definition doc_tys : list ty :=
  Eval vm_compute in match lookup sch "Doc" with Some l => l | None => [] end.
Definition doc_vals : list val :=
  Eval vm_compute in match root_val doc_bytes "Doc" with Some (Tab _ _ vs) => vs | _ => [] end.

Definition old : gval := VOther 0.

(** Go fields without a tag, with the tags of numbers, a string, a union, a
    table and no field at all. *)
Definition doc_struct : list gfield :=
  [mkG None false GOther old; mkG (Some "BodyType") true (GNum SUint8) old; mkG (Some "Version") true GAny old;
   mkG (Some "Name") true GBytes old; mkG (Some "Body") false GOther old; mkG (Some "Main") true GOther old;
   mkG (Some "Size") true (GNum SInt32) old; mkG (Some "Version") true (GNum SInt32) old].

Example C102_table_case : flat (mem doc_bytes) /\ describes reg (lookup sch) /\
  stored_table (img_bytes doc_bytes) (lookup sch) "Doc" 24 (Tab "Doc" 24 doc_vals) /\
  lookup sch "Doc" = Some doc_tys /\ field_names reg "Doc" doc_names /\ zlen doc_names = zlen doc_tys /\
  Forall (fits reg "Doc" doc_tys doc_vals doc_names) doc_struct /\
  unmarshal reg (mem doc_bytes) (new_node reg (Some (24, -1)) no_vinfo "Doc") (PStruct doc_struct) =
  Ok (Filled [mkG None false GOther old; mkG (Some "BodyType") true (GNum SUint8) (VNum SByte 1);
    mkG (Some "Version") true GAny (VNum SInt32 7);
    mkG (Some "Name") true GBytes (VBytes (map z2b [104; 101; 108; 108; 111]));
    mkG (Some "Body") false GOther old; mkG (Some "Main") true GOther old;
    mkG (Some "Size") true (GNum SInt32) old; mkG (Some "Version") true (GNum SInt32) (VNum SInt32 7)]).
Proof.
  split; [split; reflexivity|]. split; [exact sample_described|].
  split; [apply (decode_sound doc_bytes (lookup sch) 9); vm_compute; reflexivity|]. split; [reflexivity|].
  assert (N : field_names reg "Doc" doc_names) by (apply names_sound; vm_compute; reflexivity).
  split; [exact N|]. split; [reflexivity|]. split; [apply (fits_sound _ _ _ _ _ _ N); vm_compute; reflexivity|].
  vm_compute. reflexivity.
Qed.

(** A number that is not there becomes 0. *)
Example C102_absent_case :
  stored_table (img_bytes num_bytes) (lookup sch) "Num" 12 (Tab "Num" 12 [Absent (TyScalar SInt64)]) /\
  unmarshal reg (mem num_bytes) (new_node reg (Some (12, -1)) no_vinfo "Num")
    (PStruct [mkG (Some "N") true (GNum SInt64) old]) =
  Ok (Filled [mkG (Some "N") true (GNum SInt64) (VNum SInt64 0)]).
Proof.
  split; [apply (decode_sound num_bytes (lookup sch) 9); vm_compute; reflexivity|vm_compute; reflexivity].
Qed.

(** The same for a struct; missing: structs with members that are structs. *)
Theorem C102_struct_partial : forall n b name ms p sz l fs, flat b ->
  struct_described n name ms -> members_described n name ms ->
  0 <= p -> occupied (img_bytes (sl_data (b_bytes b))) p (struct_size ms) ->
  field_names n name l -> zlen l = zlen ms ->
  Forall (fits n name (map TyScalar ms) (member_vals p ms) l) fs ->
  exists fs', unmarshal n b (new_node n (Some (p, sz)) no_vinfo name) (PStruct fs) = Ok (Filled fs') /\
    Forall2 (received (img_bytes (sl_data (b_bytes b))) (map TyScalar ms) (member_vals p ms) l) fs fs'.
Proof. exact (fun n b name ms p sz l fs HF => fill_struct n b HF name ms p sz l fs). Qed.
Print Assumptions C102_struct_partial.

Definition vec_struct : list gfield :=
  [mkG (Some "Y") true (GNum SInt32) old; mkG (Some "X") true GAny old; mkG (Some "Z") true (GNum SInt32) old].

Example C102_struct_case : flat (mem spot_bytes) /\ struct_described reg "Vec" vec /\
  members_described reg "Vec" vec /\ occupied (img_bytes spot_bytes) 16 (struct_size vec) /\
  field_names reg "Vec" ["X"; "Y"] /\
  Forall (fits reg "Vec" (map TyScalar vec) (member_vals 16 vec) ["X"; "Y"]) vec_struct /\
  unmarshal reg (mem spot_bytes) (new_node reg (Some (16, -1)) no_vinfo "Vec") (PStruct vec_struct) =
  Ok (Filled [mkG (Some "Y") true (GNum SInt32) (VNum SInt32 2); mkG (Some "X") true GAny (VNum SInt32 1);
              mkG (Some "Z") true (GNum SInt32) old]).
Proof.
  split; [split; reflexivity|]. split; [apply struct_sound; vm_compute; reflexivity|].
  split; [apply members_sound; vm_compute; reflexivity|]. split; [apply occupied_sound; vm_compute; reflexivity|].
  assert (N : field_names reg "Vec" ["X"; "Y"]) by (apply names_sound; vm_compute; reflexivity).
  split; [exact N|]. split; [apply (fits_sound _ _ _ _ _ _ N); vm_compute; reflexivity|vm_compute; reflexivity].
Qed.

(** No error is ever given for a Go struct, only for other arguments. *)
Theorem C102_errors : forall n b c t o, unmarshal n b c t = Ok o ->
  match t with
  | NoPointer => o = MustPointer
  | Pointer => o = InvalidType
  | PStruct fs => exists fs', o = Filled fs'
  end.
Proof. exact outcomes. Qed.
Print Assumptions C102_errors.

Example C102_errors_case :
  unmarshal reg (mem num_bytes) (new_node reg (Some (12, -1)) no_vinfo "Num") NoPointer = Ok MustPointer /\
  unmarshal reg (mem num_bytes) (new_node reg (Some (12, -1)) no_vinfo "Num") Pointer = Ok InvalidType.
Proof. split; reflexivity. Qed.

(** A Go field of the wrong type or one that is not exported is no error
    either: the code panics. *)
Theorem C102_type_refuted : exists p vs, stored_table (img_bytes doc_bytes) (lookup sch) "Doc" p (Tab "Doc" p vs) /\
  unmarshal reg (mem doc_bytes) (new_node reg (Some (p, -1)) no_vinfo "Doc")
    (PStruct [mkG (Some "Version") true (GNum SInt64) old]) = Panic /\
  unmarshal reg (mem doc_bytes) (new_node reg (Some (p, -1)) no_vinfo "Doc")
    (PStruct [mkG (Some "Version") false (GNum SInt32) old]) = Panic /\
  unmarshal reg (mem doc_bytes) (new_node reg (Some (p, -1)) no_vinfo "Doc")
    (PStruct [mkG (Some "Name") true GOther old]) = Panic /\
  unmarshal reg (mem doc_bytes) (new_node reg (Some (p, -1)) no_vinfo "Doc")
    (PStruct [mkG (Some "Name") false GBytes old]) = Panic.
Proof.
  exists 24, doc_vals. split; [apply (decode_sound doc_bytes (lookup sch) 9); vm_compute; reflexivity|].
  repeat split; vm_compute; reflexivity.
Qed.
Print Assumptions C102_type_refuted.

(** The tag of a vector of numbers makes the code panic, whatever the type of
    the Go field: a node has no method with the name of the vector. *)
Theorem C102_vector_refuted : exists p vs, stored_table (img_bytes doc_bytes) (lookup sch) "Doc" p (Tab "Doc" p vs) /\
  forall e t v, unmarshal reg (mem doc_bytes) (new_node reg (Some (p, -1)) no_vinfo "Doc")
    (PStruct [mkG (Some "Nums") e t v]) = Panic.
Proof.
  exists 24, doc_vals. split; [apply (decode_sound doc_bytes (lookup sch) 9); vm_compute; reflexivity|].
  intros e t v. vm_compute. reflexivity.
Qed.
Print Assumptions C102_vector_refuted.

(** So does the tag of a string that is not there. *)
Theorem C102_string_refuted : exists p vs, stored_table (img_bytes file_bytes) (lookup sch) "File" p (Tab "File" p vs) /\
  zget vs 1 = Some (Absent (TyScalars SByte)) /\
  forall e t v, unmarshal reg (mem file_bytes) (new_node reg (Some (p, -1)) no_vinfo "File")
    (PStruct [mkG (Some "Name") e t v]) = Panic.
Proof.
  exists 12. eexists. split; [apply (decode_sound file_bytes (lookup sch) 9); vm_compute; reflexivity|].
  split; [reflexivity|]. intros e t v. vm_compute. reflexivity.
Qed.
Print Assumptions C102_string_refuted.

(** A number registered as [Uint8] is not a number to the registry, so that the
    Go field keeps its value although the byte is there. *)
Definition small_reg : names :=
  match run_steps no_names (IStruct "Small" false :: fields "Small" [("N", "Uint8")]) with
  | Ok n => match apply_requests n with Ok n' => n' | _ => no_names end
  | _ => no_names
  end.

Definition small_bytes : list byte := map z2b [12; 0; 0; 0; 0; 0; 6; 0; 8; 0; 4; 0; 6; 0; 0; 0; 200; 0; 0; 0].

Theorem C102_uint8_refuted : exists p, field_names small_reg "Small" ["N"] /\ typed small_reg "Small" 0 SUint8 /\
  stored_table (img_bytes small_bytes) (fun s => if String.eqb s "Small" then Some [TyScalar SUint8] else None)
    "Small" p (Tab "Small" p [Scalar 16 1]) /\
  forall v, unmarshal small_reg (mem small_bytes) (new_node small_reg (Some (p, -1)) no_vinfo "Small")
    (PStruct [mkG (Some "N") true (GNum SUint8) v]) = Ok (Filled [mkG (Some "N") true (GNum SUint8) v]).
Proof.
  exists 12. split; [apply names_sound; vm_compute; reflexivity|].
  split; [eexists; split; vm_compute; reflexivity|].
  split; [apply (decode_sound small_bytes _ 9); vm_compute; reflexivity|]. intros v. vm_compute. reflexivity.
Qed.
Print Assumptions C102_uint8_refuted.
