(** Property theorems about filling Go structs through a journal (C113). *)
From Coq Require Import ZArith List Bool String.
From Coq Require Import Strings.Byte.
From Verif Require Import GoLib BaseModel BaseSpec TableModel TableSpec NameModel NameSpec StreamModel
  WalkModel WalkSpec WalkProofs4 WalkProofs6 WalkProps InsModel InsSpec BuildModel PutModel PutSpec JourSpec JourProofs10
  ElemModel ElemSpec DocModel DocSpec UnmarshalModel UnmarshalSpec UnmarshalProofs2 FillSpec FillProofs.
From Verif Require Import InsProps PutProps JourProps ElemProps SortProps DocProps UnmarshalProps.
From Verif Require Import UnmarshalSpec.
Import ListNotations.
Open Scope string_scope.
Open Scope list_scope.
Open Scope Z_scope.

(** ** C113: filling a Go struct from a buffer with a journal *)

(** Missing: what C102 leaves out, and values put together from several places,
    where the code loses updates or panics (see below). *)
Theorem C113_table_partial : forall n b s m name p sz tys vs l fs, in_memory b -> shows b m -> describes n s ->
  stored_table m s name p (Tab name p vs) -> intact b m (Tab name p vs) -> s name = Some tys ->
  field_names n name l -> zlen l = zlen tys -> Forall (fits n name tys vs l) fs -> Forall (in_reach b vs l) fs ->
  exists fs', unmarshal n b (new_node n (Some (p, sz)) no_vinfo name) (PStruct fs) = Ok (Filled fs') /\
    Forall2 (received m tys vs l) fs fs'.
Proof. exact (fun n b s m name p sz tys vs l fs HB HM HD => fill_table_j n b s m HB HM HD name p sz tys vs l fs). Qed.
Print Assumptions C113_table_partial.

(** The sample after five calls: the file listed first is the one that got the
    number 10, and the one listed second is the one that was put in. *)
Definition file_struct : list gfield := [mkG (Some "Id") true (GNum SUint64) old; mkG (Some "Name") true GBytes old].
Definition file_tys : list ty := Eval vm_compute in match lookup sch "File" with Some l => l | None => [] end.
Definition file_vals : list val := [Scalar 188 8; Scalars 200 2 1].
Definition file_names : list string := ["Id"; "Name"].

Definition done_bytes : list byte := Eval vm_compute in flat_bytes done_base.

Example C113_table_case : let m := img_bytes done_bytes in in_memory done_base /\ shows done_base m /\ describes (pkg "Doc") (lookup sch) /\
  stored_table m (lookup sch) "File" 180 (Tab "File" 180 file_vals) /\ intact done_base m (Tab "File" 180 file_vals) /\
  lookup sch "File" = Some file_tys /\ field_names (pkg "Doc") "File" file_names /\ zlen file_names = zlen file_tys /\
  Forall (fits (pkg "Doc") "File" file_tys file_vals file_names) file_struct /\
  Forall (in_reach done_base file_vals file_names) file_struct /\
  unmarshal (pkg "Doc") done_base (new_node (pkg "Doc") (Some (180, -1)) no_vinfo "File") (PStruct file_struct) =
  Ok (Filled [mkG (Some "Id") true (GNum SUint64) (VNum SUint64 10); mkG (Some "Name") true GBytes (VBytes (letters [98; 99]))]).
Proof.
  intros m. assert (HB : in_memory done_base) by (apply in_memory_sound; vm_compute; reflexivity). split; [exact HB|].
  split; [apply shows_sound; [exact HB|vm_compute; reflexivity|vm_compute; reflexivity]|]. split; [apply pkg_described|].
  split; [apply (decode_sound done_bytes (lookup sch) 9); vm_compute; reflexivity|].
  split; [apply intact_sound; vm_compute; reflexivity|]. split; [reflexivity|].
  assert (N : field_names (pkg "Doc") "File" file_names) by (apply names_sound; vm_compute; reflexivity).
  split; [exact N|]. split; [reflexivity|]. split; [apply (fits_sound _ _ _ _ _ _ N); vm_compute; reflexivity|].
  split; [apply in_reach_sound; vm_compute; reflexivity|]. vm_compute. reflexivity.
Qed.

(** The same for a struct; missing: structs with members that are structs. *)
Theorem C113_struct_partial : forall n b m name ms p sz l fs, in_memory b -> shows b m ->
  struct_described n name ms -> members_described n name ms ->
  0 <= p -> occupied m p (struct_size ms) -> field_names n name l -> zlen l = zlen ms ->
  Forall (fits n name (map TyScalar ms) (member_vals p ms) l) fs -> Forall (in_reach b (member_vals p ms) l) fs ->
  exists fs', unmarshal n b (new_node n (Some (p, sz)) no_vinfo name) (PStruct fs) = Ok (Filled fs') /\
    Forall2 (received m (map TyScalar ms) (member_vals p ms) l) fs fs'.
Proof. exact (fun n b m name ms p sz l fs HB HM => fill_struct_j n b m HB HM name ms p sz l fs). Qed.
Print Assumptions C113_struct_partial.

(** The second member of the struct is in the journal. *)
Definition spot_base : base := let b := mem spot_bytes in
  mkBase (b_bytes b) [] [mkDiff 20 (gs_of (letters [9; 0; 0; 0; 7]))] (b_check b) (b_seek b).
Definition spot_shown : list byte := Eval vm_compute in flat_bytes spot_base.

Example C113_struct_case : in_memory spot_base /\ shows spot_base (img_bytes spot_shown) /\ struct_described reg "Vec" vec /\
  members_described reg "Vec" vec /\ occupied (img_bytes spot_shown) 16 (struct_size vec) /\
  field_names reg "Vec" ["X"; "Y"] /\
  Forall (fits reg "Vec" (map TyScalar vec) (member_vals 16 vec) ["X"; "Y"]) vec_struct /\
  Forall (in_reach spot_base (member_vals 16 vec) ["X"; "Y"]) vec_struct /\
  unmarshal reg spot_base (new_node reg (Some (16, -1)) no_vinfo "Vec") (PStruct vec_struct) =
  Ok (Filled [mkG (Some "Y") true (GNum SInt32) (VNum SInt32 9); mkG (Some "X") true GAny (VNum SInt32 1);
              mkG (Some "Z") true (GNum SInt32) old]).
Proof.
  assert (HB : in_memory spot_base) by (apply in_memory_sound; vm_compute; reflexivity). split; [exact HB|].
  split; [apply shows_sound; [exact HB|vm_compute; reflexivity|vm_compute; reflexivity]|].
  split; [apply struct_sound; vm_compute; reflexivity|].
  split; [apply members_sound; vm_compute; reflexivity|]. split; [apply occupied_sound; vm_compute; reflexivity|].
  assert (N : field_names reg "Vec" ["X"; "Y"]) by (apply names_sound; vm_compute; reflexivity).
  split; [exact N|]. split; [apply (fits_sound _ _ _ _ _ _ N); vm_compute; reflexivity|].
  split; [apply in_reach_sound; vm_compute; reflexivity|]. vm_compute. reflexivity.
Qed.

(** After any sequence of calls every table of the document gives what the calls
    put into it, as long as no call put anything over a part of a value only. *)
Theorem C113_after_partial : forall n s, describes n s ->
  forall m v cs ts m' v', changes n s m v cs ts m' v' -> forall b name p, in_memory b -> shows b m ->
  stored_table m s name p v -> intact b m v ->
  exists b' k, (forall fuel, (k <= fuel)%nat -> run_calls n fuel b cs = Ok b') /\
    forall tn tp vs tys l fs sz, In (Tab tn tp vs) (tables v') -> s tn = Some tys -> field_names n tn l -> zlen l = zlen tys ->
    Forall (fits n tn tys vs l) fs -> Forall (in_reach_after b ts vs l) fs ->
    exists fs', unmarshal n b' (new_node n (Some (tp, sz)) no_vinfo tn) (PStruct fs) = Ok (Filled fs') /\
      Forall2 (received m' tys vs l) fs fs'.
Proof. exact fill_after. Qed.
Print Assumptions C113_after_partial.

(** One number set in the sample *)
Definition one : list call := [to_file 9].
Definition one_base : base := Eval vm_compute in match run_calls (pkg "Doc") 20 (mem doc_bytes) one with Ok b => b | _ => mem [] end.
Definition one_trace : list trace := Eval vm_compute in [mkTrace [(188, 8)] [(188, e_bytes (file_edit 9))]].

Example C113_after_case : 
  (exists m', changes (pkg "Doc") (lookup sch) (img_bytes doc_bytes) (val_of doc_bytes "Doc") one one_trace m' (val_of doc_bytes "Doc")) /\
  In (Tab "File" 180 file_vals) (tables (val_of doc_bytes "Doc")) /\
  Forall (in_reach_after (mem doc_bytes) one_trace file_vals file_names) file_struct /\
  run_calls (pkg "Doc") 20 (mem doc_bytes) one = Ok one_base /\
  unmarshal (pkg "Doc") one_base (new_node (pkg "Doc") (Some (180, -1)) no_vinfo "File") (PStruct file_struct) =
  Ok (Filled [mkG (Some "Id") true (GNum SUint64) (VNum SUint64 9); mkG (Some "Name") true GBytes (VBytes (letters [98; 99]))]).
Proof.
  split.
  { eexists. unfold one. eapply Chs_cons; [|apply Chs_nil]. apply (Ch_field _ _ _ _ (file_edit 9)). apply file_editable; vm_compute; intuition discriminate. }
  split; [vm_compute; tauto|]. split.
  { apply after_sound. vm_compute. reflexivity. }
  split; vm_compute; reflexivity.
Qed.

(** One character of a string can be set (C108), but the string cannot be read
    then: setting the second leaves the old one there, setting the first panics. *)
Definition letter : base * cnode := num "Byte" SByte 88.
Definition set_letter (j : Z) : list call := [Set_elem "Doc" 24 1 j (fst letter) (snd letter)].
Definition name_struct (v : gval) : list gfield := [mkG (Some "Name") true GBytes v].

Theorem C113_letter_refuted : exists b0 b1, 
  gives_elem (pkg "Doc") (TyScalars SByte) (fst letter) (snd letter) (letters [88]) /\ zget doc_vals 1 = Some (Scalars 60 5 1) /\
  run_calls (pkg "Doc") 20 (mem doc_bytes) (set_letter 0) = Ok b0 /\ rd 1 b0 60 = Ok 88 /\
  run_calls (pkg "Doc") 20 (mem doc_bytes) (set_letter 1) = Ok b1 /\ rd 1 b1 61 = Ok 88 /\
  unmarshal (pkg "Doc") b0 (new_node (pkg "Doc") (Some (24, -1)) no_vinfo "Doc") (PStruct (name_struct old)) = Panic /\
  unmarshal (pkg "Doc") b1 (new_node (pkg "Doc") (Some (24, -1)) no_vinfo "Doc") (PStruct (name_struct old)) =
    Ok (Filled (name_struct (VBytes (letters [104; 101; 108; 108; 111])))).
Proof.
  eexists. eexists. split; [eapply (num_elem "Doc" (lookup sch) "Doc" 2); [vm_compute; reflexivity|vm_compute; reflexivity|reflexivity|vm_compute; intuition discriminate|vm_compute; reflexivity|vm_compute; reflexivity]|].
  split; [reflexivity|]. split; [vm_compute; reflexivity|]. split; [vm_compute; reflexivity|].
  split; [vm_compute; reflexivity|]. split; [vm_compute; reflexivity|]. split; vm_compute; reflexivity.
Qed.
Print Assumptions C113_letter_refuted.
