(** Property theorems about the code generator (C67 to C71). *)
From Coq Require Import ZArith List Bool String Ascii Permutation.
From Verif Require Import GoLib TableModel NameModel NameSpec ParserModel ParserSpec ParserProofs5
  GenModel GenSpec GenProofs6.
Import ListNotations.
Open Scope string_scope.
Open Scope list_scope.

(** A schema with a struct, two tables, a union and a root. *)
Definition fld0 (n : string) (t : ty) : fld := mkFld n t None [] [BSpace].
Definition sample : list decl :=
  [DStruct false [BSpace] "Vec3" [] [] [] [fld0 "x" (TyKw KDouble []); fld0 "y_pos" (TyKw KInt [])] [BEol EolLF];
   DStruct true [BSpace] "File" [] [] []
     [fld0 "id" (TyKw KUlong []); fld0 "name" (TyVec (TyKw KString []) []); fld0 "at" (TyName "Vec3" [])] [BEol EolLF];
   DUnion [BSpace] "Body" [] [] [mkMember [] "File" []; mkMember [BSpace] "Head" []] [BEol EolLF];
   DStruct true [BSpace] "Head" [] [] []
     [fld0 "body" (TyName "Body" []); fld0 "files" (TyVec (TyName "File" []) []);
      fld0 "nums" (TyVec (TyKw KInt []) []); fld0 "ok" (TyKw KBool [])] [BEol EolLF];
   DRoot [BSpace] "Head" []].
Definition sample_fbs : fbs := schema_fbs (map erase sample).

(** A text whose declarations are [ds]; what the command leaves of it. *)
Definition main_of (ds : list decl) : res fbs :=
  match main_schema 300 (schema_text ds) with Ok (true, b) => Ok b | _ => Panic end.
Definition dirs_of (ds : list decl) : res (list directive) := do b <- main_of ds; make_gen "" b.

Ltac nodup := repeat (apply NoDup_cons; [cbn; intuition congruence|]); apply NoDup_nil.

(** ** C67 *)

(** Every printed line is a call of genny with the template, the file and one
    argument, and genny can split the argument. *)
Theorem C67_lines : forall filter ds,
  ds <> [] -> forallb decl_ok ds = true -> forallb adecl_fits (map erase ds) = true ->
  exists n b t dirs ws, (forall f, (n <= f)%nat -> main_schema f (schema_text ds) = Ok (true, b)) /\
    gen_text filter b = Ok t /\ make_gen filter b = Ok dirs /\
    split_on c_lf t = ws ++ [""] /\ Forall2 commanded ws dirs /\
    Forall (fun d => bindings (g_arg d) <> None) dirs.
Proof. exact schema_lines. Qed.
Print Assumptions C67_lines.

(** The same for declarations that do not come from a text. *)
Theorem C67_declarations : forall filter b, named_ok b -> types_long b ->
  exists t ds ws, gen_text filter b = Ok t /\ make_gen filter b = Ok ds /\
    split_on c_lf t = ws ++ [""] /\ Forall2 commanded ws ds /\
    Forall (fun d => bindings (g_arg d) <> None) ds.
Proof. exact generated_lines. Qed.
Print Assumptions C67_declarations.

Example C67_case :
  sample <> [] /\ forallb decl_ok sample = true /\ forallb adecl_fits (map erase sample) = true /\
  match dirs_of sample with
  | Ok ds => List.length ds = 19%nat /\
      nth_error (map line ds) 13%nat =
        Some ("//go:generate go run github.com/cheekybits/genny -in=../genny/field.go" ++
              " -out=../Head.Body.gen.go  gen  ""NodeName=Head FieldName=Body FieldType=Body" ++
              " ResultType=Body FieldNum=1 IsStruct=false""" ++ String c_lf "")%string
  | _ => False
  end.
Proof. vm_compute. repeat split; congruence. Qed.

(** ** C68 *)

(** The initializers of the generated package are those the declarations ask
    for: one per struct, slot and member, with the numbers of the slots. *)
Theorem C68_steps_partial : forall filter ds, let s := schema_fbs (map erase ds) in
  ds <> [] -> forallb decl_ok ds = true -> forallb adecl_fits (map erase ds) = true ->
  NoDup (struct_names s) ->
  exists n b dirs, (forall f, (n <= f)%nat -> main_schema f (schema_text ds) = Ok (true, b)) /\
    make_gen filter b = Ok dirs /\ flat_map init_of dirs = package_steps filter s.
Proof. exact schema_steps. Qed.
Print Assumptions C68_steps_partial.

Example C68_case :
  struct_names sample_fbs = ["Vec3"; "File"; "Head"] /\
  package_steps "Head" sample_fbs =
    [IStruct "Head" false; IField "Head" "BodyType" "Byte" 0; IField "Head" "Body" "Body" 1;
     IField "Head" "Files" "[]File" 2; IField "Head" "Nums" "[]int32" 3; IField "Head" "Ok" "Bool" 4] /\
  package_steps "Body" sample_fbs = [IAlias "Body" "File"; IAlias "Body" "Head"].
Proof. vm_compute. repeat split; reflexivity. Qed.

(** Declarations with a one-letter type stop the generator. *)
Theorem C68_panic_refuted : exists b, named_ok b /\ separate b /\ make_gen "" b = Panic.
Proof.
  exists (mkFbs "" "" "T" [mkSI "" "V" false [("X", "int32")] [] []; mkSI "" "T" true [("A", "V")] [] []]
                [] [] "" "" "").
  split; [|split; [|vm_compute; reflexivity]].
  - repeat split; repeat constructor.
  - split; [|split].
    + cbn. repeat constructor; cbn; intuition congruence.
    + cbn. intros x y [<-|[<-|[]]] [<-|[<-|[]]]; discriminate.
    + repeat constructor; cbn; intuition congruence.
Qed.
Print Assumptions C68_panic_refuted.

(** ** C69 *)

(** No file is written twice. *)
Theorem C69_files_partial : forall filter ds, let s := schema_fbs (map erase ds) in
  ds <> [] -> forallb decl_ok ds = true -> forallb adecl_fits (map erase ds) = true -> separate s ->
  exists n b dirs, (forall f, (n <= f)%nat -> main_schema f (schema_text ds) = Ok (true, b)) /\
    make_gen filter b = Ok dirs /\ NoDup (map g_out dirs) /\ written dirs = dirs.
Proof. exact schema_files. Qed.
Print Assumptions C69_files_partial.

Lemma sample_separate : separate sample_fbs.
Proof.
  split; [|split].
  - vm_compute. nodup.
  - cbn. intros x y [<-|[<-|[<-|[]]]] [<-|[<-|[<-|[]]]]; discriminate.
  - vm_compute. repeat (apply Forall_cons; [nodup|]). apply Forall_nil.
Qed.

Example C69_case : separate sample_fbs /\
  match dirs_of sample with
  | Ok ds => map g_out (firstn 5 ds) =
      ["../root.go"; "../Vec3.gen.go"; "../Vec3List.gen.go"; "../Vec3.X.gen.go"; "../Vec3.YPos.gen.go"]
  | _ => False
  end.
Proof. split; [exact sample_separate|vm_compute; reflexivity]. Qed.

(** A table named like the list of another one: the list type of the first is
    lost.  The names are different, and each table is fine on its own. *)
Theorem C69_list_refuted : exists ds b dirs, forallb decl_ok ds = true /\
  NoDup (struct_names (schema_fbs (map erase ds))) /\
  (forall f, (300 <= f)%nat -> main_schema f (schema_text ds) = Ok (true, b)) /\
  make_gen "" b = Ok dirs /\ In (list_dir "File") dirs /\ ~ In (list_dir "File") (written dirs).
Proof.
  exists [DStruct true [BSpace] "File" [] [] [] [fld0 "x" (TyKw KInt [])] [];
          DStruct true [BSpace] "FileList" [] [] [] [fld0 "xs" (TyVec (TyName "File" []) [])] []].
  match goal with |- exists b dirs, _ /\ _ /\ (forall f, _ -> main_schema f ?t = _) /\ _ =>
    match eval vm_compute in (main_schema 300 t) with Ok (_, ?b) => exists b end end.
  match goal with |- exists d, _ /\ _ /\ _ /\ ?m = _ /\ _ =>
    match eval vm_compute in m with Ok ?d => exists d end end.
  split; [vm_compute; reflexivity|]. split; [vm_compute; nodup|].
  split; [apply main_schema_mono; vm_compute; reflexivity|]. split; [vm_compute; reflexivity|].
  split; vm_compute; intuition congruence.
Qed.
Print Assumptions C69_list_refuted.

(** Two fields whose names differ in the case of a letter: the accessor of the
    first one is lost. *)
Theorem C69_case_refuted : exists ds b dirs d, forallb decl_ok ds = true /\
  (forall f, (300 <= f)%nat -> main_schema f (schema_text ds) = Ok (true, b)) /\
  make_gen "" b = Ok dirs /\ In d dirs /\ init_of d = [IField "T" "Ab" "Int32" 0] /\
  ~ In (IField "T" "Ab" "Int32" 0) (flat_map init_of (written dirs)).
Proof.
  exists [DStruct true [BSpace] "T" [] [] [] [fld0 "ab" (TyKw KInt []); fld0 "aB" (TyKw KInt [])] []].
  match goal with |- exists b dirs d, _ /\ (forall f, _ -> main_schema f ?t = _) /\ _ =>
    match eval vm_compute in (main_schema 300 t) with Ok (_, ?b) => exists b end end.
  match goal with |- exists dirs d, _ /\ _ /\ ?m = _ /\ _ =>
    match eval vm_compute in m with
    | Ok ?d => exists d; match d with _ :: _ :: _ :: ?x :: _ => exists x end end end.
  split; [vm_compute; reflexivity|].
  split; [apply main_schema_mono; vm_compute; reflexivity|]. split; [vm_compute; reflexivity|].
  split; [vm_compute; intuition congruence|]. split; [vm_compute; reflexivity|].
  vm_compute. intuition congruence.
Qed.
Print Assumptions C69_case_refuted.

(** ** C70 *)

(** From the text to the tables: whatever the order in which the files are
    initialized, each name has its slot, each slot its type and, once the
    requests are applied, the kind the format gives it; each union has its
    members in order. *)
Theorem C70_tables_partial : forall ds, let s := schema_fbs (map erase ds) in
  ds <> [] -> forallb decl_ok ds = true -> forallb adecl_fits (map erase ds) = true ->
  distinct_names s -> separate s -> all_types (served (f_structs s) (f_unions s)) s ->
  exists n b dirs, (forall f, (n <= f)%nat -> main_schema f (schema_text ds) = Ok (true, b)) /\
    make_gen "" b = Ok dirs /\ forall files, Permutation (written dirs) files -> serves s files.
Proof. exact schema_serves. Qed.
Print Assumptions C70_tables_partial.

Lemma sample_plain : Forall (fun s => plain s /\ capital s = true) (struct_names sample_fbs ++ union_names sample_fbs).
Proof.
  repeat constructor; cbn; try (intros k; intuition congruence);
    (intros a b r k E; injection E as <- <- <-; intuition congruence).
Qed.

Lemma sample_served : all_types (served (f_structs sample_fbs) (f_unions sample_fbs)) sample_fbs.
Proof.
  repeat constructor.
  - apply (SV_scalar _ _ SFloat64); discriminate.
  - apply (SV_scalar _ _ SInt32); discriminate.
  - apply (SV_scalar _ _ SUint64); discriminate.
  - apply (SV_struct _ _ (mkSI "" "Vec3" false [("X", "float64"); ("YPos", "int32")] [] [])). cbn; auto.
  - apply (SV_scalar _ _ SByte); discriminate.
  - apply (SV_union _ _ (mkUI "" "Body" ["File"; "Head"])). cbn; auto.
  - eapply (SV_tables _ _ (mkSI "" "File" true [("Id", "uint64"); ("Name", "[][]byte"); ("At", "Vec3")] [] []));
      cbn; auto.
  - apply (SV_scalars _ _ SInt32); discriminate.
  - apply (SV_scalar _ _ SBool); discriminate.
Qed.

Example C70_case : distinct_names sample_fbs /\ separate sample_fbs /\
  all_types (served (f_structs sample_fbs) (f_unions sample_fbs)) sample_fbs.
Proof.
  split; [|split; [exact sample_separate|exact sample_served]]. split; [|exact sample_plain].
  apply sample_separate.
Qed.

(** Slots whose kind is not the one of the format: unsigned bytes, vectors of
    unsigned bytes, vectors of structs and vectors of unions. *)
Definition odd : list decl :=
  [DStruct false [BSpace] "Vec3" [] [] [] [fld0 "x" (TyKw KDouble [])] [];
   DUnion [BSpace] "Body" [] [] [mkMember [] "Item" []] [];
   DStruct true [BSpace] "Item" [] [] []
     [fld0 "a" (TyKw KUbyte []); fld0 "b" (TyVec (TyKw KUbyte []) []);
      fld0 "c" (TyVec (TyName "Vec3" []) []); fld0 "d" (TyVec (TyName "Body" []) [])] []].
Definition odd_classes : list (list class) :=
  [[CBasic 1]; [CSlice; CBasic 1]; [CSlice; CStruct]; [CSlice; CUnion]]%Z.

Theorem C70_kinds_refuted : forallb decl_ok odd = true /\
  distinct_names (schema_fbs (map erase odd)) /\ separate (schema_fbs (map erase odd)) /\
  exists b dirs n n', (forall f, (300 <= f)%nat -> main_schema f (schema_text odd) = Ok (true, b)) /\
    make_gen "" b = Ok dirs /\ run_steps no_names (flat_map init_of (written dirs)) = Ok n /\
    apply_requests n = Ok n' /\
    Forall2 (fun k cl => exists i f g, In i (slotted (map erase odd)) /\ si_name i = "Item" /\
               nth_error (si_fields i) k = Some f /\
               format_class (slotted (map erase odd)) (unions_in "" (map erase odd)) (snd f) cl /\
               group_of n' "Item" (Z.of_nat k) = Some g /\ ~ says g cl)
            [0; 1; 2; 3]%nat odd_classes.
Proof.
  split; [vm_compute; reflexivity|]. split.
  { split; [vm_compute; nodup|].
    repeat constructor; cbn; try (intros k; intuition congruence);
      (intros a b r k E; injection E as <- <- <-; intuition congruence). }
  split.
  { split; [|split].
    - vm_compute. nodup.
    - cbn. intros x y [<-|[<-|[]]] [<-|[<-|[]]]; discriminate.
    - vm_compute. repeat (apply Forall_cons; [nodup|]). apply Forall_nil. }
  match goal with |- exists b dirs n n', (forall f, _ -> main_schema f ?t = _) /\ _ =>
    match eval vm_compute in (main_schema 300 t) with Ok (_, ?b) => exists b end end.
  match goal with |- exists dirs n n', _ /\ ?m = _ /\ _ =>
    match eval vm_compute in m with Ok ?d => exists d end end.
  match goal with |- exists n n', _ /\ _ /\ ?m = _ /\ _ =>
    match eval vm_compute in m with Ok ?d => exists d end end.
  match goal with |- exists n', _ /\ _ /\ _ /\ ?m = _ /\ _ =>
    match eval vm_compute in m with Ok ?d => exists d end end.
  split; [apply main_schema_mono; vm_compute; reflexivity|]. split; [vm_compute; reflexivity|].
  split; [vm_compute; reflexivity|]. split; [vm_compute; reflexivity|].
  set (it := mkSI "" "Item" true [("A", "uint8"); ("B", "[]uint8"); ("C", "[]Vec3"); ("D", "[]Body")] [] []).
  repeat (constructor;
    [exists it; eexists _, _; split; [vm_compute; auto|]; split; [reflexivity|]; split; [reflexivity|]; split;
       [|split; [vm_compute; reflexivity|]]|]); [| | | | | | | |constructor].
  - apply (FC_scalar _ _ SUint8).
  - intros H. destruct (H (class_bit (CBasic 1))) as [_ H1]; [vm_compute; discriminate|].
    specialize (H1 ltac:(cbn; auto)). vm_compute in H1. discriminate H1.
  - apply (FC_scalars _ _ SUint8).
  - intros H. destruct (H (class_bit (CBasic 1))) as [_ H1]; [vm_compute; discriminate|].
    specialize (H1 ltac:(cbn; auto)). vm_compute in H1. discriminate H1.
  - eapply (FC_structs _ _ (mkSI "" "Vec3" false [("X", "float64")] [] [])); vm_compute; auto.
  - intros H. destruct (H (class_bit CStruct)) as [_ H1]; [vm_compute; discriminate|].
    specialize (H1 ltac:(cbn; auto)). vm_compute in H1. discriminate H1.
  - eapply (FC_unions _ _ (mkUI "" "Body" ["Item"])); vm_compute; auto.
  - intros H. destruct (H (class_bit CUnion)) as [_ H1]; [vm_compute; discriminate|].
    specialize (H1 ltac:(cbn; auto)). vm_compute in H1. discriminate H1.
Qed.
Print Assumptions C70_kinds_refuted.

(** ** C71 *)

(** Every result type of a generated accessor is a type the package defines. *)
Theorem C71_results_partial : forall ds, let s := schema_fbs (map erase ds) in
  ds <> [] -> forallb decl_ok ds = true -> forallb adecl_fits (map erase ds) = true ->
  Forall (fun s => plain s /\ capital s = true) (struct_names s ++ union_names s) ->
  all_types (resolved (f_structs s) (f_unions s)) s ->
  exists n b dirs, (forall f, (n <= f)%nat -> main_schema f (schema_text ds) = Ok (true, b)) /\
    make_gen "" b = Ok dirs /\
    forall d r, In d dirs -> In r (results_of d) -> In r (flat_map types_of dirs).
Proof. exact schema_results. Qed.
Print Assumptions C71_results_partial.

Example C71_case :
  Forall (fun s => plain s /\ capital s = true) (struct_names sample_fbs ++ union_names sample_fbs) /\
  all_types (resolved (f_structs sample_fbs) (f_unions sample_fbs)) sample_fbs /\
  match dirs_of sample with
  | Ok ds => flat_map results_of ds =
      ["CommonNode"; "CommonNode"; "CommonNode"; "CommonNodeList"; "Vec3"; "CommonNode"; "Body"; "FileList";
       "List"; "CommonNode"]
  | _ => False
  end.
Proof.
  split; [exact sample_plain|]. split; [|vm_compute; reflexivity].
  eapply Forall_impl; [|exact sample_served]. intros i I. eapply Forall_impl; [|exact I].
  intros f F. apply RS_served, F.
Qed.

(** A field of unsigned bytes, a vector of them, a vector of a union: the
    accessors name types that nothing defines, so the package does not
    compile.  A [byte] of the schema is such a field too. *)
Theorem C71_results_refuted : forallb decl_ok odd = true /\
  (exists b dirs, (forall f, (300 <= f)%nat -> main_schema f (schema_text odd) = Ok (true, b)) /\
     make_gen "" b = Ok dirs /\
     Forall (fun r => In r (flat_map results_of dirs) /\ ~ In r (flat_map types_of dirs))
       ["uint8"; "uint8List"; "BodyList"]) /\
  (exists b dirs, (forall f, (300 <= f)%nat -> main_schema f "table T { a:byte; }" = Ok (true, b)) /\
     make_gen "" b = Ok dirs /\ In "uint8" (flat_map results_of dirs) /\ ~ In "uint8" (flat_map types_of dirs)).
Proof.
  split; [vm_compute; reflexivity|]. split.
  - match goal with |- exists b dirs, (forall f, _ -> main_schema f ?t = _) /\ _ =>
      match eval vm_compute in (main_schema 300 t) with Ok (_, ?b) => exists b end end.
    match goal with |- exists dirs, _ /\ ?m = _ /\ _ =>
      match eval vm_compute in m with Ok ?d => exists d end end.
    split; [apply main_schema_mono; vm_compute; reflexivity|]. split; [vm_compute; reflexivity|].
    repeat constructor; vm_compute; intuition congruence.
  - match goal with |- exists b dirs, (forall f, _ -> main_schema f ?t = _) /\ _ =>
      match eval vm_compute in (main_schema 300 t) with Ok (_, ?b) => exists b end end.
    match goal with |- exists dirs, _ /\ ?m = _ /\ _ =>
      match eval vm_compute in m with Ok ?d => exists d end end.
    split; [apply main_schema_mono; vm_compute; reflexivity|]. split; [vm_compute; reflexivity|].
    split; vm_compute; intuition congruence.
Qed.
Print Assumptions C71_results_refuted.
