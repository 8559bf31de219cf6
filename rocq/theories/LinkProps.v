(** Property theorems from the text of a schema to its buffers (C89, C90). *)
From Coq Require Import ZArith List Bool String Ascii Permutation.
From Verif Require Import GoLib BaseModel BaseSpec TableModel TableSpec NameModel NameSpec ParserModel ParserSpec
  ParserProofs5 GenModel GenSpec WalkModel WalkSpec WalkProofs6 WalkProofs8 WalkProofs9 BuildModel BuildSpec
  LinkSpec LinkProofs LinkProofs2.
From Verif Require WalkProps.
Import ListNotations.
Open Scope string_scope.
Open Scope list_scope.
Open Scope Z_scope.

(** [[
    struct Vec { x: int; y: int; }
    table File { id: ulong; name: string; }
    table Note { n: int; }
    union Body { File, Note }
    table Root { version: int; name: string; body: Body; files: [File]; at: Vec;
                 nums: [int]; main: Note; other: Note; marks: [Vec]; }
    root_type Root;
    ]] *)
Definition fld0 (n : string) (t : ParserSpec.ty) : fld := mkFld n t None [] [BSpace].
Definition decls : list decl :=
  [DStruct false [BSpace] "Vec" [] [] [] [fld0 "x" (TyKw KInt []); fld0 "y" (TyKw KInt [])] [BEol EolLF];
   DStruct true [BSpace] "File" [] [] [] [fld0 "id" (TyKw KUlong []); fld0 "name" (TyKw KString [])] [BEol EolLF];
   DStruct true [BSpace] "Note" [] [] [] [fld0 "n" (TyKw KInt [])] [BEol EolLF];
   DUnion [BSpace] "Body" [] [] [mkMember [] "File" []; mkMember [BSpace] "Note" []] [BEol EolLF];
   DStruct true [BSpace] "Root" [] [] []
     [fld0 "version" (TyKw KInt []); fld0 "name" (TyKw KString []); fld0 "body" (TyName "Body" []);
      fld0 "files" (TyVec (TyName "File" []) []); fld0 "at" (TyName "Vec" []);
      fld0 "nums" (TyVec (TyKw KInt []) []); fld0 "main" (TyName "Note" []);
      fld0 "other" (TyName "Note" []); fld0 "marks" (TyVec (TyName "Vec" []) [])] [BEol EolLF];
   DRoot [BSpace] "Root" []].
Definition decls_fbs : fbs := schema_fbs (map erase decls).
Definition vec : list scalar := [SInt32; SInt32].
Definition sch : list (string * list ty) :=
  [("File", [TyScalar SUint64; TyScalars SByte]); ("Note", [TyScalar SInt32]);
   ("Root", [TyScalar SInt32; TyScalars SByte; TyScalar SByte; TyUnion ["File"; "Note"];
             TyTables "File"; TyStruct "Vec" vec; TyScalars SInt32; TyTable "Note"; TyTable "Note";
             TyStructs "Vec" vec])].

(** ** C89: the tables of names say what the schema says *)

(** Full statement: for every schema.  Unsigned bytes, vectors of unions, empty
    structs and structs in structs are missing, which the package gets wrong, and
    vectors of strings, which the reader gets wrong. *)
Theorem C89_describes_partial : forall ds s, let b0 := schema_fbs (map erase ds) in
  ds <> [] -> forallb decl_ok ds = true -> forallb adecl_fits (map erase ds) = true ->
  distinct_names b0 -> separate b0 -> schema_of b0 s ->
  exists n b dirs, (forall f, (n <= f)%nat -> main_schema f (schema_text ds) = Ok (true, b)) /\
    make_gen "" b = Ok dirs /\
    forall files, Permutation (written dirs) files -> exists r, package_names files r /\ describes r s.
Proof. exact schema_describes. Qed.
Print Assumptions C89_describes_partial.

(** The same for declarations that do not come from a text. *)
Theorem C89_package : forall b ds files s, named_ok b -> types_long b -> distinct_names b -> separate b ->
  capital_fields b -> make_gen "" b = Ok ds -> Permutation (written ds) files -> schema_of b s ->
  exists n, package_names files n /\ describes n s.
Proof. exact package_describes. Qed.
Print Assumptions C89_package.

(** Declarations whose fields all have such a type have a schema with all tables
    that have a field. *)
Theorem C89_total : forall b, NoDup (struct_names b) ->
  (forall i f, In i (f_structs b) -> si_table i = true -> In f (si_fields i) ->
     exists t, go_type (f_structs b) (f_unions b) (snd f) t) ->
  exists s, schema_of b s /\
    forall i, In i (f_structs b) -> si_table i = true -> si_fields i <> [] -> s (si_name i) <> None.
Proof. exact schema_found. Qed.
Print Assumptions C89_total.

Lemma decls_names : distinct_names decls_fbs /\ separate decls_fbs.
Proof.
  assert (N : NoDup (struct_names decls_fbs ++ union_names decls_fbs)).
  { vm_compute. repeat (apply NoDup_cons; [cbn; intuition congruence|]). apply NoDup_nil. }
  split; split; [exact N| |exact N|split].
  - repeat constructor; cbn; try (intros k; intuition congruence);
      (intros a b r k E; injection E as <- <- <-; intuition congruence).
  - cbn. intros x y [<-|[<-|[<-|[<-|[]]]]] [<-|[<-|[<-|[<-|[]]]]]; discriminate.
  - vm_compute.
    repeat (apply Forall_cons; [repeat (apply NoDup_cons; [cbn; intuition congruence|]); apply NoDup_nil|]).
    apply Forall_nil.
Qed.

Lemma decls_schema : schema_of decls_fbs (lookup sch).
Proof.
  assert (E : find_schema decls_fbs = sch) by (vm_compute; reflexivity). rewrite <- E. apply find_schema_sound.
Qed.

(** The premises hold of the example, and the files can come in any order; here
    the tables of names for the reverse order. *)
Example C89_case : decls <> [] /\ forallb decl_ok decls = true /\
  forallb adecl_fits (map erase decls) = true /\ distinct_names decls_fbs /\ separate decls_fbs /\
  schema_of decls_fbs (lookup sch) /\
  exists b dirs n n', main_schema 500 (schema_text decls) = Ok (true, b) /\ make_gen "" b = Ok dirs /\
    run_steps no_names (flat_map init_of (rev dirs)) = Ok n /\ apply_requests n = Ok n' /\
    describes n' (lookup sch).
Proof.
  split; [discriminate|]. split; [vm_compute; reflexivity|]. split; [vm_compute; reflexivity|].
  destruct decls_names as [D1 D2]. split; [exact D1|]. split; [exact D2|]. split; [exact decls_schema|].
  match goal with |- exists b dirs n n', main_schema ?f ?t = _ /\ _ =>
    match eval vm_compute in (main_schema f t) with Ok (_, ?b) => exists b end end.
  match goal with |- exists dirs n n', _ /\ ?m = _ /\ _ =>
    match eval vm_compute in m with Ok ?d => exists d end end.
  match goal with |- exists n n', _ /\ _ /\ ?m = _ /\ _ =>
    match eval vm_compute in m with Ok ?d => exists d end end.
  match goal with |- exists n', _ /\ _ /\ _ /\ ?m = _ /\ _ =>
    match eval vm_compute in m with Ok ?d => exists d end end.
  split; [vm_compute; reflexivity|]. split; [vm_compute; reflexivity|].
  split; [vm_compute; reflexivity|]. split; [vm_compute; reflexivity|].
  apply describes_sound. vm_compute. reflexivity.
Qed.

(** ** C90: from the text to the buffers *)

(** Reading: every stored field is found, and lengths and traversals are those
    of what is stored, under the conditions of C72 and C73. *)
Theorem C90_reads_partial : forall ds s, let b0 := schema_fbs (map erase ds) in
  ds <> [] -> forallb decl_ok ds = true -> forallb adecl_fits (map erase ds) = true ->
  distinct_names b0 -> separate b0 -> schema_of b0 s ->
  exists n b dirs, (forall f, (n <= f)%nat -> main_schema f (schema_text ds) = Ok (true, b)) /\
    make_gen "" b = Ok dirs /\
    forall files, Permutation (written dirs) files -> exists r, package_names files r /\
      forall buf name p v sz, flat buf -> stored_table (img_bytes (sl_data (b_bytes buf))) s name p v ->
        let c := new_node r (Some (p, sz)) no_vinfo name in
        (forall fs i w, v = Tab name p fs -> zget fs i = Some w ->
           exists f, field_at r buf c i = Ok f /\ stands_for f w) /\
        (measured v -> holds_uint (img_bytes (sl_data (b_bytes buf))) 0 4 p ->
           exists root k len, root_node r buf name = Ok root /\
             (forall f, (k <= f)%nat -> node_len r buf f root = Ok len) /\
             len mod 8 = 0 /\ reach v <= len < reach v + 8) /\
        (traversable v -> exists k, forall f, (k <= f)%nat -> exists xs, traverse r buf f c = Ok xs /\
           map (fun x => (x_parent x, x_idx x, x_child x, x_size x)) xs = sightings v).
Proof. exact schema_reads. Qed.
Print Assumptions C90_reads_partial.

(** Building: what is assigned is what is stored, under the conditions of C87. *)
Theorem C90_builds_partial : forall ds s, let b0 := schema_fbs (map erase ds) in
  ds <> [] -> forallb decl_ok ds = true -> forallb adecl_fits (map erase ds) = true ->
  distinct_names b0 -> separate b0 -> schema_of b0 s ->
  exists n b dirs, (forall f, (n <= f)%nat -> main_schema f (schema_text ds) = Ok (true, b)) /\
    make_gen "" b = Ok dirs /\
    forall files, Permutation (written dirs) files -> exists r, package_names files r /\
      forall name tys l st, s name = Some tys -> buildable tys ->
        history r s name tys start l st -> typed_unions tys st ->
        exists k buf buf' fs, let p := 4 + 2 * zlen tys in let m := img_bytes (sl_data (b_bytes buf')) in
          (forall fuel, (k <= fuel)%nat ->
             build_table r fuel name l = Ok (Some (buf, new_node r (Some (p, -1)) no_vinfo name))) /\
          base_flatten buf = Ok buf' /\
          stored_table (window m 0 (reach (Tab name p fs))) s name p (Tab name p fs) /\
          forall i t w, zget tys i = Some t -> zget fs i = Some w -> as_assigned m t (st i) w.
Proof. exact schema_builds. Qed.
Print Assumptions C90_builds_partial.

(** A buffer of the example schema, with everything but the second note: it is
    found and measured whatever the order of the files. *)
Definition buf : base := WalkProps.mem WalkProps.root_bytes.

Example C90_case : exists fs,
  stored_table (img_bytes WalkProps.root_bytes) (lookup sch) "Root" 28 (Tab "Root" 28 fs) /\
  zget fs 5 = Some (Struct 52 vec) /\ reach (Tab "Root" 28 fs) = 222 /\
  exists n b dirs, (forall f, (n <= f)%nat -> main_schema f (schema_text decls) = Ok (true, b)) /\
    make_gen "" b = Ok dirs /\
    forall files, Permutation (written dirs) files -> exists r root k len f, package_names files r /\
      root_node r buf "Root" = Ok root /\ (forall f, (k <= f)%nat -> node_len r buf f root = Ok len) /\
      len mod 8 = 0 /\ 222 <= len < 230 /\
      field_at r buf (new_node r (Some (28, -1)) no_vinfo "Root") 5 = Ok f /\ c_node f = Some (52, -1).
Proof.
  match eval vm_compute in (WalkProps.root_val WalkProps.root_bytes "Root") with
  | Some (Tab _ _ ?fs) => exists fs; set (v := fs) end.
  assert (ST : stored_table (img_bytes WalkProps.root_bytes) (lookup sch) "Root" 28 (Tab "Root" 28 v)).
  { apply (decode_sound WalkProps.root_bytes (lookup sch) 9). vm_compute. reflexivity. }
  assert (RV : reach (Tab "Root" 28 v) = 222) by (vm_compute; reflexivity).
  assert (ME : measured (Tab "Root" 28 v)) by (apply measured_sound; vm_compute; reflexivity).
  assert (HU : holds_uint (img_bytes WalkProps.root_bytes) 0 4 28) by (apply uint_sound; vm_compute; reflexivity).
  split; [exact ST|]. split; [reflexivity|]. split; [exact RV|].
  destruct decls_names as [D1 D2].
  destruct (C90_reads_partial decls (lookup sch) ltac:(discriminate) ltac:(vm_compute; reflexivity)
              ltac:(vm_compute; reflexivity) D1 D2 decls_schema) as (n & b & dirs & M & G & H).
  exists n, b, dirs. split; [exact M|]. split; [exact G|]. intros files P.
  destruct (H files P) as (r & R & Q).
  destruct (Q buf "Root" 28 (Tab "Root" 28 v) (-1) ltac:(split; reflexivity) ST) as (Q1 & Q2 & _).
  destruct (Q1 v 5 (Struct 52 vec) eq_refl eq_refl) as (f & F1 & F2).
  destruct (Q2 ME HU) as (root & k & len & L1 & L2 & L3 & L4). rewrite RV in L4.
  exists r, root, k, len, f. split; [exact R|]. split; [exact L1|]. split; [exact L2|]. split; [exact L3|].
  split; [exact L4|]. split; [exact F1|exact F2].
Qed.
