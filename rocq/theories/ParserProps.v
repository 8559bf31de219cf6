(** Property theorems about the schema parser (C43-C46, C64, C65). *)
From Coq Require Import List Bool String Ascii Arith.
From Verif Require Import GoLib ParserModel ParserSpec ParserProofs ParserProofs2 ParserProofs3.
From Verif Require Import ParserProofs4 ParserProofs5.
Import ListNotations.
Open Scope string_scope.
Open Scope list_scope.

(** A schema for the examples: comments, blanks of all kinds, defaults,
    attributes, vectors, a union, several namespaces. *)
Definition sample_fields : list fld :=
  [mkFld "current_at" (TyName "Vec3" []) None ["key"; ""] [BSpace; BComment " first" EolLF];
   mkFld "n" (TyKw KInt [BTab]) (Some (DefInt "37")) ["deprecated"] [];
   mkFld "ok" (TyKw KBool []) (Some DefTrue) [] [BEol EolCR];
   mkFld "act_ion" (TyName "Action" [BSpace]) None [] [];
   mkFld "xs" (TyVec (TyVec (TyName "Vec3" [BSpace]) []) [BEol EolCRLF]) None [] [];
   mkFld "names" (TyVec (TyKw KString []) []) None [] [BEol EolLF]].
Definition sample : list decl :=
  [DNamespace [BSpace] "a.b-c" [BEol EolLF];
   DStruct false [BSpace] "Vec3" [BSpace] [] [BEol EolLF] [mkFld "X" (TyKw KFloat64 []) None [] []] [BComment "" EolLF];
   DUnion [BSpace] "Action" [] ["x"] [mkMember [BSpace] "Rez" [BSpace]; mkMember [BEol EolLF] "Col_1" []] [];
   DFileId """ABCD""" [BSpace]; DFileExt """bin""" []; DAttribute """prio""" [BTab];
   DNamespace [BComment "c" EolLF] "d" [];
   DRpc "Srv" " f(A):B; " [BEol EolLF];
   DStruct true [BSpace] "Root" [BSpace] ["a:1"; "b"] [BEol EolLF; BSpace] sample_fields [];
   DRoot [BSpace] "Root" [BEol EolLF; BEol EolLF]].

(** ** C43 *)

(** Full statement: for every schema of the schema language.  Missing: blanks
    at the places of [C43_layout_refuted], the types byte and float
    ([C43_types_refuted]), type names that begin with a type keyword
    ([C43_names_refuted]), enums ([C44_refuted]), includes, defaults with a
    sign or a fraction ([C43_defaults_refuted]) and field names with a leading,
    trailing or doubled underscore ([C46_refuted]). *)
Theorem C43_round_trip_partial : forall ds, ds <> [] -> forallb decl_ok ds = true ->
  exists n b, declares (map erase ds) b /\
    forall f, n <= f -> parse_schema f (schema_text ds) = Ok (Some b).
Proof. exact parse_schema_text. Qed.
Print Assumptions C43_round_trip_partial.

Example C43_round_trip_case :
  forallb decl_ok sample = true /\
  match parse_schema 300 (schema_text sample) with
  | Ok (Some b) =>
      f_structs b =
        [mkSI "a.b-c" "Vec3" false [("X", "float64")] [] [];
         mkSI "d" "Root" true
           [("CurrentAt", "Vec3"); ("N", "int32"); ("Ok", "bool"); ("ActIon", "Action");
            ("Xs", "[][]Vec3"); ("Names", "[][]byte")] [] []] /\
      f_unions b = [mkUI "a.b-c" "Action" ["Rez"; "Col_1"]] /\
      f_namespace b = "d" /\ f_root b = "Root"
  | _ => False
  end.
Proof. vm_compute. repeat split; reflexivity. Qed.

(** Two texts of the same declarations parse alike, whatever their layout,
    attributes and defaults. *)
Theorem C43_layout_partial : forall ds1 ds2, ds1 <> [] ->
  forallb decl_ok ds1 = true -> forallb decl_ok ds2 = true -> map erase ds1 = map erase ds2 ->
  exists b1 b2 n,
    (forall f, n <= f -> parse_schema f (schema_text ds1) = Ok (Some b1) /\
                         parse_schema f (schema_text ds2) = Ok (Some b2)) /\
    f_structs b1 = f_structs b2 /\ f_unions b1 = f_unions b2 /\
    f_namespace b1 = f_namespace b2 /\ f_root b1 = f_root b2.
Proof. exact layout_free. Qed.
Print Assumptions C43_layout_partial.

Definition plain_a : list decl :=
  [DStruct true [BSpace] "T" [] [] [] [mkFld "a_b" (TyKw KInt []) None [] []] []].
Definition plain_b : list decl :=
  [DStruct true [BTab; BComment " name" EolCRLF] "T" [BEol EolLF] ["m"] [BSpace; BSpace]
     [mkFld "A_b" (TyKw KInt32 [BComment "" EolLF]) (Some (DefInt "0")) [] [BSpace]] [BComment "end" EolLF]].

Example C43_layout_case :
  forallb decl_ok plain_a = true /\ forallb decl_ok plain_b = true /\
  map erase plain_a = map erase plain_b /\ schema_text plain_a <> schema_text plain_b.
Proof. vm_compute. repeat split; congruence. Qed.

(** Blanks that the schema language allows and the parser rejects: after the
    colon of a field, before it, at the start of the file, after attributes,
    and a comment that ends the file. *)
Theorem C43_layout_refuted :
  (exists b, parse_schema 300 "table T { a:int; }" = Ok (Some b)) /\
  Forall (fun t => forall f r, parse_schema f t = Ok r -> r = None)
    ["table T { a: int; }"; "table T { a :int; }"; " table T { a:int; }";
     "table T (x) { a:int; }"; "table T { a:int; } // end"].
Proof.
  split.
  { match eval vm_compute in (parse_schema 300 "table T { a:int; }") with
    | Ok (Some ?b) => exists b end. vm_compute. reflexivity. }
  repeat constructor; apply (reject 300); vm_compute; reflexivity.
Qed.
Print Assumptions C43_layout_refuted.

(** The Go types of float and byte are not those of the schema language. *)
Theorem C43_types_refuted : exists b n, n <> 0 /\
  (forall f, n <= f -> parse_schema f "table T { a:float; b:byte; }" = Ok (Some b)) /\
  map si_fields (f_structs b) = [[("A", "float"); ("B", "uint8")]] /\
  kw_go KFloat = "float32" /\ kw_go KByte = "int8".
Proof.
  match eval vm_compute in (parse_schema 300 "table T { a:float; b:byte; }") with
  | Ok (Some ?b) => exists b end.
  exists 300. split; [discriminate|]. split.
  - apply parse_schema_mono. vm_compute. reflexivity.
  - vm_compute. repeat split; reflexivity.
Qed.
Print Assumptions C43_types_refuted.

(** Type names that begin with a type keyword are rejected. *)
Theorem C43_names_refuted :
  Forall (fun n => name_ok n = true /\
            (exists b, parse_schema 300 ("table T { a:X; } struct " ++ n ++ " { a:int; }") = Ok (Some b)) /\
            forall f r, parse_schema f ("table T { a:" ++ n ++ "; }") = Ok r -> r = None)
    ["interval"; "longitude"; "boolish"; "stringList"; "byteRange"; "shortcut"; "int32x"].
Proof.
  repeat (constructor; [split; [vm_compute; reflexivity|split;
    [match goal with |- exists b, ?p = _ =>
       match eval vm_compute in p with Ok (Some ?b) => exists b end end; vm_compute; reflexivity
    |apply (reject 300); vm_compute; reflexivity]]|]).
  constructor.
Qed.
Print Assumptions C43_names_refuted.

(** Defaults with a sign or with more than one decimal are rejected, and so is
    the include of a file. *)
Theorem C43_defaults_refuted :
  Forall (fun t => forall f r, parse_schema f t = Ok r -> r = None)
    ["table T { a:int=-1; }"; "table T { a:double=1.5; }"; "table T { a:double=0.25; }";
     "include ""x.fbs""; table T { a:int; }"].
Proof. repeat constructor; apply (reject 300); vm_compute; reflexivity. Qed.
Print Assumptions C43_defaults_refuted.

(** ** C44 *)

(** Full statement: for schemas with enums too; see [C44_refuted]. *)
Theorem C44_own_fields_partial : forall ds1 t l1 n l2 ms pre fs post ds2,
  let d := DStruct t l1 n l2 ms pre fs post in
  forallb decl_ok (ds1 ++ d :: ds2) = true ->
  exists f0 b, (forall f, f0 <= f -> parse_schema f (schema_text (ds1 ++ d :: ds2)) = Ok (Some b)) /\
    nth_error (f_structs b) (List.length (structs_in "" (map erase ds1))) =
    Some (mkSI (last_namespace (map erase ds1)) n t
               (map (fun f => (camel (fl_name f), ty_go (fl_type f))) fs) [] []).
Proof. exact middle_struct. Qed.
Print Assumptions C44_own_fields_partial.

(** A table after a union and another struct. *)
Example C44_own_fields_case :
  forallb decl_ok (firstn 8 sample ++ skipn 8 sample) = true /\
  nth_error sample 8 = Some (DStruct true [BSpace] "Root" [BSpace] ["a:1"; "b"] [BEol EolLF; BSpace] sample_fields []) /\
  List.length (structs_in "" (map erase (firstn 8 sample))) = 1.
Proof. vm_compute. repeat split; reflexivity. Qed.

(** The members of an enum become fields of the next table. *)
Theorem C44_refuted : exists b,
  (forall f, 300 <= f -> parse_schema f "enum Color { Red } table T { a:int; }" = Ok (Some b)) /\
  map si_fields (f_structs b) = [[("Red", ""); ("A", "int32")]].
Proof.
  match eval vm_compute in (parse_schema 300 "enum Color { Red } table T { a:int; }") with
  | Ok (Some ?b) => exists b end.
  split; [apply parse_schema_mono; vm_compute; reflexivity|reflexivity].
Qed.
Print Assumptions C44_refuted.

(** They become members of the next union as well. *)
Theorem C44_union_refuted : exists b,
  (forall f, 300 <= f -> parse_schema f "enum Color { Red } union U { Aa, Bb }" = Ok (Some b)) /\
  map ui_aliases (f_unions b) = [["Red"; "Aa"; "Bb"]].
Proof.
  match eval vm_compute in (parse_schema 300 "enum Color { Red } union U { Aa, Bb }") with
  | Ok (Some ?b) => exists b end.
  split; [apply parse_schema_mono; vm_compute; reflexivity|reflexivity].
Qed.
Print Assumptions C44_union_refuted.

(** The command panics on such a schema. *)
Theorem C44_panic_refuted : forall f, 300 <= f ->
  main_schema f "enum Color { Red } table T { a:int; }" = Panic.
Proof. apply main_panic_mono. vm_compute. reflexivity. Qed.
Print Assumptions C44_panic_refuted.

(** ** C45 *)

(** Full statement: for all type names and for unions with any name, see
    [C45_lower_refuted] and [C45_panic_refuted]. *)
Theorem C45_slots_partial : forall ds,
  ds <> [] -> forallb decl_ok ds = true -> forallb adecl_fits (map erase ds) = true ->
  exists n b, (forall f, n <= f -> main_schema f (schema_text ds) = Ok (true, b)) /\
    f_unions b = unions_in "" (map erase ds) /\ f_root b = last_root (map erase ds) /\
    Forall2 (same_struct (map ui_name (unions_in "" (map erase ds))))
            (structs_in "" (map erase ds)) (f_structs b).
Proof. exact main_schema_text. Qed.
Print Assumptions C45_slots_partial.

Example C45_slots_case :
  forallb adecl_fits (map erase sample) = true /\
  match main_schema 300 (schema_text sample) with
  | Ok (true, b) =>
      map si_fields (f_structs b) =
        [[("X", "float64")];
         [("CurrentAt", "Vec3"); ("N", "int32"); ("Ok", "bool"); ("ActIonType", "byte");
          ("ActIon", "Action"); ("Xs", "[][]Vec3"); ("Names", "[][]byte")]]
  | _ => False
  end.
Proof. vm_compute. split; reflexivity. Qed.

(** Post-processing on its own, whatever filled the declarations. *)
Theorem C45_finalize_partial : forall b,
  forallb (fun u => capital (ui_name u)) (f_unions b) = true ->
  Forall (fun s => forallb (fun f => type_fits (snd f)) (si_fields s) = true) (f_structs b) ->
  exists b', finalize b = Ok b' /\ f_unions b' = f_unions b /\ f_root b' = f_root b /\
             f_namespace b' = f_namespace b /\
             Forall2 (same_struct (map ui_name (f_unions b))) (f_structs b) (f_structs b').
Proof. exact finalize_slots. Qed.
Print Assumptions C45_finalize_partial.

Example C45_finalize_case :
  let b := mkFbs "" "" "" [mkSI "" "T" true [("A", "Uu"); ("B", "[]Uu"); ("C", "uint8"); ("D", "Uu")] [] []]
                 [mkUI "" "Uu" []] [] "" "" "" in
  forallb (fun u => capital (ui_name u)) (f_unions b) = true /\
  Forall (fun s => forallb (fun f => type_fits (snd f)) (si_fields s) = true) (f_structs b) /\
  match finalize b with
  | Ok b' => map si_fields (f_structs b') =
      [[("AType", "byte"); ("A", "Uu"); ("B", "[]Uu"); ("C", "uint8"); ("DType", "byte"); ("D", "Uu")]] /\
      map si_union (f_structs b') = [["A"; "B"; "D"]]
  | _ => False
  end.
Proof. vm_compute. repeat split. repeat constructor. Qed.

(** A field of a union with a lower-case name gets no type field. *)
Theorem C45_lower_refuted : exists ds b, forallb decl_ok ds = true /\
  (forall f, 300 <= f -> main_schema f (schema_text ds) = Ok (true, b)) /\
  map si_fields (f_structs b) <>
  map (fun s => slots (map ui_name (unions_in "" (map erase ds))) (si_fields s))
      (structs_in "" (map erase ds)).
Proof.
  exists [DUnion [BSpace] "action" [] [] [mkMember [] "Aa" []] [];
          DStruct true [BSpace] "T" [] [] [] [mkFld "x" (TyName "action" []) None [] []] []].
  match goal with |- exists b, _ /\ (forall f, _ -> main_schema f ?t = _) /\ _ =>
    match eval vm_compute in (main_schema 300 t) with Ok (_, ?b) => exists b end end.
  split; [vm_compute; reflexivity|]. split.
  - apply main_schema_mono. vm_compute. reflexivity.
  - vm_compute. discriminate.
Qed.
Print Assumptions C45_lower_refuted.

(** A type with a one-letter name makes the command panic. *)
Theorem C45_panic_refuted : exists ds, ds <> [] /\ forallb decl_ok ds = true /\
  forall f, 300 <= f -> main_schema f (schema_text ds) = Panic.
Proof.
  exists [DStruct false [BSpace] "V" [] [] [] [mkFld "x" (TyKw KInt []) None [] []] [];
          DStruct true [BSpace] "T" [] [] [] [mkFld "v" (TyName "V" []) None [] []] []].
  split; [discriminate|]. split; [vm_compute; reflexivity|].
  apply main_panic_mono. vm_compute. reflexivity.
Qed.
Print Assumptions C45_panic_refuted.

(** Fields that hold a struct in place are never marked as such: the search
    compares their type with the struct's name and the suffix Message. *)
Theorem C45_struct_mark_refuted : exists b,
  (forall f, 300 <= f ->
     main_schema f "struct Vec { x:int; } table Tab { v:Vec; w:[Vec]; }" = Ok (true, b)) /\
  map si_struct (f_structs b) = [[]; []].
Proof.
  match eval vm_compute in (main_schema 300 "struct Vec { x:int; } table Tab { v:Vec; w:[Vec]; }") with
  | Ok (_, ?b) => exists b end.
  split; [apply main_schema_mono; vm_compute; reflexivity|reflexivity].
Qed.
Print Assumptions C45_struct_mark_refuted.

(** ** C46 *)

(** The conversion succeeds exactly on names without a leading, trailing or
    doubled underscore, and capitalises each part. *)
Theorem C46_camel : forall s,
  (plain_name s = true -> to_camel_case s = Ok (camel s)) /\
  (plain_name s = false -> to_camel_case s = Panic).
Proof. intros s. split; [exact (to_camel_ok s)|exact (to_camel_panic s)]. Qed.
Print Assumptions C46_camel.

Example C46_camel_case :
  plain_name "foo_bAr_2x" = true /\ camel "foo_bAr_2x" = "FooBar2x" /\
  plain_name "a__b" = false /\ plain_name "_a" = false /\ plain_name "a_" = false /\ plain_name "" = false.
Proof. vm_compute. repeat split; reflexivity. Qed.

(** Names the grammar accepts make the parser's action panic. *)
Theorem C46_refuted :
  Forall (fun n => name_ok n = true /\ to_camel_case n = Panic /\
            forall f, 300 <= f -> parse_schema f ("table T { " ++ n ++ ":int; }") = Panic)
    ["_a"; "a_"; "a__b"; "_"].
Proof.
  repeat (constructor; [split; [vm_compute; reflexivity|split; [vm_compute; reflexivity|
    apply schema_panic_mono; vm_compute; reflexivity]]|]).
  constructor.
Qed.
Print Assumptions C46_refuted.

(** Different field names of one table become the same Go name. *)
Theorem C46_collision_refuted : exists b,
  (forall f, 300 <= f -> parse_schema f "table T { fooBar:int; foobar:int; FOObar:int; }" = Ok (Some b)) /\
  map (fun s => map fst (si_fields s)) (f_structs b) = [["Foobar"; "Foobar"; "Foobar"]].
Proof.
  match eval vm_compute in (parse_schema 300 "table T { fooBar:int; foobar:int; FOObar:int; }") with
  | Ok (Some ?b) => exists b end.
  split; [apply parse_schema_mono; vm_compute; reflexivity|reflexivity].
Qed.
Print Assumptions C46_collision_refuted.

(** ** C64 *)

(** The recognizer decides every input. *)
Theorem C64_terminates : forall text,
  exists n b ts, (forall f, n <= f -> parse f text = Ok (b, ts)) /\
                 (forall f r, parse f text = Ok r -> r = (b, ts)).
Proof. exact parse_decides. Qed.
Print Assumptions C64_terminates.

(** It accepts the texts the grammar describes, and no others. *)
Theorem C64_accepts : forall text,
  exists n, forall f, n <= f ->
    exists b ts, parse f text = Ok (b, ts) /\
      (b = true <-> exists ts', peg (PRule Rschema) text (Some (ts', ""))).
Proof. exact parse_accepts_iff. Qed.
Print Assumptions C64_accepts.

(** The tokens executed are those of the match: nothing of the abandoned
    attempts is left among them. *)
Theorem C64_tokens : forall f text b ts,
  parse f text = Ok (b, ts) ->
  peg (PRule Rschema) text (if b then Some (strip ts, "") else None).
Proof. exact parse_meaning. Qed.
Print Assumptions C64_tokens.

Theorem C64_no_panic : forall f text, parse f text <> Panic.
Proof. exact parse_no_panic. Qed.
Print Assumptions C64_no_panic.

(** An accepted text, with attempts that were abandoned (a field with a
    default is first tried without one), and a rejected one. *)
Example C64_case :
  match parse 300 "table T { a:int=3; }" with
  | Ok (true, ts) => strip ts =
      [KText "T"; KAct ASetTypeName; KText "a"; KAct AFieldName; KAct (ASetType "int32");
       KText ""; KText ""; KText "3"; KAct ANewExtractFieldWithValue; KAct (AExtractStruct true)]
  | _ => False
  end /\
  match parse 300 "table T { a:int=; }" with Ok (false, ts) => ts <> [] | _ => False end.
Proof. vm_compute. split; [reflexivity|discriminate]. Qed.

(** ** C65 *)

(** A rejected schema reaches the code generator: the command goes on with the
    tokens the failed attempt left behind. *)
Theorem C65_refuted : exists text b,
  (forall f r, parse_schema f text = Ok r -> r = None) /\
  (forall f, 300 <= f -> main_schema f text = Ok (false, b)) /\
  f_structs b <> [].
Proof.
  exists "table T { ab:int; c:Vec3; } table U { d : int; }".
  match eval vm_compute in (main_schema 300 "table T { ab:int; c:Vec3; } table U { d : int; }") with
  | Ok (_, ?b) => exists b end.
  split; [|split].
  - apply (reject 300). vm_compute. reflexivity.
  - apply main_schema_mono. vm_compute. reflexivity.
  - discriminate.
Qed.
Print Assumptions C65_refuted.
