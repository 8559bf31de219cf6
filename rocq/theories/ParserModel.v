(** Model of the schema parser: the generated recognizer
    fbsparser/fbs.peg.go, its grammar fbsparser/fbs.peg, the semantic actions
    and the post-processing of fbsparser/parser.go, and the order in which
    cmd/fbs-query/main.go calls them.

    The generated recognizer is one Go function per rule; each is a mechanical
    rendering of the grammar expression quoted in the comment above it.  It is
    modelled by those expressions ([grammar]) and an interpreter ([run]) that
    does what the rendering of each operator does: where it saves and where it
    restores the position and the number of tokens, and what it writes into the
    token array.  The token array is kept because [Parse] leaves it untrimmed
    when parsing fails and main.go executes it all the same.

    Simplifications: the input is a byte string and one byte stands for one
    rune.  Captured texts that reach an action consist of ASCII characters by
    the grammar, and everywhere else runes are only skipped, so this does not
    change the result.  A text token stores the captured text instead of its
    two positions.  Tokens that only serve to print trees (positions of rules,
    depth) and the text of error messages are left out; the initial zero tokens
    of the array, which no action looks at, are not represented. *)
From Coq Require Import List Bool String Ascii Arith.
From Verif Require Import GoLib.
Import ListNotations.
Open Scope string_scope.
Open Scope list_scope.

(** ** Grammar expressions *)

(** fbs.peg.go:16-51 *)
Inductive rule :=
| Rschema | Rstatment_decl | Rnamespace_decl | Rinclude | Rtype_decl
| Rstruct_decl | Rtable_decl | Rtypename | Rmetadata | Rfield_decl
| Rfield_type | Renum_decl | Renum_fields | Runion_decl | Runion_name
| Renum_field | Renum_field_type | Rroot_decl | Rfile_extension_decl
| Rfile_identifier_decl | Rattribute_decl | Rrpc_decl | Rtype | Rscalar
| Rinteger_constant | Rfloat_constant | Rfloat_constant_exp | Rident
| Ronly_comment | Rspacing | Rspace_comment | Rcomment | Rspace
| Rend_of_line | Rend_of_file.

(** fbs.peg.go:548-620, the bodies of the actions *)
Inductive action :=
| ASetNameSpace | AExtractStruct (is_table : bool) | ASetTypeName
| ANewExtractField | ANewExtractFieldWithValue | AFieldName | ANewUnion
| AUnionName | AEnumName | ASetRootType | ASetType (s : string)
| ASetTypeText | ASetRepeated (s : string).

Inductive pexp :=
| PChar (c : ascii)                    (* 'c' *)
| PRange (lo hi : ascii)               (* [a-z] *)
| PDot                                 (* . *)
| PEmpty
| PSeq (e1 e2 : pexp)
| PAlt (e1 e2 : pexp)
| PStar (e : pexp)
| PNot (e : pexp)
| PText (e : pexp)                     (* < e > *)
| PAct (a : action)                    (* { ... } *)
| PRule (r : rule).

Definition PPlus (e : pexp) : pexp := PSeq e (PStar e).

Fixpoint seqs (l : list pexp) : pexp :=
  match l with
  | [] => PEmpty
  | [e] => e
  | e :: l' => PSeq e (seqs l')
  end.

Fixpoint alts (l : list pexp) : pexp :=
  match l with
  | [] => PNot PEmpty
  | [e] => e
  | e :: l' => PAlt e (alts l')
  end.

(** A literal is a sequence of characters. *)
Fixpoint lit (s : string) : pexp :=
  match s with
  | EmptyString => PEmpty
  | String c EmptyString => PChar c
  | String c s' => PSeq (PChar c) (lit s')
  end.

Definition chr (s : string) : ascii :=
  match s with String c _ => c | EmptyString => "000"%char end.
Definition c_tab : ascii := "009"%char.
Definition c_lf : ascii := "010"%char.
Definition c_cr : ascii := "013"%char.

Definition blank_tab : pexp := PAlt (PChar " ") (PChar c_tab).

(** [A-z0-9_.\-]: the code tests the range from 'A' to 'z', which includes
    six punctuation characters (fbs.peg.go:879, 1846). *)
Definition path_char : pexp :=
  alts [PRange "A" "z"; PRange "0" "9"; PChar "_"; PChar "."; PChar "-"].

Definition digit : pexp := PRange "0" "9".

(** ** The grammar, fbs.peg:9-112 as rendered in fbs.peg.go:689-3840 *)

Definition kw_type (kw : string) (a : action) : pexp :=
  seqs [lit kw; PRule Rspacing; PAct a].

Definition grammar (r : rule) : pexp :=
  match r with
  | Rschema => (* fbs.peg.go:689 *)
      alts [seqs [PRule Rinclude; PRule Rend_of_file];
            seqs [PRule Rinclude; PPlus (PRule Rstatment_decl); PRule Rend_of_file];
            seqs [PPlus (PRule Rstatment_decl); PRule Rend_of_file]]
  | Rstatment_decl => (* fbs.peg.go:754 *)
      alts [PRule Rnamespace_decl; PRule Runion_decl; PRule Rtype_decl;
            PRule Renum_decl; PRule Rroot_decl; PRule Rfile_extension_decl;
            PRule Rfile_identifier_decl; PRule Rattribute_decl; PRule Rrpc_decl;
            PRule Ronly_comment]
  | Rnamespace_decl => (* fbs.peg.go:829 *)
      seqs [lit "namespace"; PRule Rspacing; PText (PPlus path_char);
            PAct ASetNameSpace; PChar ";"; PRule Rspacing]
  | Rinclude => (* fbs.peg.go:977 *)
      seqs [lit "include"; PRule Rspacing; PRule Rident; PRule Rcomment;
            PChar ";"; PRule Rspacing]
  | Rtype_decl => (* fbs.peg.go:1035 *)
      PAlt (PRule Rstruct_decl) (PRule Rtable_decl)
  | Rstruct_decl => (* fbs.peg.go:1062 *)
      seqs [lit "struct"; PRule Rspacing; PRule Rtypename; PRule Rspacing;
            PStar (PRule Rmetadata); PChar "{"; PPlus (PRule Rfield_decl);
            PChar "}"; PRule Rspacing; PAct (AExtractStruct false)]
  | Rtable_decl => (* fbs.peg.go:1146 *)
      seqs [lit "table"; PRule Rspacing; PRule Rtypename; PRule Rspacing;
            PStar (PRule Rmetadata); PChar "{"; PPlus (PRule Rfield_decl);
            PChar "}"; PRule Rspacing; PAct (AExtractStruct true)]
  | Rtypename => (* fbs.peg.go:1226 *)
      PSeq (PRule Rident) (PAct ASetTypeName)
  | Rmetadata => (* fbs.peg.go:1246 *)
      seqs [PChar "("; PText (PStar (PSeq (PNot (PChar ")")) PDot)); PChar ")"]
  | Rfield_decl => (* fbs.peg.go:1294 *)
      PAlt
        (seqs [PRule Rspacing; PRule Rfield_type; PChar ":"; PRule Rtype;
               PStar (PRule Rmetadata); PChar ";"; PRule Rspacing;
               PAct ANewExtractField])
        (seqs [PRule Rspacing; PRule Rfield_type; PChar ":"; PRule Rtype;
               PText (PStar blank_tab); PChar "="; PText (PStar blank_tab);
               PRule Rscalar; PStar (PRule Rmetadata); PChar ";";
               PRule Rspacing; PAct ANewExtractFieldWithValue])
  | Rfield_type => (* fbs.peg.go:1444 *)
      PSeq (PRule Rident) (PAct AFieldName)
  | Renum_decl => (* fbs.peg.go:1464 *)
      PAlt
        (seqs [lit "enum"; PRule Rspacing; PRule Rident; PRule Rspacing;
               PStar (PRule Rmetadata); PChar "{"; PRule Renum_fields;
               PChar "}"; PRule Rspacing])
        (seqs [lit "enum"; PRule Rspacing; PRule Rident; PChar ":"; PRule Rtype;
               PRule Rspacing; PStar (PRule Rmetadata); PChar "{";
               PRule Renum_fields; PChar "}"; PRule Rspacing])
  | Renum_fields => (* fbs.peg.go:1590 *)
      PAlt (seqs [PRule Rspacing; PRule Renum_field; PChar ","])
           (seqs [PRule Rspacing; PRule Renum_field])
  | Runion_decl => (* fbs.peg.go:1627 *)
      seqs [lit "union"; PRule Rspacing; PRule Runion_name; PRule Rspacing;
            PStar (PRule Rmetadata); PChar "{"; PPlus (PRule Renum_fields);
            PChar "}"; PRule Rspacing; PAct ANewUnion]
  | Runion_name => (* fbs.peg.go:1707 *)
      PSeq (PRule Rident) (PAct AUnionName)
  | Renum_field => (* fbs.peg.go:1727 *)
      PAlt (seqs [PRule Renum_field_type; PRule Rspacing; PAct ANewExtractField])
           (seqs [PRule Renum_field_type; PRule Rspacing; PChar "=";
                  PRule Rspacing; PRule Rinteger_constant; PRule Rspacing])
  | Renum_field_type => (* fbs.peg.go:1776 *)
      PSeq (PRule Rident) (PAct AEnumName)
  | Rroot_decl => (* fbs.peg.go:1796 *)
      seqs [lit "root_type"; PRule Rspacing; PText (PPlus path_char);
            PAct ASetRootType; PChar ";"; PRule Rspacing]
  | Rfile_extension_decl => (* fbs.peg.go:1944 *)
      seqs [lit "file_extension"; PText (PStar blank_tab);
            PText (PPlus (PSeq (PNot (PChar ";")) PDot)); PChar ";";
            PRule Rspacing]
  | Rfile_identifier_decl => (* fbs.peg.go:2088 *)
      seqs [lit "file_identifier"; PText (PStar blank_tab);
            PText (PPlus (PSeq (PNot (PChar ";")) PDot)); PChar ";";
            PRule Rspacing]
  | Rattribute_decl => (* fbs.peg.go:2236 *)
      seqs [lit "attribute"; PText (PStar blank_tab);
            PText (PPlus (PSeq (PNot (PChar ";")) PDot)); PChar ";";
            PRule Rspacing]
  | Rrpc_decl => (* fbs.peg.go:2360 *)
      seqs [lit "rpc_service"; PText (PStar blank_tab); PRule Rident; PChar "{";
            PText (PPlus (PSeq (PNot (PChar "}")) PDot)); PChar "}";
            PRule Rspacing]
  | Rtype => (* fbs.peg.go:2499 *)
      alts [kw_type "bool" (ASetType "bool");
            kw_type "int8" (ASetType "int8");
            kw_type "uint8" (ASetType "uint8");
            kw_type "int16" (ASetType "int16");
            kw_type "uint16" (ASetType "uint16");
            kw_type "int32" (ASetType "int32");
            kw_type "uint32" (ASetType "uint32");
            kw_type "int64" (ASetType "int64");
            kw_type "uint64" (ASetType "uint64");
            kw_type "float32" (ASetType "float32");
            kw_type "float64" (ASetType "float64");
            kw_type "byte" (ASetType "uint8");
            kw_type "ubyte" (ASetType "uint8");
            kw_type "short" (ASetType "int16");
            kw_type "ushort" (ASetType "uint16");
            kw_type "int" (ASetType "int32");
            kw_type "uint" (ASetType "uint32");
            kw_type "float" (ASetType "float");
            kw_type "long" (ASetType "int64");
            kw_type "ulong" (ASetType "uint64");
            kw_type "double" (ASetType "float64");
            kw_type "string" (ASetRepeated "byte");
            seqs [PRule Rident; PRule Rspacing; PAct ASetTypeText];
            seqs [PChar "["; PRule Rtype; PChar "]"; PRule Rspacing;
                  PAct (ASetRepeated "")]]
  | Rscalar => (* fbs.peg.go:3196 *)
      PAlt (PRule Rinteger_constant) (PRule Rfloat_constant)
  | Rinteger_constant => (* fbs.peg.go:3223 *)
      alts [PText (PPlus digit); lit "true"; lit "false"]
  | Rfloat_constant => (* fbs.peg.go:3304 *)
      PAlt (PText (seqs [PStar (PChar "-"); PPlus digit; PDot; digit]))
           (PRule Rfloat_constant_exp)
  | Rfloat_constant_exp => (* fbs.peg.go:3367; the last three items of the
                              grammar have run together in the rendering *)
      seqs [PText (seqs [PStar (PChar "-"); PPlus digit; PDot; PPlus digit]);
            PText (PAlt (PChar "e") (PChar "E"));
            PText (PPlus (alts [PRange "+" "]"; PChar ">"; PChar " "; PChar "<";
                                PChar "["; digit]))]
  | Rident => (* fbs.peg.go:3551 *)
      PText (PSeq (alts [PRange "a" "z"; PRange "A" "Z"; PChar "_"])
                  (PStar (alts [PRange "a" "z"; PRange "A" "Z"; PRange "0" "9";
                                PChar "_"])))
  | Ronly_comment => (* fbs.peg.go:3629 *)
      PSeq (PRule Rspacing) (PChar ";")
  | Rspacing => (* fbs.peg.go:3650 *)
      PStar (PRule Rspace_comment)
  | Rspace_comment => (* fbs.peg.go:3670 *)
      PAlt (PRule Rspace) (PRule Rcomment)
  | Rcomment => (* fbs.peg.go:3697 *)
      seqs [lit "//"; PStar (PSeq (PNot (PRule Rend_of_line)) PDot);
            PRule Rend_of_line]
  | Rspace => (* fbs.peg.go:3741 *)
      alts [PChar " "; PChar c_tab; PRule Rend_of_line]
  | Rend_of_line => (* fbs.peg.go:3776 *)
      alts [PSeq (PChar c_cr) (PChar c_lf); PChar c_lf; PChar c_cr]
  | Rend_of_file => (* fbs.peg.go:3816 *)
      PNot PDot
  end.

(** ** The recognizer *)

Inductive tok := KRule (r : rule) | KText (s : string) | KAct (a : action).

(** fbs.peg.go:634: the variables position, tokenIndex and tree.
    [p_rest] is the input from position on. *)
Record pst := mkP { p_rest : string; p_tree : list tok; p_idx : nat }.

(** fbs.peg.go:654-661 [add]: write at tokenIndex, then count.  What was left
    there by an abandoned attempt is overwritten; what lies behind stays. *)
Definition add_tok (t : tok) (s : pst) : pst :=
  mkP (p_rest s)
      (firstn (p_idx s) (p_tree s) ++ t :: skipn (S (p_idx s)) (p_tree s))
      (S (p_idx s)).

(** position, tokenIndex, depth = saved values *)
Definition restore (s0 s : pst) : pst := mkP (p_rest s0) (p_tree s) (p_idx s0).

Definition advance (rest : string) (s : pst) : pst := mkP rest (p_tree s) (p_idx s).

Definition between (lo hi c : ascii) : bool :=
  (nat_of_ascii lo <=? nat_of_ascii c)%nat && (nat_of_ascii c <=? nat_of_ascii hi)%nat.

(** The text between two positions, given as the remaining input at each. *)
Definition consumed (from to_ : string) : string :=
  substring 0 (String.length from - String.length to_) from.

(** The functions of fbs.peg.go:689-3840, by kind of expression.  The result
    says whether the expression matched.  An expression that fails may leave
    the position and the token count advanced; the places that restore them
    are those of the generated code: the second branch of a choice, the end of
    a repetition, a predicate that did not match and a failing rule. *)
Fixpoint run (fuel : nat) (e : pexp) (s : pst) : res (bool * pst) :=
  match fuel with
  | O => OutOfFuel
  | S f =>
    match e with
    | PEmpty => Ok (true, s)
    | PChar c =>
        match p_rest s with
        | String c' rest => if Ascii.eqb c' c then Ok (true, advance rest s) else Ok (false, s)
        | EmptyString => Ok (false, s)
        end
    | PRange lo hi =>
        match p_rest s with
        | String c' rest => if between lo hi c' then Ok (true, advance rest s) else Ok (false, s)
        | EmptyString => Ok (false, s)
        end
    | PDot => (* matchDot, fbs.peg.go:663-669 *)
        match p_rest s with
        | String _ rest => Ok (true, advance rest s)
        | EmptyString => Ok (false, s)
        end
    | PSeq e1 e2 =>
        do (b, s1) <- run f e1 s;
        if b : bool then run f e2 s1 else Ok (false, s1)
    | PAlt e1 e2 =>
        do (b, s1) <- run f e1 s;
        if b : bool then Ok (true, s1) else run f e2 (restore s s1)
    | PStar e1 =>
        do (b, s1) <- run f e1 s;
        if b : bool then run f (PStar e1) s1 else Ok (true, restore s s1)
    | PNot e1 =>
        do (b, s1) <- run f e1 s;
        if b : bool then Ok (false, s1) else Ok (true, restore s s1)
    | PText e1 =>
        do (b, s1) <- run f e1 s;
        if b : bool then Ok (true, add_tok (KText (consumed (p_rest s) (p_rest s1))) s1)
        else Ok (false, s1)
    | PAct a => Ok (true, add_tok (KAct a) s)
    | PRule r =>
        do (b, s1) <- run f (grammar r) s;
        if b : bool then Ok (true, add_tok (KRule r) s1) else Ok (false, restore s s1)
    end
  end.

(** fbs.peg.go:626-652 [Init], [Parse]: the tokens are trimmed to the count
    when the start rule matched and left as they are otherwise. *)
Definition parse (fuel : nat) (text : string) : res (bool * list tok) :=
  do (b, s) <- run fuel (PRule Rschema) (mkP text [] 0);
  if b : bool then Ok (true, firstn (p_idx s) (p_tree s)) else Ok (false, p_tree s).

(** ** What the actions build *)

(** structer.FieldInfo, used with Name and Type only *)
Definition field := (string * string)%type.

(** parser.go:11-18 and structer.StructInfo.  The maps IsMessage and IsSlice
    are never filled; IsUnion and IsStruct only ever map to true and are kept
    as the list of their keys. *)
Record struct_info := mkSI {
  si_pkg : string; si_name : string; si_table : bool; si_fields : list field;
  si_union : list string; si_struct : list string }.

(** parser.go:36-40 *)
Record union_info := mkUI { ui_pkg : string; ui_name : string; ui_aliases : list string }.

(** parser.go:20-34; Enums and isRepeated are never written *)
Record fbs := mkFbs {
  f_namespace : string; f_typename : string; f_root : string;
  f_structs : list struct_info; f_unions : list union_info;
  f_fields : list field; f_fname : string; f_fvalue : string; f_uname : string }.

Definition empty_fbs : fbs := mkFbs "" "" "" [] [] [] "" "" "".

Definition lower (c : ascii) : ascii :=
  if between "A" "Z" c then ascii_of_nat (nat_of_ascii c + 32) else c.
Definition upper (c : ascii) : ascii :=
  if between "a" "z" c then ascii_of_nat (nat_of_ascii c - 32) else c.

Fixpoint map_s (f : ascii -> ascii) (s : string) : string :=
  match s with EmptyString => EmptyString | String c s' => String (f c) (map_s f s') end.

(** strings.Split(s, "_") *)
Fixpoint split_us (s : string) : list string :=
  match s with
  | EmptyString => [EmptyString]
  | String c s' =>
      if Ascii.eqb c "_" then EmptyString :: split_us s'
      else match split_us s' with
           | [] => [String c EmptyString]
           | w :: ws => String c w :: ws
           end
  end.

(** parser.go:212-220 [toCamelCase], one part; unicode case mapping restricted
    to ASCII (an identifier has no other letters).  [w[0]] of an empty part is
    out of range. *)
Definition capitalize (w : string) : res string :=
  match map_s lower w with
  | EmptyString => Panic
  | String c w' => Ok (String (upper c) w')
  end.

Fixpoint capitalize_all (l : list string) : res string :=
  match l with
  | [] => Ok ""
  | w :: l' => do a <- capitalize w; do b <- capitalize_all l'; Ok (a ++ b)%string
  end.

(** parser.go:212-224 *)
Definition to_camel_case (s : string) : res string := capitalize_all (split_us s).

Definition set_fname (s : string) (b : fbs) : fbs :=
  mkFbs (f_namespace b) (f_typename b) (f_root b) (f_structs b) (f_unions b)
        (f_fields b) s (f_fvalue b) (f_uname b).
Definition set_fvalue (s : string) (b : fbs) : fbs :=
  mkFbs (f_namespace b) (f_typename b) (f_root b) (f_structs b) (f_unions b)
        (f_fields b) (f_fname b) s (f_uname b).
Definition add_field (b : fbs) : fbs :=
  mkFbs (f_namespace b) (f_typename b) (f_root b) (f_structs b) (f_unions b)
        (f_fields b ++ [(f_fname b, f_fvalue b)]) (f_fname b) (f_fvalue b) (f_uname b).

(** parser.go:131-210, the methods called by the actions; [text] is the last
    captured text *)
Definition do_action (a : action) (text : string) (b : fbs) : res fbs :=
  match a with
  | ASetNameSpace =>
      Ok (mkFbs text (f_typename b) (f_root b) (f_structs b) (f_unions b)
                (f_fields b) (f_fname b) (f_fvalue b) (f_uname b))
  | ASetRootType =>
      Ok (mkFbs (f_namespace b) (f_typename b) text (f_structs b) (f_unions b)
                (f_fields b) (f_fname b) (f_fvalue b) (f_uname b))
  | AExtractStruct t =>
      Ok (mkFbs (f_namespace b) (f_typename b) (f_root b)
                (f_structs b ++
                 [mkSI (f_namespace b) (f_typename b) t (f_fields b) [] []])
                (f_unions b) [] (f_fname b) (f_fvalue b) (f_uname b))
  | ASetTypeName =>
      Ok (mkFbs (f_namespace b) text (f_root b) (f_structs b) (f_unions b)
                (f_fields b) (f_fname b) (f_fvalue b) (f_uname b))
  | AFieldName => do n <- to_camel_case text; Ok (set_fname n b)
  | AEnumName => Ok (set_fname text b)
  | ASetType s => Ok (set_fvalue s b)
  | ASetTypeText => Ok (set_fvalue text b)
  | ANewExtractField => Ok (add_field b)
  | ANewExtractFieldWithValue => Ok (add_field b)
  | ASetRepeated s =>
      Ok (set_fvalue (if String.eqb s "" then ("[]" ++ f_fvalue b)%string
                      else ("[]" ++ s)%string) b)
  | AUnionName =>
      Ok (mkFbs (f_namespace b) (f_typename b) (f_root b) (f_structs b)
                (f_unions b) (f_fields b) (f_fname b) (f_fvalue b) text)
  | ANewUnion =>
      Ok (mkFbs (f_namespace b) (f_typename b) (f_root b) (f_structs b)
                (f_unions b ++
                 [mkUI (f_namespace b) (f_uname b) (map fst (f_fields b))])
                [] (f_fname b) (f_fvalue b) (f_uname b))
  end.

(** fbs.peg.go:539-624 [Execute] *)
Fixpoint execute (ts : list tok) (text : string) (b : fbs) : res fbs :=
  match ts with
  | [] => Ok b
  | KRule _ :: ts' => execute ts' text b
  | KText t :: ts' => execute ts' t b
  | KAct a :: ts' => do b' <- do_action a text b; execute ts' text b'
  end.

(** ** Post-processing *)

(** s[:n]: out of range panics *)
Definition str_upto (n : nat) (s : string) : res string :=
  if (String.length s <? n)%nat then Panic else Ok (substring 0 n s).

(** s[n:] *)
Definition str_from (n : nat) (s : string) : res string :=
  if (String.length s <? n)%nat then Panic else Ok (substring n (String.length s - n) s).

(** parser.go:48-65 [isUnion] *)
Definition is_union (us : list union_info) (s : string) : bool :=
  existsb (fun u => String.eqb (ui_name u) s) us.

(** strings.ToUpper(s) == s, for ASCII *)
Definition is_upper_s (s : string) : bool := String.eqb (map_s upper s) s.

(** parser.go:96-124, one field: the fields it becomes and whether it is
    entered into IsUnion *)
Definition finalize_field (us : list union_info) (f : field) : res (list field * list string) :=
  let '(fname, ftype) := f in
  do p2 <- str_upto 2 ftype;
  do up3 <- (if String.eqb p2 "[]"
             then do p3 <- str_upto 3 ftype; Ok (is_upper_s p3) else Ok false);
  if up3 : bool then
    do t <- str_from 2 ftype;
    Ok ([(fname, ("[]" ++ t)%string)], if is_union us t then [fname] else [])
  else if String.eqb p2 "[]" then Ok ([f], [])
  else
    do p1 <- str_upto 1 ftype;
    if is_upper_s p1 then
      if is_union us ftype
      then Ok ([((fname ++ "Type")%string, "byte"); (fname, ftype)], [fname])
      else Ok ([(fname, ftype)], [])
    else Ok ([f], []).

Fixpoint finalize_fields (us : list union_info) (l : list field)
  : res (list field * list string) :=
  match l with
  | [] => Ok ([], [])
  | f :: l' =>
      do (a, u) <- finalize_field us f;
      do (b, v) <- finalize_fields us l';
      Ok (a ++ b, u ++ v)
  end.

Fixpoint finalize_structs (us : list union_info) (l : list struct_info)
  : res (list struct_info) :=
  match l with
  | [] => Ok []
  | s :: l' =>
      do (fs, u) <- finalize_fields us (si_fields s);
      do ss <- finalize_structs us l';
      Ok (mkSI (si_pkg s) (si_name s) (si_table s) fs (si_union s ++ u) (si_struct s) :: ss)
  end.

(** parser.go:67-90 [SearchNotTableMessage], one field: the type without a
    leading slice and pointer mark, compared with every other struct *)
Definition marks_struct (ss : list struct_info) (me : string) (f : field) : res bool :=
  let '(fname, t0) := f in
  do p2 <- str_upto 2 t0;
  do t1 <- (if String.eqb p2 "[]" then str_from 2 t0 else Ok t0);
  do p1 <- str_upto 1 t1;
  do t2 <- (if String.eqb p1 "*" then str_from 1 t1 else Ok t1);
  Ok (existsb (fun s => negb (String.eqb me (si_name s)) &&
                        String.eqb (si_name s ++ "Message") t2 &&
                        negb (si_table s)) ss).

Fixpoint marked_fields (ss : list struct_info) (me : string) (l : list field)
  : res (list string) :=
  match l with
  | [] => Ok []
  | f :: l' =>
      do b <- marks_struct ss me f;
      do r <- marked_fields ss me l';
      Ok (if b : bool then fst f :: r else r)
  end.

Fixpoint search_not_table (all : list struct_info) (l : list struct_info)
  : res (list struct_info) :=
  match l with
  | [] => Ok []
  | s :: l' =>
      do m <- marked_fields all (si_name s) (si_fields s);
      do r <- search_not_table all l';
      Ok (mkSI (si_pkg s) (si_name s) (si_table s) (si_fields s) (si_union s)
               (si_struct s ++ m) :: r)
  end.

Definition with_structs (ss : list struct_info) (b : fbs) : fbs :=
  mkFbs (f_namespace b) (f_typename b) (f_root b) ss (f_unions b)
        (f_fields b) (f_fname b) (f_fvalue b) (f_uname b).

(** parser.go:92-129 [FinilizeForFbs] *)
Definition finalize (b : fbs) : res fbs :=
  do ss <- finalize_structs (f_unions b) (f_structs b);
  do ss' <- search_not_table ss ss;
  Ok (with_structs ss' b).

(** ** The command *)

(** What the caller of the library gets: the error of [Parse] (false), or the
    declarations after [Execute]. *)
Definition parse_schema (fuel : nat) (text : string) : res (option fbs) :=
  do (ok, ts) <- parse fuel text;
  if ok : bool then do b <- execute ts "" empty_fbs; Ok (Some b) else Ok None.

(** cmd/fbs-query/main.go:290-300: an error of [Parse] is printed and
    execution goes on with the tokens left behind.  The result is whether
    parsing succeeded and the declarations code is generated from. *)
Definition main_schema (fuel : nat) (text : string) : res (bool * fbs) :=
  do (ok, ts) <- parse fuel text;
  do b <- execute ts "" empty_fbs;
  do b' <- finalize b;
  Ok (ok, b').
