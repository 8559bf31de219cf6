(** Specification for the schema parser: the standard meaning of parsing
    expression grammars, schemas as abstract syntax with an explicit layout,
    what a schema declares, camel case, and the field list the format assigns
    vtable slots to. *)
From Coq Require Import List Bool String Ascii Arith.
From Verif Require Import GoLib ParserModel.
Import ListNotations.
Open Scope string_scope.
Open Scope list_scope.

(** ** Parsing expression grammars

    [peg e s (Some (ts, s'))]: [e] matches a prefix of [s], leaves [s'], and
    the captures and actions of the match are [ts]; [peg e s None]: [e] does
    not match at the start of [s]. *)
Inductive peg : pexp -> string -> option (list tok * string) -> Prop :=
| peg_empty s : peg PEmpty s (Some ([], s))
| peg_char c s : peg (PChar c) (String c s) (Some ([], s))
| peg_char_no c c' s : c' <> c -> peg (PChar c) (String c' s) None
| peg_char_end c : peg (PChar c) "" None
| peg_range lo hi c s : between lo hi c = true -> peg (PRange lo hi) (String c s) (Some ([], s))
| peg_range_no lo hi c s : between lo hi c = false -> peg (PRange lo hi) (String c s) None
| peg_range_end lo hi : peg (PRange lo hi) "" None
| peg_dot c s : peg PDot (String c s) (Some ([], s))
| peg_dot_end : peg PDot "" None
| peg_seq e1 e2 s t1 s1 t2 s2 :
    peg e1 s (Some (t1, s1)) -> peg e2 s1 (Some (t2, s2)) ->
    peg (PSeq e1 e2) s (Some (t1 ++ t2, s2))
| peg_seq_no1 e1 e2 s : peg e1 s None -> peg (PSeq e1 e2) s None
| peg_seq_no2 e1 e2 s t1 s1 :
    peg e1 s (Some (t1, s1)) -> peg e2 s1 None -> peg (PSeq e1 e2) s None
| peg_alt1 e1 e2 s m : peg e1 s (Some m) -> peg (PAlt e1 e2) s (Some m)
| peg_alt2 e1 e2 s o : peg e1 s None -> peg e2 s o -> peg (PAlt e1 e2) s o
| peg_star_end e s : peg e s None -> peg (PStar e) s (Some ([], s))
| peg_star_more e s t1 s1 t2 s2 :
    peg e s (Some (t1, s1)) -> peg (PStar e) s1 (Some (t2, s2)) ->
    peg (PStar e) s (Some (t1 ++ t2, s2))
| peg_not e s : peg e s None -> peg (PNot e) s (Some ([], s))
| peg_not_no e s m : peg e s (Some m) -> peg (PNot e) s None
| peg_text e w s ts :
    peg e (w ++ s)%string (Some (ts, s)) ->
    peg (PText e) (w ++ s)%string (Some (ts ++ [KText w], s))
| peg_text_no e s : peg e s None -> peg (PText e) s None
| peg_act a s : peg (PAct a) s (Some ([KAct a], s))
| peg_rule r s o : peg (grammar r) s o -> peg (PRule r) s o.

(** The captures and actions among the tokens of the recognizer. *)
Definition strip (ts : list tok) : list tok :=
  filter (fun t => match t with KRule _ => false | _ => true end) ts.

(** ** Camel case

    Underscores are dropped; a letter at the start or after an underscore
    becomes upper case, every other one lower case. *)
Fixpoint camel_from (start : bool) (s : string) : string :=
  match s with
  | EmptyString => EmptyString
  | String c s' =>
      if Ascii.eqb c "_" then camel_from true s'
      else String (if start then upper (lower c) else lower c) (camel_from false s')
  end.
Definition camel (s : string) : string := camel_from true s.

(** No underscore at the start, at the end or next to another one. *)
Fixpoint single_us (start : bool) (s : string) : bool :=
  match s with
  | EmptyString => negb start
  | String c s' =>
      if Ascii.eqb c "_" then negb start && single_us true s' else single_us false s'
  end.
Definition plain_name (s : string) : bool := single_us true s.

(** ** Layout *)

Inductive eol := EolLF | EolCR | EolCRLF.
Inductive blank := BSpace | BTab | BEol (e : eol) | BComment (text : string) (e : eol).

Definition eol_text (e : eol) : string :=
  match e with
  | EolLF => String c_lf ""
  | EolCR => String c_cr ""
  | EolCRLF => String c_cr (String c_lf "")
  end.

Definition blank_text (b : blank) : string :=
  match b with
  | BSpace => " "
  | BTab => String c_tab ""
  | BEol e => eol_text e
  | BComment t e => ("//" ++ t ++ eol_text e)%string
  end.

Fixpoint blanks (l : list blank) : string :=
  match l with [] => "" | b :: l' => (blank_text b ++ blanks l')%string end.

Fixpoint all_chars (p : ascii -> bool) (s : string) : bool :=
  match s with EmptyString => true | String c s' => p c && all_chars p s' end.

(** A comment does not contain an end of line. *)
Definition blank_ok (b : blank) : bool :=
  match b with
  | BComment t _ => all_chars (fun c => negb (Ascii.eqb c c_lf) && negb (Ascii.eqb c c_cr)) t
  | _ => true
  end.
Definition layout_ok (l : list blank) : bool := forallb blank_ok l.

(** ** Schemas *)

Definition letter (c : ascii) : bool :=
  between "a" "z" c || between "A" "Z" c || Ascii.eqb c "_".
Definition name_char (c : ascii) : bool := letter c || between "0" "9" c.

Definition name_ok (s : string) : bool :=
  match s with EmptyString => false | String c s' => letter c && all_chars name_char s' end.

Definition path_ok (s : string) : bool :=
  match s with
  | EmptyString => false
  | _ => all_chars (fun c => name_char c || Ascii.eqb c "." || Ascii.eqb c "-") s
  end.

(** The type keywords of the FlatBuffers schema language. *)
Inductive kw :=
| KBool | KInt8 | KUint8 | KInt16 | KUint16 | KInt32 | KUint32 | KInt64 | KUint64
| KFloat32 | KFloat64 | KByte | KUbyte | KShort | KUshort | KInt | KUint | KFloat
| KLong | KUlong | KDouble | KString.

Definition kw_text (k : kw) : string :=
  match k with
  | KBool => "bool" | KInt8 => "int8" | KUint8 => "uint8" | KInt16 => "int16"
  | KUint16 => "uint16" | KInt32 => "int32" | KUint32 => "uint32" | KInt64 => "int64"
  | KUint64 => "uint64" | KFloat32 => "float32" | KFloat64 => "float64"
  | KByte => "byte" | KUbyte => "ubyte" | KShort => "short" | KUshort => "ushort"
  | KInt => "int" | KUint => "uint" | KFloat => "float" | KLong => "long"
  | KUlong => "ulong" | KDouble => "double" | KString => "string"
  end.

Definition all_kws : list kw :=
  [KBool; KInt8; KUint8; KInt16; KUint16; KInt32; KUint32; KInt64; KUint64;
   KFloat32; KFloat64; KByte; KUbyte; KShort; KUshort; KInt; KUint; KFloat;
   KLong; KUlong; KDouble; KString].

(** The Go type of each, by the FlatBuffers documentation: byte is the signed
    8-bit type and float the 32-bit one; a string is a slice of bytes. *)
Definition kw_go (k : kw) : string :=
  match k with
  | KBool => "bool" | KInt8 => "int8" | KUint8 => "uint8" | KInt16 => "int16"
  | KUint16 => "uint16" | KInt32 => "int32" | KUint32 => "uint32" | KInt64 => "int64"
  | KUint64 => "uint64" | KFloat32 => "float32" | KFloat64 => "float64"
  | KByte => "int8" | KUbyte => "uint8" | KShort => "int16" | KUshort => "uint16"
  | KInt => "int32" | KUint => "uint32" | KFloat => "float32" | KLong => "int64"
  | KUlong => "uint64" | KDouble => "float64" | KString => "[]byte"
  end.

(** A type; the layout follows it. *)
Inductive ty :=
| TyKw (k : kw) (l : list blank)
| TyName (n : string) (l : list blank)
| TyVec (t : ty) (l : list blank).

Fixpoint ty_text (t : ty) : string :=
  match t with
  | TyKw k l => (kw_text k ++ blanks l)%string
  | TyName n l => (n ++ blanks l)%string
  | TyVec t l => ("[" ++ ty_text t ++ "]" ++ blanks l)%string
  end.

Fixpoint ty_go (t : ty) : string :=
  match t with
  | TyKw k _ => kw_go k
  | TyName n _ => n
  | TyVec t _ => ("[]" ++ ty_go t)%string
  end.

(** A type name that does not begin with a type keyword. *)
Definition clear_of_keywords (n : string) : bool :=
  forallb (fun k => negb (prefix (kw_text k) n)) all_kws.

Fixpoint ty_ok (t : ty) : bool :=
  match t with
  | TyKw k l => match k with KByte | KFloat => false | _ => true end && layout_ok l
  | TyName n l => name_ok n && clear_of_keywords n && layout_ok l
  | TyVec t l => ty_ok t && layout_ok l
  end.

(** Default values: digits, true or false. *)
Inductive default := DefInt (digits : string) | DefTrue | DefFalse.
Definition default_text (d : default) : string :=
  match d with DefInt s => s | DefTrue => "true" | DefFalse => "false" end.
Definition default_ok (d : default) : bool :=
  match d with
  | DefInt s => negb (String.eqb s "") && all_chars (between "0" "9") s
  | _ => true
  end.

(** Attributes in parentheses. *)
Fixpoint metas (l : list string) : string :=
  match l with [] => "" | m :: l' => ("(" ++ m ++ ")" ++ metas l')%string end.
Definition meta_ok (m : string) : bool := all_chars (fun c => negb (Ascii.eqb c ")")) m.

(** A field, followed by layout. *)
Record fld := mkFld {
  fl_name : string; fl_type : ty; fl_default : option default;
  fl_metas : list string; fl_post : list blank }.

Definition fld_text (f : fld) : string :=
  (fl_name f ++ ":" ++ ty_text (fl_type f) ++
   match fl_default f with None => "" | Some d => "=" ++ default_text d end ++
   metas (fl_metas f) ++ ";" ++ blanks (fl_post f))%string.

Definition fld_ok (f : fld) : bool :=
  name_ok (fl_name f) && plain_name (fl_name f) && ty_ok (fl_type f) &&
  match fl_default f with None => true | Some d => default_ok d end &&
  forallb meta_ok (fl_metas f) && layout_ok (fl_post f).

Fixpoint flds_text (l : list fld) : string :=
  match l with [] => "" | f :: l' => (fld_text f ++ flds_text l')%string end.

(** A member of a union with the layout before and after its name. *)
Record member := mkMember { mb_pre : list blank; mb_name : string; mb_post : list blank }.

Definition member_text (m : member) : string :=
  (blanks (mb_pre m) ++ mb_name m ++ blanks (mb_post m))%string.
Definition member_ok (m : member) : bool :=
  layout_ok (mb_pre m) && name_ok (mb_name m) && layout_ok (mb_post m).

Fixpoint members_text (l : list member) : string :=
  match l with
  | [] => ""
  | [m] => member_text m
  | m :: l' => (member_text m ++ "," ++ members_text l')%string
  end.

Inductive decl :=
| DNamespace (l1 : list blank) (path : string) (post : list blank)
| DStruct (is_table : bool) (l1 : list blank) (name : string) (l2 : list blank)
          (ms : list string) (pre : list blank) (fs : list fld) (post : list blank)
| DUnion (l1 : list blank) (name : string) (l2 : list blank) (ms : list string)
         (mbs : list member) (post : list blank)
| DRoot (l1 : list blank) (path : string) (post : list blank)
| DFileExt (text : string) (post : list blank)
| DFileId (text : string) (post : list blank)
| DAttribute (text : string) (post : list blank)
| DRpc (name body : string) (post : list blank).

Definition decl_text (d : decl) : string :=
  (match d with
   | DNamespace l1 p post => "namespace" ++ blanks l1 ++ p ++ ";" ++ blanks post
   | DStruct t l1 n l2 ms pre fs post =>
       (if t then "table" else "struct") ++ blanks l1 ++ n ++ blanks l2 ++ metas ms ++
       "{" ++ blanks pre ++ flds_text fs ++ "}" ++ blanks post
   | DUnion l1 n l2 ms mbs post =>
       "union" ++ blanks l1 ++ n ++ blanks l2 ++ metas ms ++
       "{" ++ members_text mbs ++ "}" ++ blanks post
   | DRoot l1 p post => "root_type" ++ blanks l1 ++ p ++ ";" ++ blanks post
   | DFileExt t post => "file_extension " ++ t ++ ";" ++ blanks post
   | DFileId t post => "file_identifier " ++ t ++ ";" ++ blanks post
   | DAttribute t post => "attribute " ++ t ++ ";" ++ blanks post
   | DRpc n b post => "rpc_service " ++ n ++ "{" ++ b ++ "}" ++ blanks post
   end)%string.

Fixpoint schema_text (ds : list decl) : string :=
  match ds with [] => "" | d :: ds' => (decl_text d ++ schema_text ds')%string end.

(** Text up to a semicolon: not empty, not starting with a blank. *)
Definition quoted_ok (t : string) : bool :=
  match t with
  | EmptyString => false
  | String c _ =>
      negb (Ascii.eqb c " ") && negb (Ascii.eqb c c_tab) &&
      all_chars (fun c => negb (Ascii.eqb c ";")) t
  end.

Definition nonempty {A} (l : list A) : bool := match l with [] => false | _ => true end.

Definition decl_ok (d : decl) : bool :=
  match d with
  | DNamespace l1 p post => layout_ok l1 && path_ok p && layout_ok post
  | DStruct _ l1 n l2 ms pre fs post =>
      layout_ok l1 && name_ok n && layout_ok l2 && forallb meta_ok ms &&
      layout_ok pre && nonempty fs && forallb fld_ok fs && layout_ok post
  | DUnion l1 n l2 ms mbs post =>
      layout_ok l1 && name_ok n && layout_ok l2 && forallb meta_ok ms &&
      nonempty mbs && forallb member_ok mbs && layout_ok post
  | DRoot l1 p post => layout_ok l1 && path_ok p && layout_ok post
  | DFileExt t post | DFileId t post | DAttribute t post => quoted_ok t && layout_ok post
  | DRpc n b post =>
      name_ok n && negb (String.eqb b "") &&
      all_chars (fun c => negb (Ascii.eqb c "}")) b && layout_ok post
  end.

(** ** What a schema declares, without its layout *)

Inductive adecl :=
| ANamespace (path : string)
| AStruct (is_table : bool) (name : string) (fs : list (string * string))
| AUnion (name : string) (members : list string)
| ARoot (path : string)
| AOther.

Definition erase (d : decl) : adecl :=
  match d with
  | DNamespace _ p _ => ANamespace p
  | DStruct t _ n _ _ _ fs _ =>
      AStruct t n (map (fun f => (camel (fl_name f), ty_go (fl_type f))) fs)
  | DUnion _ n _ _ mbs _ => AUnion n (map mb_name mbs)
  | DRoot _ p _ => ARoot p
  | _ => AOther
  end.

(** A declaration belongs to the namespace named last before it. *)
Fixpoint structs_in (ns : string) (ds : list adecl) : list struct_info :=
  match ds with
  | [] => []
  | ANamespace p :: ds' => structs_in p ds'
  | AStruct t n fs :: ds' => mkSI ns n t fs [] [] :: structs_in ns ds'
  | _ :: ds' => structs_in ns ds'
  end.

Fixpoint unions_in (ns : string) (ds : list adecl) : list union_info :=
  match ds with
  | [] => []
  | ANamespace p :: ds' => unions_in p ds'
  | AUnion n ms :: ds' => mkUI ns n ms :: unions_in ns ds'
  | _ :: ds' => unions_in ns ds'
  end.

Definition last_namespace (ds : list adecl) : string :=
  fold_left (fun s d => match d with ANamespace p => p | _ => s end) ds "".
Definition last_root (ds : list adecl) : string :=
  fold_left (fun s d => match d with ARoot p => p | _ => s end) ds "".

(** The declarations [ds] are what [b] holds. *)
Definition declares (ds : list adecl) (b : fbs) : Prop :=
  f_structs b = structs_in "" ds /\ f_unions b = unions_in "" ds /\
  f_namespace b = last_namespace ds /\ f_root b = last_root ds.

(** ** Vtable slots

    The format gives a union-typed field two slots, the first one for its
    one-byte type. *)
Definition slots (unions : list string) (fs : list field) : list field :=
  flat_map (fun f : field =>
              if existsb (String.eqb (snd f)) unions
              then [((fst f ++ "Type")%string, "byte"); f] else [f]) fs.

(** A name that starts with a capital letter or an underscore. *)
Definition capital (s : string) : bool :=
  match s with String c _ => between "A" "Z" c || Ascii.eqb c "_" | EmptyString => false end.

(** The text of a Go type has two characters or more, and more than the
    slice mark. *)
Definition type_fits (t : string) : bool :=
  (2 <=? String.length t)%nat && negb (String.eqb t "[]").

(** Every type of a declared field is that long, and every union has a
    capital name. *)
Definition adecl_fits (d : adecl) : bool :=
  match d with
  | AStruct _ _ fs => forallb (fun f => type_fits (snd f)) fs
  | AUnion n _ => capital n
  | _ => true
  end.

(** The names of the fields whose type, or whose elements' type, is a union. *)
Definition element_type (t : string) : string :=
  if String.eqb (substring 0 2 t) "[]" then substring 2 (String.length t - 2) t else t.

Definition union_fields (unions : list string) (fs : list field) : list string :=
  map fst (filter (fun f : field => existsb (String.eqb (element_type (snd f))) unions) fs).

(** [s'] is [s] with the slots of the format as its fields and the fields that
    hold unions entered as such. *)
Definition same_struct (us : list string) (s s' : struct_info) : Prop :=
  si_pkg s' = si_pkg s /\ si_name s' = si_name s /\ si_table s' = si_table s /\
  si_fields s' = slots us (si_fields s) /\
  si_union s' = si_union s ++ union_fields us (si_fields s).
