(** Model of the code generator of cmd/fbs-query/main.go: the directives it
    prints, and what the initializers of the generated package do.

    Not modelled: writing the templates and the generated file to disk
    (main.go:56-74, 166-193), the text/template mode (main.go:222-244, never
    called), the fixed head of the printed file (main.go:75-84) and flags.
    [filepath.Join] is concatenation, which it is for the names the grammar
    admits (letters, digits and underscores). *)
From Coq Require Import ZArith List Bool String Ascii DecimalString.
From Verif Require Import GoLib TableModel NameModel ParserModel.
Import ListNotations.
Open Scope string_scope.
Open Scope list_scope.

(** ** Strings *)

(** strings.ReplaceAll(s, old, new) for a non-empty [old]; [skip] counts the
    characters of the last match not yet passed. *)
Fixpoint replace_from (skip : nat) (old new s : string) : string :=
  match s with
  | EmptyString => EmptyString
  | String c s' =>
      match skip with
      | S k => replace_from k old new s'
      | O => if prefix old s
             then (new ++ replace_from (String.length old - 1) old new s')%string
             else String c (replace_from O old new s')
      end
  end.
Definition replace_all (s old new : string) : string := replace_from O old new s.

(** [%d] of a number that is not negative *)
Definition dec (n : nat) : string := NilEmpty.string_of_uint (Nat.to_uint n).

(** [%v] of a bool *)
Definition show_bool (b : bool) : string := if b then "true" else "false".

(** strings.Join *)
Fixpoint join (sep : string) (l : list string) : string :=
  match l with
  | [] => ""
  | [s] => s
  | s :: l' => (s ++ sep ++ join sep l')%string
  end.

(** ** Types *)

(** main.go:365-372 [IsSlice]; [s[:2]] panics on a shorter name *)
Definition is_slice (s : string) : res bool := do p <- str_upto 2 s; Ok (String.eqb p "[]").

(** util.go:134-137 *)
Definition has_name_type (s : string) : bool :=
  match lookup name_to_type s with Some _ => true | None => false end.

(** main.go:374-376 *)
Definition is_basic_slice (s : string) : res bool :=
  do b <- is_slice s;
  if b : bool then do r <- str_from 2 s; Ok (has_name_type r) else Ok false.

(** main.go:155-164 *)
Definition conv_result_type (o : string) : string :=
  let s := replace_all o "[]byte" "CommonNode" in
  if prefix "[]" s
  then match s with String _ (String _ r) => (r ++ "List")%string | _ => s end
  else s.

(** main.go:123-131: the chain of conditions *)
Definition result_type (t : string) : res string :=
  if has_name_type t then Ok "CommonNode"
  else do b <- is_basic_slice t;
       if b : bool then Ok "List"
       else do c <- is_slice t;
            Ok (if c : bool then conv_result_type t else t).

(** main.go:303-307, 348-350 *)
Definition is_struct_name (ss : list struct_info) (s : string) : bool :=
  existsb (fun i => negb (si_table i) && String.eqb (si_name i) s) ss.

(** ** Directives (main.go:41-154) *)

(** One printed line: the template, the file it is expanded into, the blanks
    printed before the quoted argument and the argument. *)
Record directive := mkDir { g_in : string; g_out : string; g_gap : string; g_arg : string }.

(** main.go:39 *)
Definition line (d : directive) : string :=
  ("//go:generate go run github.com/cheekybits/genny -in=" ++ g_in d ++ " -out=" ++ g_out d
   ++ "  gen " ++ g_gap d ++ """" ++ g_arg d ++ """" ++ String c_lf "")%string.

(** main.go:87-92 *)
Definition root_dir (root : string) : directive :=
  mkDir "../genny/root.go" "../root.go" " " ("RootType=" ++ root).

(** main.go:98-106 *)
Definition node_dir (ss : list struct_info) (root name : string) : directive :=
  mkDir "../genny/node.go" ("../" ++ name ++ ".gen.go") " "
    ("NodeName=" ++ name ++ " RootType=" ++ root ++ " IsStruct=" ++
     show_bool (is_struct_name ss name)).

(** main.go:108-114 *)
Definition list_dir (name : string) : directive :=
  mkDir "../genny/list.go" ("../" ++ name ++ "List.gen.go") " "
    ("NodeName=" ++ name ++ " ListType=" ++ name ++ "List").

(** main.go:117-135 *)
Definition field_dir (ss : list struct_info) (name : string) (idx : nat) (f : field)
  : res directive :=
  do r <- result_type (snd f);
  Ok (mkDir "../genny/field.go" ("../" ++ name ++ "." ++ fst f ++ ".gen.go") " "
    ("NodeName=" ++ name ++ " FieldName=" ++ fst f ++ " FieldType=" ++ snd f ++
     " ResultType=" ++ r ++ " FieldNum=" ++ dec idx ++ " IsStruct=" ++
     show_bool (is_struct_name ss (snd f)))).

Fixpoint field_dirs (ss : list struct_info) (name : string) (idx : nat) (fs : list field)
  : res (list directive) :=
  match fs with
  | [] => Ok []
  | f :: fs' =>
      do d <- field_dir ss name idx f;
      do r <- field_dirs ss name (S idx) fs';
      Ok (d :: r)
  end.

(** main.go:50, 44-47, 95, 141: an empty filter lets everything pass *)
Definition passes (filter name : string) : bool :=
  String.eqb filter "" || String.eqb filter name.

(** main.go:94-138 *)
Fixpoint struct_dirs (filter root : string) (ss l : list struct_info) : res (list directive) :=
  match l with
  | [] => Ok []
  | i :: l' =>
      if passes filter (si_name i)
      then do fs <- field_dirs ss (si_name i) 0 (si_fields i);
           do r <- struct_dirs filter root ss l';
           Ok (node_dir ss root (si_name i) :: list_dir (si_name i) :: fs ++ r)
      else struct_dirs filter root ss l'
  end.

(** main.go:140-156 *)
Definition union_dirs (filter : string) (us : list union_info) : list directive :=
  flat_map (fun u =>
    if passes filter (ui_name u)
    then [mkDir "../genny/union.go" ("../" ++ ui_name u ++ ".union.gen.go") " "
            ("UnionName=" ++ ui_name u);
          mkDir "../genny/union-alias.go" ("../" ++ ui_name u ++ ".union-alias.gen.go") ""
            ("UnionName=" ++ ui_name u ++ " AliasName=" ++ join "," (ui_aliases u))]
    else []) us.

(** main.go:41-154 [MakeGenGennies] on the declarations [main] leaves
    (main.go:301-307) *)
Definition make_gen (filter : string) (b : fbs) : res (list directive) :=
  do r <- struct_dirs filter (f_root b) (f_structs b) (f_structs b);
  Ok (root_dir (f_root b) :: r ++ union_dirs filter (f_unions b)).

(** The printed lines (after the fixed head). *)
Definition gen_text (filter : string) (b : fbs) : res string :=
  do ds <- make_gen filter b; Ok (join "" (map line ds)).

(** ** The environment of the printed file

    Assumed behaviour of tools that are not part of /repo: go generate and
    github.com/cheekybits/genny. *)

(** go generate splits the rest of a directive into words at blanks; a word
    that starts with a double quote extends to the next one (escapes, tabs and
    environment variables do not occur).  [inq] says whether the current word
    [w] is a quoted one; [None] is an unterminated quote. *)
Fixpoint words_from (inq : bool) (w s : string) : option (list string) :=
  match s with
  | EmptyString => if inq then None else Some (if String.eqb w "" then [] else [w])
  | String c s' =>
      if inq
      then if Ascii.eqb c """"
           then match words_from false "" s' with Some l => Some (w :: l) | None => None end
           else words_from true (w ++ String c "") s'
      else if Ascii.eqb c " "
           then match words_from false "" s' with
                | Some l => Some (if String.eqb w "" then l else w :: l)
                | None => None
                end
           else if Ascii.eqb c """" && String.eqb w ""
                then words_from true "" s'
                else words_from false (w ++ String c "") s'
  end.
Definition words (s : string) : option (list string) := words_from false "" s.

(** strings.Split(s, sep) for a separator of one character *)
Fixpoint split_on (sep : ascii) (s : string) : list string :=
  match s with
  | EmptyString => [EmptyString]
  | String c s' =>
      if Ascii.eqb c sep then EmptyString :: split_on sep s'
      else match split_on sep s' with
           | [] => [String c EmptyString]
           | w :: ws => String c w :: ws
           end
  end.

(** genny splits its argument into pairs at blanks, a pair at the equals sign
    and the value at commas; anything else is an error ([None]). *)
Fixpoint bindings_of (pairs : list string) : option (list (string * list string)) :=
  match pairs with
  | [] => Some []
  | p :: ps =>
      match split_on "=" p, bindings_of ps with
      | [k; v], Some r => Some ((k, split_on "," v) :: r)
      | _, _ => None
      end
  end.
Definition bindings (arg : string) : option (list (string * list string)) :=
  bindings_of (split_on " " arg).

Definition values (k : string) (bs : list (string * list string)) : list string :=
  match lookup bs k with Some l => l | None => [] end.

(** genny writes a value into a string literal with its first letter in upper
    case. *)
Definition exported (s : string) : string :=
  match s with EmptyString => EmptyString | String c s' => String (upper c) s' end.

(** util.go:191-193 *)
Definition to_bool (s : string) : bool := String.eqb s "true" || String.eqb s "True".

(** strconv.Atoi on digits, and util.go:139-147: 0 on an error *)
Definition atoi (s : string) : Z :=
  match NilEmpty.uint_of_string s with
  | Some u => Z.of_nat (Nat.of_uint u)
  | None => 0
  end.

(** The package-level initializers in the file generated for [d], in order:
    node.go:25, field.go:16-22, union-alias.go:11.  genny expands a template
    once per combination of values. *)
Definition init_of (d : directive) : list init_step :=
  match bindings (g_arg d) with
  | None => []
  | Some bs =>
      if String.eqb (g_in d) "../genny/node.go"
      then flat_map (fun n => map (fun b => IStruct (exported n) (to_bool (exported b)))
                                  (values "IsStruct" bs)) (values "NodeName" bs)
      else if String.eqb (g_in d) "../genny/field.go"
      then flat_map (fun n => flat_map (fun f => flat_map (fun t =>
             map (fun k => IField (exported n) (exported f) (exported t) (atoi (exported k)))
                 (values "FieldNum" bs)) (values "FieldType" bs))
             (values "FieldName" bs)) (values "NodeName" bs)
      else if String.eqb (g_in d) "../genny/union-alias.go"
      then flat_map (fun u => map (fun a => IAlias (exported u) (exported a))
                                  (values "AliasName" bs)) (values "UnionName" bs)
      else []
  end.

(** A directive whose file is written again by a later one leaves nothing. *)
Fixpoint written (l : list directive) : list directive :=
  match l with
  | [] => []
  | d :: l' =>
      if existsb (fun e => String.eqb (g_out e) (g_out d)) l' then written l'
      else d :: written l'
  end.

(** The types, and their functions emptyX and NewX, that the generated package
    defines: root.go:26-56, node.go:12-18 and its NewNodeName, list.go:5-21,
    union.go:11-26. *)
Definition types_of (d : directive) : list string :=
  match bindings (g_arg d) with
  | None => []
  | Some bs =>
      if String.eqb (g_in d) "../genny/root.go" then ["CommonNode"; "CommonNodeList"; "List"]
      else if String.eqb (g_in d) "../genny/node.go" then values "NodeName" bs
      else if String.eqb (g_in d) "../genny/list.go" then values "ListType" bs
      else if String.eqb (g_in d) "../genny/union.go" then values "UnionName" bs
      else []
  end.

(** The result type an accessor is declared with (field.go:24, 42). *)
Definition results_of (d : directive) : list string :=
  match bindings (g_arg d) with
  | None => []
  | Some bs => if String.eqb (g_in d) "../genny/field.go" then values "ResultType" bs else []
  end.
