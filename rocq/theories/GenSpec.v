(** Specifications for the code generator, stated without the helpers of the
    model. *)
From Coq Require Import ZArith List Bool String Ascii.
From Verif Require Import GoLib TableModel NameModel NameSpec ParserModel ParserSpec GenModel.
Import ListNotations.
Open Scope string_scope.
Open Scope list_scope.

(** A character that separates nothing in a directive. *)
Definition word_char (c : ascii) : bool :=
  name_char c || Ascii.eqb c "[" || Ascii.eqb c "]" || Ascii.eqb c "." || Ascii.eqb c "-".

(** The names of declarations are names and the types and the root are words;
    a union has members. *)
Definition named_ok (b : fbs) : Prop :=
  all_chars word_char (f_root b) = true /\
  Forall (fun i => name_ok (si_name i) = true /\
                   Forall (fun f => name_ok (fst f) = true /\ all_chars word_char (snd f) = true)
                          (si_fields i)) (f_structs b) /\
  Forall (fun u => name_ok (ui_name u) = true /\ ui_aliases u <> [] /\
                   Forall (fun a => name_ok a = true) (ui_aliases u)) (f_unions b).

(** Every type of a field has two characters or more. *)
Definition types_long (b : fbs) : Prop :=
  Forall (fun i => Forall (fun f => (2 <= String.length (snd f))%nat) (si_fields i)) (f_structs b).

Definition struct_names (b : fbs) : list string := map si_name (f_structs b).
Definition union_names (b : fbs) : list string := map ui_name (f_unions b).

(** The first letter in upper case. *)
Definition first_upper (s : string) : string :=
  match s with
  | EmptyString => EmptyString
  | String c s' =>
      String (if between "a" "z" c then ascii_of_nat (nat_of_ascii c - 32) else c) s'
  end.

(** What the generated package has to register: for each struct or table that
    it is a struct, and each of its slots under the number of the slot; for
    each union its members in order. *)
Definition struct_steps (i : struct_info) : list init_step :=
  IStruct (first_upper (si_name i)) (negb (si_table i)) ::
  map (fun kf => IField (first_upper (si_name i)) (first_upper (fst (snd kf)))
                        (first_upper (snd (snd kf))) (Z.of_nat (fst kf)))
      (combine (seq 0 (List.length (si_fields i))) (si_fields i)).

Definition union_steps (u : union_info) : list init_step :=
  map (fun a => IAlias (first_upper (ui_name u)) (first_upper a)) (ui_aliases u).

Definition wanted (filter name : string) : bool :=
  String.eqb filter "" || String.eqb name filter.

Definition package_steps (filter : string) (b : fbs) : list init_step :=
  flat_map struct_steps (List.filter (fun i => wanted filter (si_name i)) (f_structs b)) ++
  flat_map union_steps (List.filter (fun u => wanted filter (ui_name u)) (f_unions b)).

(** A line whose words are a call of genny on the template and the file of
    [d] and with its argument. *)
Definition commanded (w : string) (d : directive) : Prop :=
  exists r, w = ("//go:generate " ++ r)%string /\
    words r = Some ["go"; "run"; "github.com/cheekybits/genny"; "-in=" ++ g_in d;
                    "-out=" ++ g_out d; "gen"; g_arg d]%string.

(** The files are pairwise different when declarations have different names,
    no name is another one with List behind it, and the slots of a struct have
    different names. *)
Definition separate (b : fbs) : Prop :=
  NoDup (struct_names b ++ union_names b) /\
  (forall x y, In x (struct_names b) -> In y (struct_names b) -> x <> (y ++ "List")%string) /\
  Forall (fun i => NoDup (map fst (si_fields i))) (f_structs b).

(** ** Types of a schema *)

(** What the format says of the Go type of a field, given the declarations.
    The elements of a vector of strings are references, as those of a vector
    of tables are. *)
Inductive format_class (ss : list struct_info) (us : list union_info)
  : string -> list class -> Prop :=
| FC_scalar : forall t, format_class ss us (scalar_name t false) [CBasic (width t)]
| FC_scalars : forall t, format_class ss us ("[]" ++ scalar_name t false) [CSlice; CBasic (width t)]
| FC_strings : format_class ss us "[][]byte" [CSlice; CTable]
| FC_struct : forall i, In i ss -> si_table i = false -> format_class ss us (si_name i) [CStruct]
| FC_table : forall i, In i ss -> si_table i = true -> format_class ss us (si_name i) [CTable]
| FC_union : forall u, In u us -> format_class ss us (ui_name u) [CUnion]
| FC_structs : forall i, In i ss -> si_table i = false ->
    format_class ss us ("[]" ++ si_name i) [CSlice; CStruct]
| FC_tables : forall i, In i ss -> si_table i = true ->
    format_class ss us ("[]" ++ si_name i) [CSlice; CTable]
| FC_unions : forall u, In u us -> format_class ss us ("[]" ++ ui_name u) [CSlice; CUnion].

(** The types the generated package classifies as the format does. *)
Inductive served (ss : list struct_info) (us : list union_info) : string -> Prop :=
| SV_scalar : forall t, t <> SUint8 -> served ss us (scalar_name t false)
| SV_scalars : forall t, t <> SUint8 -> served ss us ("[]" ++ scalar_name t false)
| SV_strings : served ss us "[][]byte"
| SV_struct : forall i, In i ss -> served ss us (si_name i)
| SV_union : forall u, In u us -> served ss us (ui_name u)
| SV_tables : forall i, In i ss -> si_table i = true -> served ss us ("[]" ++ si_name i).

(** Declared names start with a capital letter, can only be found in the
    tables of the schema, and stand for one declaration each. *)
Definition distinct_names (b : fbs) : Prop :=
  NoDup (struct_names b ++ union_names b) /\
  Forall (fun s => plain s /\ capital s = true) (struct_names b ++ union_names b).

(** The tables [n] hold what the schema says about slot [k] of [i]. *)
Definition registered (n : names) (ss : list struct_info) (us : list union_info)
  (i : struct_info) (k : nat) (f : field) : Prop :=
  (exists l, lookup (n_nameidx n) (si_name i) = Some l /\ lookup l (fst f) = Some (Z.of_nat k)) /\
  (exists l, lookup (n_idxname n) (si_name i) = Some l /\
             lookupz l (Z.of_nat k) = Some (first_upper (snd f))) /\
  forall cl, format_class ss us (snd f) cl ->
    exists g, group_of n (si_name i) (Z.of_nat k) = Some g /\ says g cl.

(** ** From the text of a schema *)

(** The structs with the slots of the format as their fields. *)
Definition slotted (ds : list adecl) : list struct_info :=
  map (fun s => mkSI (si_pkg s) (si_name s) (si_table s)
                     (slots (map ui_name (unions_in "" ds)) (si_fields s)) [] [])
      (structs_in "" ds).

(** What a schema declares, as declarations to generate from. *)
Definition schema_fbs (ds : list adecl) : fbs :=
  mkFbs (last_namespace ds) "" (last_root ds) (slotted ds) (unions_in "" ds) [] "" "" "".

(** The field types the generated accessors have a result type for. *)
Inductive resolved (ss : list struct_info) (us : list union_info) : string -> Prop :=
| RS_served : forall t, served ss us t -> resolved ss us t
| RS_structs : forall i, In i ss -> resolved ss us ("[]" ++ si_name i).

Definition all_types (P : string -> Prop) (b : fbs) : Prop :=
  Forall (fun i => Forall (fun f => P (snd f)) (si_fields i)) (f_structs b).
Definition capital_fields (b : fbs) : Prop :=
  Forall (fun i => Forall (fun f => capital (fst f) = true) (si_fields i)) (f_structs b).

(** The package made of [files] registers what [b] declares. *)
Definition serves (b : fbs) (files : list directive) : Prop :=
  exists n n', run_steps no_names (flat_map init_of files) = Ok n /\ apply_requests n = Ok n' /\
    (forall i k f, In i (f_structs b) -> nth_error (si_fields i) k = Some f ->
       registered n' (f_structs b) (f_unions b) i k f) /\
    (forall u, In u (f_unions b) ->
       lookup (n_unions n') (ui_name u) = Some (map first_upper (ui_aliases u))).
