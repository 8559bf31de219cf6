(** Model of the name tables of query/base/util.go and of their use by the
    generated code (template/genny/node.go, union-alias.go).

    Go maps are association lists searched from the front; an insertion puts
    the new pair in front.  Go strings are byte strings ([string]).  Logging is
    omitted. *)
From Coq Require Import ZArith List Bool String Ascii.
From Verif Require Import GoLib TableModel.
Import ListNotations.
Open Scope string_scope.
Open Scope list_scope.
Open Scope Z_scope.

(** ** Association lists *)
Fixpoint lookup {A} (m : list (string * A)) (k : string) : option A :=
  match m with
  | [] => None
  | (k', v) :: m' => if String.eqb k' k then Some v else lookup m' k
  end.

Fixpoint lookupz {A} (m : list (Z * A)) (k : Z) : option A :=
  match m with
  | [] => None
  | (k', v) :: m' => if k' =? k then Some v else lookupz m' k
  end.

(** ** Type names *)

(** util.go:60-85 [NameToType] *)
Definition name_to_type : list (string * scalar) :=
  [("bool", SBool); ("byte", SByte); ("int8", SInt8); ("int16", SInt16);
   ("int32", SInt32); ("int64", SInt64); ("unt8", SUint8); ("uint16", SUint16);
   ("uint32", SUint32); ("uint64", SUint64); ("float32", SFloat32);
   ("float64", SFloat64);
   ("Bool", SBool); ("Byte", SByte); ("Int8", SInt8); ("Int16", SInt16);
   ("Int32", SInt32); ("Int64", SInt64); ("Unt8", SUint8); ("Uint16", SUint16);
   ("Uint32", SUint32); ("Uint64", SUint64); ("Float32", SFloat32);
   ("Float64", SFloat64)].

(** util.go:35-45 *)
Definition FieldTypeNone : Z := 1.
Definition FieldTypeStruct : Z := 2.
Definition FieldTypeTable : Z := 4.
Definition FieldTypeUnion : Z := 8.
Definition FieldTypeSlice : Z := 16.
Definition FieldTypeBasic1 : Z := 32.
Definition FieldTypeBasic2 : Z := 64.
Definition FieldTypeBasic4 : Z := 128.
Definition FieldTypeBasic8 : Z := 256.

(** util.go:149 *)
Definition FieldTypeBasic : Z :=
  Z.lor (Z.lor (Z.lor FieldTypeBasic1 FieldTypeBasic2) FieldTypeBasic4) FieldTypeBasic8.

(** util.go:87-100 [TypeToGroup] *)
Definition type_to_group (t : scalar) : Z :=
  match t with
  | SBool => FieldTypeBasic1
  | SByte => FieldTypeBasic1
  | SInt8 => FieldTypeBasic1
  | SInt16 => FieldTypeBasic2
  | SInt32 => FieldTypeBasic4
  | SInt64 => FieldTypeBasic8
  | SUint8 => FieldTypeBasic1
  | SUint16 => FieldTypeBasic2
  | SUint32 => FieldTypeBasic4
  | SUint64 => FieldTypeBasic8
  | SFloat32 => FieldTypeBasic4
  | SFloat64 => FieldTypeBasic8
  end.

(** base.go:326-331 *)
Definition is_match_bit (i j : Z) : bool := 0 <? Z.land i j.

(** util.go:151-172 *)
Definition is_field_struct i := is_match_bit i FieldTypeStruct.
Definition is_field_union i := is_match_bit i FieldTypeUnion.
Definition is_field_bytes i := is_match_bit i FieldTypeSlice && is_match_bit i FieldTypeBasic1.
Definition is_field_slice i := is_match_bit i FieldTypeSlice.
Definition is_field_table i := is_match_bit i FieldTypeTable.
Definition is_field_basic i := is_match_bit i FieldTypeBasic.

(** The package variables [IsStructName], [UnionAlias], [All_IdxToType],
    [All_IdxToTypeGroup], [All_IdxToName], [All_NameToIdx],
    [requestNameFields] and [RootName] (util.go:115-361).  A map variable of
    the generated code ([NodeName_IdxToType] and so on) and the entry of the
    package map it is stored under are the same Go map, so there is only one
    list for both. *)
Record request := mkReq { q_node : string; q_field : string; q_type : string; q_num : Z }.

Record names := mkNames {
  n_structs : list (string * bool);
  n_unions : list (string * list string);
  n_types : list (string * list (Z * scalar));
  n_groups : list (string * list (Z * Z));
  n_idxname : list (string * list (Z * string));
  n_nameidx : list (string * list (string * Z));
  n_pending : list request;
  n_root : string }.

Definition no_names : names := mkNames [] [] [] [] [] [] [] "".

(** util.go:117-123 *)
Definition set_name_is_struct (n : names) (s : string) (enable : bool) : names :=
  if enable
  then mkNames ((s, true) :: n_structs n) (n_unions n) (n_types n) (n_groups n)
         (n_idxname n) (n_nameidx n) (n_pending n) (n_root n)
  else n.

(** util.go:176-184 *)
Definition set_alias (n : names) (u a : string) : names :=
  let old := match lookup (n_unions n) u with Some l => l | None => [] end in
  mkNames (n_structs n) ((u, old ++ [a]) :: n_unions n) (n_types n) (n_groups n)
    (n_idxname n) (n_nameidx n) (n_pending n) (n_root n).

(** [s[2:]] *)
Definition str_from2 (s : string) : res string :=
  match s with
  | String _ (String _ r) => Ok r
  | _ => Panic
  end.

(** util.go:290-318 *)
Definition get_type_group (n : names) (s : string) : res Z :=
  match lookup name_to_type s with
  | Some t => Ok (type_to_group t)
  | None =>
    match lookup (n_unions n) s with
    | Some _ => Ok FieldTypeUnion
    | None =>
      if prefix "[]byte" s then Ok (Z.lor FieldTypeSlice FieldTypeBasic1)
      else
        let result := if prefix "[]" s then FieldTypeSlice else 0 in
        do r <- str_from2 s;
        match lookup name_to_type r with
        | Some t => Ok (Z.lor result (type_to_group t))
        | None =>
          match lookup (n_structs n) s with
          | Some true => Ok (Z.lor result FieldTypeStruct)
          | _ => Ok (Z.lor result FieldTypeTable)
          end
        end
    end
  end.

(** common.go:318-331 [IsList] on a node with the given name and number of
    vector elements; [Name[0:2]] panics on a shorter name. *)
Definition is_list_name (s : string) (vlen : Z) : res bool :=
  if String.eqb s "" && (0 <? vlen) then Ok true
  else do _ <- str_from2 s; Ok (prefix "[]" s).

(** ** Deferred registration *)

(** util.go:329-337 *)
Definition request_setting (n : names) (node field typ : string) (num : Z) : names :=
  mkNames (n_structs n) (n_unions n) (n_types n) (n_groups n) (n_idxname n)
    (n_nameidx n) (n_pending n ++ [mkReq node field typ num]) (n_root n).

Definition sub {A} (m : list (string * list A)) (k : string) : list A :=
  match lookup m k with Some l => l | None => [] end.

(** template/genny/node.go:27-48 [SetNodeNameFields], generated once per table
    or struct with its name as [nName] *)
Definition set_fields (n : names) (node field typ : string) (num : Z) : res names :=
  let n := request_setting n node field typ num in
  let types := match lookup name_to_type typ with
               | Some t => (node, (num, t) :: sub (n_types n) node) :: n_types n
               | None => n_types n
               end in
  do grp <- get_type_group n typ;
  Ok (mkNames (n_structs n) (n_unions n) types
        ((node, (num, grp) :: sub (n_groups n) node) :: n_groups n)
        ((node, (num, typ) :: sub (n_idxname n) node) :: n_idxname n)
        ((node, (field, num) :: sub (n_nameidx n) node) :: n_nameidx n)
        (n_pending n) (n_root n)).

(** One evaluation of the predicate in util.go:345-351.  Storing into a missing
    entry of [All_IdxToTypeGroup] stores into a nil map, which panics. *)
Definition apply_one (n : names) (q : request) : res names :=
  do grp <- get_type_group n (q_type q);
  match lookup (n_groups n) (q_node q) with
  | None => Panic
  | Some l =>
      Ok (mkNames (n_structs n) (n_unions n) (n_types n)
            ((q_node q, (q_num q, grp) :: l) :: n_groups n)
            (n_idxname n) (n_nameidx n) (n_pending n) (n_root n))
  end.

Fixpoint apply_all (n : names) (qs : list request) : res names :=
  match qs with
  | [] => Ok n
  | q :: qs' => do n' <- apply_one n q; apply_all n' qs'
  end.

(** util.go:339-355: [loncha.Delete] with a predicate that is always true; it
    is taken to evaluate the predicate once per element, in order. *)
Definition apply_requests (n : names) : res names :=
  do n' <- apply_all n (n_pending n);
  Ok (mkNames (n_structs n') (n_unions n') (n_types n') (n_groups n')
        (n_idxname n') (n_nameidx n') [] (n_root n')).

(** util.go:361-365 *)
Definition set_root_name (n : names) (s : string) : names :=
  if String.eqb (n_root n) ""
  then mkNames (n_structs n) (n_unions n) (n_types n) (n_groups n) (n_idxname n)
         (n_nameidx n) (n_pending n) s
  else n.

(** One package-level initializer of a generated package: node.go:25,
    union-alias.go:11, field.go:22. *)
Inductive init_step :=
| IStruct (name : string) (enable : bool)
| IAlias (union alias : string)
| IField (node field typ : string) (num : Z).

Definition run_step (n : names) (i : init_step) : res names :=
  match i with
  | IStruct s e => Ok (set_name_is_struct n s e)
  | IAlias u a => Ok (set_alias n u a)
  | IField nd f t k => set_fields n nd f t k
  end.

Fixpoint run_steps (n : names) (l : list init_step) : res names :=
  match l with
  | [] => Ok n
  | i :: l' => do n' <- run_step n i; run_steps n' l'
  end.

(** ** Symbols *)

(** [IdxNames] and [Name2Idx] *)
Record symbols := mkSyms { y_names : list string; y_index : list (string * Z) }.

Definition no_symbols : symbols := mkSyms [] [].

(** util.go:204-220; [loncha.IndexOf] finds the first index *)
Definition add_name (y : symbols) (s : string) : symbols :=
  match lookup (y_index y) s with
  | Some _ => y
  | None =>
      let names := y_names y ++ [s] in
      match first_index (fun x => String.eqb x s) names with
      | Some i => mkSyms names ((s, Z.of_nat i) :: y_index y)
      | None => mkSyms names (y_index y)
      end
  end.

Definition add_names (y : symbols) (l : list string) : symbols := fold_left add_name l y.

(** util.go:222-228 *)
Definition symbol (y : symbols) (s : string) : Z :=
  match lookup (y_index y) s with Some v => v | None => -1 end.

(** util.go:230-235; a negative index panics *)
Definition symbol_to_string (y : symbols) (i : Z) : res string :=
  if zlen (y_names y) <=? i then Ok ""
  else match zget (y_names y) i with Some s => Ok s | None => Panic end.

(** util.go:237-246: the comparisons of unsigned numbers with 0 are false *)
Definition node_field_symbol (y : symbols) (node field : string) : option Z :=
  let nidx := u32 (symbol y node) in
  let fidx := u32 (symbol y field) in
  if (nidx <? 0) || (fidx <? 0) then None
  else Some (u32 (u32 (Z.shiftl nidx 16) + fidx)).

(** util.go:248-264; [None] is ERR_INVALID_INDEX *)
Definition symbol_to_names (y : symbols) (idx : Z) : res (option (string * string)) :=
  let nidx := Z.shiftr idx 16 in
  let fidx := u32 (idx - u32 (Z.shiftl (Z.shiftr idx 16) 16)) in
  do node <- symbol_to_string y nidx;
  if String.eqb node "" then Ok None
  else do field <- symbol_to_string y fidx;
       if String.eqb field "" then Ok None else Ok (Some (node, field)).

(** util.go:266-272 *)
Definition is_same_table (i j : Z) : bool := Z.shiftr i 16 =? Z.shiftr j 16.
Definition is_same_field (i j : Z) : bool :=
  u32 (i - u32 (Z.shiftl (Z.shiftr i 16) 16)) =? u32 (j - u32 (Z.shiftl (Z.shiftr j 16) 16)).

(** ** Integers (util.go:367-398) *)
Definition max_int (l : list Z) : res Z :=
  match l with
  | [] => Panic
  | x :: _ => Ok (fold_left (fun r v => if r <? v then v else r) l x)
  end.

Definition min_int (l : list Z) : res Z :=
  match l with
  | [] => Panic
  | x :: _ => Ok (fold_left (fun r v => if v <? r then v else r) l x)
  end.

Definition sum_ints (l : list Z) : Z := fold_left (fun s v => s + v) l 0.
