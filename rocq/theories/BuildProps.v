(** Property theorems about building tables (C87, C88). *)
From Coq Require Import ZArith List Bool String.
From Coq Require Import Strings.Byte.
From Verif Require Import GoLib BaseModel BaseSpec TableModel TableSpec NameModel NameSpec
  WalkModel WalkSpec WalkProofs6 EqualSpec BuildModel BuildSpec BuildProofs8 BuildProofs9 WalkProofs9.
From Verif Require Import BuildProofs10.
Import ListNotations.
Open Scope string_scope.
Open Scope list_scope.
Open Scope Z_scope.

(** ** A schema *)

(** What the initializers of a generated package do for the schema
    [[
    struct Vec { x: int; y: int; }       union Body { File, Note }
    table Note { n: int; }               table File { id: ulong; name: string; }
    table Hold { body: Body; }           table Pair { a: string; b: string; }
    table Opt { note: Note; }            table Box { v: short; at: Vec; file: File; }
    table Nums { nums: [int]; }
    ]] *)
Definition fields_of (node : string) (l : list (string * string)) : list init_step :=
  map (fun p => IField node (fst (snd p)) (snd (snd p)) (fst p)) (number 0 l).

Definition steps : list init_step :=
  [IStruct "Vec" true; IStruct "Note" false; IStruct "File" false; IStruct "Hold" false;
   IStruct "Pair" false; IStruct "Opt" false; IStruct "Box" false; IStruct "Nums" false;
   IAlias "Body" "File"; IAlias "Body" "Note"] ++
  fields_of "Vec" [("X", "Int32"); ("Y", "Int32")] ++
  fields_of "Note" [("N", "Int32")] ++
  fields_of "File" [("Id", "Uint64"); ("Name", "[]byte")] ++
  fields_of "Hold" [("BodyType", "Byte"); ("Body", "Body")] ++
  fields_of "Pair" [("A", "[]byte"); ("B", "[]byte")] ++
  fields_of "Opt" [("Note", "Note")] ++
  fields_of "Box" [("V", "Int16"); ("At", "Vec"); ("File", "File")] ++
  fields_of "Nums" [("Nums", "[]int32")].

Definition reg : names :=
  match run_steps no_names steps with
  | Ok n => match apply_requests n with Ok n' => n' | _ => no_names end
  | _ => no_names
  end.

Definition vec : list scalar := [SInt32; SInt32].
Definition file_tys : list ty := [TyScalar SUint64; TyScalars SByte].
Definition hold_tys : list ty := [TyScalar SByte; TyUnion ["File"; "Note"]].
Definition sch : list (string * list ty) :=
  [("Note", [TyScalar SInt32]); ("File", file_tys); ("Hold", hold_tys);
   ("Pair", [TyScalars SByte; TyScalars SByte]); ("Opt", [TyTable "Note"]);
   ("Box", [TyScalar SInt16; TyStruct "Vec" vec; TyTable "File"]); ("Nums", [TyScalars SInt32])].

Lemma sample_described : describes reg (lookup sch).
Proof. apply describes_sound. vm_compute. reflexivity. Qed.

(** Nodes for the examples: a scalar, the call that assigns it, and a built table
    in a flattened buffer. *)
Definition nothing : base * cnode := (new_base (gs_of []), mkC None no_vinfo "" [] []).
Definition num (name : string) (t : scalar) (v : Z) : base * cnode :=
  match scalar_node reg name t v with Ok x => x | _ => nothing end.
Definition assign (i : Z) (x : base * cnode) : Z * base * cnode := (i, fst x, snd x).
Definition text (l : list byte) : base * cnode := byte_list reg l.
Definition finished (r : res (option (base * cnode))) : base * cnode :=
  match r with
  | Ok (Some (b, c)) => match base_flatten b with Ok b' => (b', c) | _ => nothing end
  | _ => nothing
  end.
Definition bytes_of (x : base * cnode) : list byte := sl_data (b_bytes (fst x)).

Definition note (v : Z) := build_table reg 20 "Note" [assign 0 (num "Int32" SInt32 v)].
Definition file_calls := [assign 0 (num "Uint64" SUint64 7); assign 1 (text [x61; x62])].
Definition file := build_table reg 20 "File" file_calls.
Definition hold_calls := [assign 1 (finished file); assign 0 (num "Byte" SByte 1)].

(** ** C87: a table built field by field *)

Theorem C87_build_partial : forall n s name tys l st, describes n s -> s name = Some tys -> buildable tys ->
  history n s name tys start l st -> typed_unions tys st ->
  exists k b b' fs, let p := 4 + 2 * zlen tys in let m := img_bytes (sl_data (b_bytes b')) in
    (forall fuel, (k <= fuel)%nat ->
       build_table n fuel name l = Ok (Some (b, new_node n (Some (p, -1)) no_vinfo name))) /\
    base_flatten b = Ok b' /\ flat b' /\ zlen fs = zlen tys /\
    reach (Tab name p fs) <= zlen (sl_data (b_bytes b')) /\
    stored_table (window m 0 (reach (Tab name p fs))) s name p (Tab name p fs) /\
    forall i t w, zget tys i = Some t -> zget fs i = Some w -> as_assigned m t (st i) w.
Proof. exact (fun n s name tys l st HD HS HB => table_built n s name tys HD HS HB l st). Qed.
Print Assumptions C87_build_partial.

(** It can then be assigned to a field of another table, and so on. *)
Theorem C87_nested : forall n s name tys b fs, s name = Some tys ->
  let p := 4 + 2 * zlen tys in let m := img_bytes (sl_data (b_bytes b)) in
  flat b -> reach (Tab name p fs) <= zlen (sl_data (b_bytes b)) ->
  stored_table (window m 0 (reach (Tab name p fs))) s name p (Tab name p fs) -> measured (Tab name p fs) ->
  lone_table n s b (new_node n (Some (p, -1)) no_vinfo name) name m (Tab name p fs).
Proof. exact (fun n s name tys b fs HS => built_gives n s name tys HS b fs). Qed.
Print Assumptions C87_nested.

(** The scalars and strings made by the generated functions are values for the
    fields. *)
Theorem C87_scalars : forall n s name i l typ t v, lookup (n_idxname n) name = Some l ->
  lookupz l i = Some typ -> in_range t v ->
  exists fb f, scalar_node n typ t v = Ok (fb, f) /\
    gives n s name i (TyScalar t) fb f (Bytes (scalar_bytes t v)).
Proof. exact scalar_gives. Qed.
Print Assumptions C87_scalars.

Theorem C87_strings : forall n s name i idx t p, lookup (n_idxname n) name = Some idx ->
  lookupz idx i = Some "[]byte" -> lookup (n_idxname n) "[]byte" = None ->
  zwidth t = 1 -> zlen p < 4294967296 ->
  let (fb, f) := byte_list n p in
  gives n s name i (TyScalars t) fb f
    (Value (img_bytes (sl_data (b_bytes fb))) (Scalars 4 (zlen p) 1)).
Proof. exact bytes_gives. Qed.
Print Assumptions C87_strings.

(** No table comes out of calls of which one gets a value of a wrong type. *)
Theorem C87_refused : forall n s name tys i fb f l1 l2 fuel r, describes n s -> s name = Some tys ->
  mistyped n name tys i f -> build_table n fuel name (l1 ++ (i, fb, f) :: l2) <> Ok (Some r).
Proof. exact (fun n s name tys i fb f l1 l2 fuel r HD => refused n s HD name tys i fb f l1 l2 fuel r). Qed.
Print Assumptions C87_refused.

(** A number as the name of a file, before a right call. *)
Example C87_refused_example :
  build_table reg 20 "File" [assign 1 (num "Int32" SInt32 5); assign 0 (num "Uint64" SUint64 7)] = Ok None.
Proof. vm_compute. reflexivity. Qed.

(** A file with a number and a name ... *)
Definition file_st : state :=
  put (put start 0 (Bytes (scalar_bytes SUint64 7))) 1
    (Value (img_bytes (bytes_of (text [x61; x62]))) (Scalars 4 2 1)).

Example C87_file : buildable file_tys /\ typed_unions file_tys file_st /\
  history reg (lookup sch) "File" file_tys start file_calls file_st /\
  bytes_of (finished file) = map z2b
    [8; 0; 16; 0; 4; 0; 12; 0; 8; 0; 0; 0; 7; 0; 0; 0; 0; 0; 0; 0; 4; 0; 0; 0; 2; 0; 0; 0; 97; 98] /\
  stored_table (img_bytes (bytes_of (finished file))) (lookup sch) "File" 8
    (Tab "File" 8 [Scalar 12 8; Scalars 28 2 1]).
Proof.
  split; [|split; [|split; [|split; [vm_compute; reflexivity|]]]].
  - split; [reflexivity|]. split; [discriminate|]. split; [repeat constructor; discriminate|].
    intros i us H. unfold zget in H. destruct (i <? 0); [discriminate|].
    destruct (Z.to_nat i) as [|[|k]]; try discriminate. destruct k; discriminate.
  - intros i us H. unfold zget in H. destruct (i <? 0); [discriminate|].
    destruct (Z.to_nat i) as [|[|k]]; try discriminate. destruct k; discriminate.
  - apply Hi_cons with (t := TyScalar SUint64) (e := Bytes (scalar_bytes SUint64 7));
      [reflexivity| |discriminate|].
    + destruct (C87_scalars reg (lookup sch) "File" 0 [(1, "[]byte"); (0, "Uint64")] "Uint64" SUint64 7)
        as (fb & f & E & G); [vm_compute; reflexivity|reflexivity|vm_compute; split; discriminate|].
      unfold num. rewrite E. exact G.
    + eapply Hi_cons with (t := TyScalars SByte); [reflexivity| | |apply Hi_nil].
      * apply (C87_strings reg (lookup sch) "File" 1 [(1, "[]byte"); (0, "Uint64")] SByte [x61; x62]);
          vm_compute; reflexivity.
      * intros _. split; [|exact I]. intros j t Hj Hr. unfold put, start.
        destruct (Z.eqb_spec j 0) as [->|Hn]; [|reflexivity]. unfold zget in Hj. cbn in Hj.
        injection Hj as <-. discriminate.
  - apply (decode_sound (bytes_of (finished file)) (lookup sch) 9). vm_compute. reflexivity.
Qed.

(** ... and a union with this file, whose type is assigned afterwards. *)
Definition hold_st : state :=
  put (put start 1 (Value (img_bytes (bytes_of (finished file))) (Tab "File" 8 [Scalar 12 8; Scalars 28 2 1])))
    0 (Bytes [x01]).

Example C87_hold : buildable hold_tys /\ typed_unions hold_tys hold_st /\
  history reg (lookup sch) "Hold" hold_tys start hold_calls hold_st /\
  stored_table (img_bytes (bytes_of (finished (build_table reg 20 "Hold" hold_calls)))) (lookup sch) "Hold" 8
    (Tab "Hold" 8 [Scalar 16 1; Tab "File" 25 [Scalar 29 8; Scalars 45 2 1]]).
Proof.
  split; [|split; [|split]].
  - split; [reflexivity|]. split; [discriminate|]. split; [repeat constructor; discriminate|].
    intros i us H. destruct (union_second _ _ _ _ H eq_refl) as [-> ->]. exists SByte. split; reflexivity.
  - intros i us H. destruct (union_second _ _ _ _ H eq_refl) as [-> ->]. cbn. exists 0. do 4 eexists.
    split; [reflexivity|]. split; [reflexivity|]. split; [reflexivity|]. reflexivity.
  - apply Hi_cons with (t := TyUnion ["File"; "Note"])
      (e := Value (img_bytes (bytes_of (finished file))) (Tab "File" 8 [Scalar 12 8; Scalars 28 2 1]));
      [reflexivity| | |].
    + exists "File", (img_bytes (bytes_of (finished file))), (Tab "File" 8 [Scalar 12 8; Scalars 28 2 1]).
      split; [left; reflexivity|]. split; [reflexivity|].
      assert (E : snd (finished file) = new_node reg (Some (4 + 2 * zlen file_tys, -1)) no_vinfo "File")
        by (vm_compute; reflexivity).
      rewrite E.
      apply (C87_nested reg (lookup sch) "File" file_tys (fst (finished file)) [Scalar 12 8; Scalars 28 2 1] eq_refl);
        [vm_compute; split; reflexivity|vm_compute; discriminate| |apply measured_sound; vm_compute; reflexivity].
      apply (window_all _ _ _ (bytes_of (finished file))); [|vm_compute; reflexivity].
      apply C87_file.
    + intros _. split; [intros j t _ _; reflexivity|]. discriminate.
    + apply Hi_cons with (t := TyScalar SByte) (e := Bytes [x01]); [reflexivity| |discriminate|apply Hi_nil].
      destruct (C87_scalars reg (lookup sch) "Hold" 0 [(1, "Body"); (0, "Byte")] "Byte" SByte 1)
        as (fb & f & E & G); [vm_compute; reflexivity|reflexivity|vm_compute; split; discriminate|].
      unfold num. rewrite E. exact G.
  - apply (decode_sound (bytes_of (finished (build_table reg 20 "Hold" hold_calls))) (lookup sch) 9).
    vm_compute. reflexivity.
Qed.

(** A second reference is stored where the first one is: both then lead to the
    last value. *)
Theorem C87_second_refuted : exists r x v, build_table reg 20 "Pair" [assign 0 (text [x61; x62]); assign 1 (text [x63])] = Ok r /\
  finished (Ok r) = x /\ stored_table (img_bytes (bytes_of x)) (lookup sch) "Pair" 8 v /\
  v = Tab "Pair" 8 [Scalars 24 1 1; Scalars 24 1 1] /\ zget (bytes_of x) 24 = Some x63.
Proof.
  eexists. exists (finished (build_table reg 20 "Pair" [assign 0 (text [x61; x62]); assign 1 (text [x63])])). eexists.
  split; [vm_compute; reflexivity|]. split; [vm_compute; reflexivity|]. split; [|split; [reflexivity|vm_compute; reflexivity]].
  apply (decode_sound (bytes_of (finished (build_table reg 20 "Pair" [assign 0 (text [x61; x62]); assign 1 (text [x63])]))) (lookup sch) 9).
  vm_compute. reflexivity.
Qed.
Print Assumptions C87_second_refuted.

(** Replacing a string by a shorter one moves bytes of the table itself: the
    offset of the string is then far beyond the buffer. *)
Theorem C87_shorter_refuted : exists l r, l = [assign 1 (text [x61; x62; x63; x64]); assign 1 (text [x65])] /\
  build_table reg 20 "File" l = Ok (Some r) /\
  exists soff tl, table_at (img_bytes (bytes_of (finished (Ok (Some r))))) 8 soff [0; 4] tl /\
    holds_uint (img_bytes (bytes_of (finished (Ok (Some r))))) 12 4 1028 /\
    zlen (bytes_of (finished (Ok (Some r)))) = 21.
Proof.
  eexists. eexists. split; [reflexivity|]. split; [vm_compute; reflexivity|].
  do 2 eexists. split; [|split; [apply uint_sound; vm_compute; reflexivity|vm_compute; reflexivity]].
  apply (header_sound (map z2b [8; 0; 8; 0; 0; 0; 4; 0; 8; 0; 0; 0; 4; 4; 0; 0; 1; 0; 0; 0; 101]) 8 2).
  vm_compute. reflexivity.
Qed.
Print Assumptions C87_shorter_refuted.

(** A union is not replaced by a table with a larger vtable: the new vtable is
    written over the offset that leads to it.  When the new type is assigned first,
    the call for the value panics. *)
Theorem C87_replace_refuted : exists r,
  build_table reg 20 "Hold" [assign 0 (num "Byte" SByte 2); assign 1 (finished (note 9)); assign 1 (finished file);
                             assign 0 (num "Byte" SByte 1)] = Ok (Some r) /\
  (exists soff tl, table_at (img_bytes (bytes_of (finished (Ok (Some r))))) 8 soff [4; 5] tl) /\
  holds_uint (img_bytes (bytes_of (finished (Ok (Some r))))) 13 4 524298 /\
  zlen (bytes_of (finished (Ok (Some r)))) = 59 /\
  build_table reg 20 "Hold" [assign 0 (num "Byte" SByte 2); assign 1 (finished (note 9));
                             assign 0 (num "Byte" SByte 1); assign 1 (finished file)] = Panic.
Proof.
  eexists. split; [vm_compute; reflexivity|]. split.
  - do 2 eexists. apply (header_sound (bytes_of (finished (build_table reg 20 "Hold"
      [assign 0 (num "Byte" SByte 2); assign 1 (finished (note 9)); assign 1 (finished file);
       assign 0 (num "Byte" SByte 1)]))) 8 2).
    vm_compute. reflexivity.
  - split; [apply uint_sound; vm_compute; reflexivity|]. split; vm_compute; reflexivity.
Qed.
Print Assumptions C87_replace_refuted.

(** A type byte beyond the members makes the call for the value panic. *)
Theorem C87_type_refuted : exists l, l = [assign 0 (num "Byte" SByte 3); assign 1 (finished (note 9))] /\
  build_table reg 20 "Hold" l = Panic.
Proof. eexists. split; [reflexivity|]. vm_compute. reflexivity. Qed.
Print Assumptions C87_type_refuted.

(** Two notes share a vtable, as builders of other languages store them.  The
    second one, assigned to a field, is read as another number. *)
Definition shared_bytes : list byte := map z2b
  [10; 0; 0; 0; 6; 0; 8; 0; 4; 0; 6; 0; 0; 0; 1; 0; 0; 0; 14; 0; 0; 0; 2; 0; 0; 0].

Theorem C87_shared_refuted : exists r,
  stored_table (img_bytes shared_bytes) (lookup sch) "Note" 18 (Tab "Note" 18 [Scalar 22 4]) /\
  holds_uint (img_bytes shared_bytes) 22 4 2 /\
  build_table reg 20 "Opt" [(0, new_base (gs_of shared_bytes), new_node reg (Some (18, -1)) no_vinfo "Note")] =
    Ok (Some r) /\
  exists m, m = img_bytes (bytes_of (finished (Ok (Some r)))) /\
  stored_table m (lookup sch) "Opt" 6 (Tab "Opt" 6 [Tab "Note" 20 [Scalar 30 4]]) /\ holds_uint m 30 4 0.
Proof.
  eexists. split; [apply (decode_sound shared_bytes (lookup sch) 9); vm_compute; reflexivity|].
  split; [apply uint_sound; vm_compute; reflexivity|]. split; [vm_compute; reflexivity|].
  eexists. split; [reflexivity|]. split; [|apply uint_sound; vm_compute; reflexivity].
  apply (decode_sound (bytes_of (finished (build_table reg 20 "Opt"
    [(0, new_base (gs_of shared_bytes), new_node reg (Some (18, -1)) no_vinfo "Note")]))) (lookup sch) 9).
  vm_compute. reflexivity.
Qed.
Print Assumptions C87_shared_refuted.

(** The numbers of a vector taken from another table are not copied, only how
    many there are. *)
Definition nums_bytes : list byte := map z2b
  [12; 0; 0; 0; 0; 0; 6; 0; 8; 0; 4; 0; 6; 0; 0; 0; 4; 0; 0; 0; 2; 0; 0; 0; 5; 0; 0; 0; 6; 0; 0; 0].

Theorem C87_vector_refuted : exists f r,
  stored_table (img_bytes nums_bytes) (lookup sch) "Nums" 12 (Tab "Nums" 12 [Scalars 24 2 4]) /\
  field_at reg (new_base (gs_of nums_bytes)) (new_node reg (Some (12, -1)) no_vinfo "Nums") 0 = Ok f /\
  build_table reg 20 "Nums" [(0, new_base (gs_of nums_bytes), f)] = Ok (Some r) /\
  bytes_of (finished (Ok (Some r))) = map z2b [6; 0; 8; 0; 4; 0; 6; 0; 0; 0; 4; 0; 0; 0; 2; 0; 0; 0].
Proof.
  do 2 eexists. split; [apply (decode_sound nums_bytes (lookup sch) 9); vm_compute; reflexivity|].
  split; [vm_compute; reflexivity|]. split; [vm_compute; reflexivity|]. vm_compute; reflexivity.
Qed.
Print Assumptions C87_vector_refuted.

(** Room is made twice for a table: as many bytes as it takes follow it unused. *)
Theorem C87_gap_refuted : exists r x, build_table reg 20 "Opt" [assign 0 (finished (note 9))] = Ok (Some r) /\
  x = bytes_of (finished (Ok (Some r))) /\
  stored_table (img_bytes x) (lookup sch) "Opt" 6 (Tab "Opt" 6 [Tab "Note" 20 [Scalar 24 4]]) /\
  reach (Tab "Opt" 6 [Tab "Note" 20 [Scalar 24 4]]) = 28 /\ zlen x = 28 + zlen (bytes_of (finished (note 9))).
Proof.
  do 2 eexists. split; [vm_compute; reflexivity|]. split; [reflexivity|].
  split; [|split; vm_compute; reflexivity].
  apply (decode_sound (bytes_of (finished (build_table reg 20 "Opt" [assign 0 (finished (note 9))]))) (lookup sch) 9).
  vm_compute. reflexivity.
Qed.
Print Assumptions C87_gap_refuted.

(** ** C88: a built table as a root buffer *)

Theorem C88_header_partial : forall n s name tys l st, describes n s -> s name = Some tys -> buildable tys ->
  history n s name tys start l st -> typed_unions tys st ->
  exists k b b1 b' fs, let p := 4 + 2 * zlen tys in let m := img_bytes (sl_data (b_bytes b')) in
    (forall fuel, (k <= fuel)%nat ->
       build_table n fuel name l = Ok (Some (b, new_node n (Some (p, -1)) no_vinfo name))) /\
    with_header b p = Ok (b1, p + 8) /\ base_flatten b1 = Ok b' /\ flat b' /\ zlen fs = zlen tys /\
    reach (Tab name (p + 8) fs) <= zlen (sl_data (b_bytes b')) /\
    holds_uint m 0 4 (p + 8) /\ stored_table m s name (p + 8) (Tab name (p + 8) fs) /\
    forall i t w, zget tys i = Some t -> zget fs i = Some w -> as_assigned m t (st i) w.
Proof. exact (fun n s name tys l st HD HS HB => header_added n s name tys HD HS HB l st). Qed.
Print Assumptions C88_header_partial.

Example C88_hold : exists b c b1 b',
  build_table reg 20 "Hold" hold_calls = Ok (Some (b, c)) /\ with_header b 8 = Ok (b1, 16) /\
  base_flatten b1 = Ok b' /\
  root_node reg b' "Hold" = Ok (new_node reg (Some (16, -1)) no_vinfo "Hold") /\
  decode (sl_data (b_bytes b')) (lookup sch) 9 "Hold" 16 =
    Some (Tab "Hold" 16 [Scalar 24 1; Tab "File" 33 [Scalar 37 8; Scalars 53 2 1]]).
Proof.
  do 4 eexists. split; [vm_compute; reflexivity|]. split; [vm_compute; reflexivity|].
  split; [vm_compute; reflexivity|]. split; vm_compute; reflexivity.
Qed.
