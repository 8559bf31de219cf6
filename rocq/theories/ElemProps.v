(** Property theorems about setting elements of vectors in a buffer with a root
    (C108, C109). *)
From Coq Require Import ZArith List Bool String.
From Coq Require Import Strings.Byte.
From Verif Require Import GoLib BaseModel BaseSpec TableModel TableSpec NameModel NameSpec StreamModel
  WalkModel WalkSpec WalkProofs6 WalkProofs9 EqualSpec InsModel InsSpec InsProofs3 BuildModel PutModel PutSpec PutProofs6
  JourModel JourSpec JourProofs10 ElemModel ElemSpec ElemProofs ElemProofs4.
From Verif Require BuildSpec BuildProofs8 BuildProofs9.
From Verif Require Import WalkProps InsProps PutProps JourProps.
Import ListNotations.
Open Scope string_scope.
Open Scope list_scope.
Open Scope Z_scope.

(** Element [j] of the field [i] of the table [nm] at [p] of [l] set to [x] *)
Definition elem_in (root : string) (l : list byte) (nm : string) (p i j : Z) (x : base * cnode) : res result :=
  do f <- field_at (pkg root) (mem l) (at_pos nm p) i;
  set_elem (pkg root) 20 (mem l) f j (fst x) (snd x).

(** A file as a table of its own *)
Definition file (v : Z) (s : list byte) : base * cnode :=
  let x := num "Uint64" SUint64 v in let y := text s in
  match build_table reg 20 "File" [(0, fst x, snd x); (1, fst y, snd y)] with
  | Ok (Some (b, c)) => match base_flatten b with Ok b' => (b', c) | _ => (mem [], c) end
  | _ => (mem [], at_pos "File" 0)
  end.
Definition letters (l : list Z) : list byte := map z2b l.

(** A number made for a field is an element of a vector of such numbers. *)
Lemma num_elem : forall root (s : schema) nm i l typ t v, lookup (n_idxname reg) nm = Some l -> lookupz l i = Some typ -> lookup name_to_type typ = Some t -> in_range t v ->
  c_name (snd (num typ t v)) = typ -> c_node (snd (num typ t v)) = Some (0, zwidth t) ->
  gives_elem (pkg root) (TyScalars t) (fst (num typ t v)) (snd (num typ t v)) (scalar_bytes t v).
Proof.
  intros root s nm i l typ t v HL HI HT HR EN EC. destruct (num_gives root s nm i l typ t v HL HI HR) as (_ & p & pos & z & E & CN & ZP & DV).
  injection E as ->. assert (P : pos = 0) by congruence. subst pos.
  exists 0, z. split; [exact CN|]. assert (Z0 : z = zwidth t) by congruence. subst z. split; [right; symmetry; exact ZP|].
  split; [exact DV|]. split; [rewrite EN; exact HT|exact ZP].
Qed.

(** ** C108: numbers and structs of vectors *)

(** [SetAt] with an element of the right type in place of one that is there: the
    bytes of the element are the new ones, all others stay, and the journal that
    results can be read like the one before; other bytes that were read from one
    place still are. *)
Theorem C108_element : forall n s, describes n s ->
  forall b m name p v z tn tp fs tys idx t w q k j eb e x, in_memory b -> shows b m ->
  stored_table m s name p v -> intact b m v ->
  only_table v (Tab tn tp fs) -> s tn = Some tys -> zget tys idx = Some t -> types_no_union tys idx ->
  zget fs idx = Some w -> inline_vector w q k -> 0 <= j < k ->
  gives_elem n t eb e x -> x <> [] ->
  let dst := q + j * zlen x in let m' := img_write m dst x in
  (forall a l, In (a, l) (parts m (fill tp idx (Absent t) v)) -> disjoint a l dst (zlen x)) ->
  (forall a u, In (a, u) (links m v) -> disjoint a 4 dst (zlen x)) ->
  exists f b' c', field_at n b (new_node n (Some (tp, z)) no_vinfo tn) idx = Ok f /\
    (forall fuel, (1 <= fuel)%nat -> set_elem n fuel b f j eb e = Ok (Put_ok b' c')) /\
    c_node c' = c_node f /\ c_name c' = c_name f /\ c_info c' = mkV q (k * zlen x) k /\
    in_memory b' /\ shows b' m' /\ stored_table m' s name p v /\ intact b' m' v /\ delivers b' dst x /\
    held b' dst (zlen x) /\ forall a l, held b a l -> disjoint a l dst (zlen x) -> held b' a l.
Proof. exact elem_replaced. Qed.
Print Assumptions C108_element.

(** The second number of the sample, from 20 to 99. *)
Example C108_number :
  let v := val_of doc_bytes "Doc" in let m := img_bytes doc_bytes in let x := num "Int32" SInt32 99 in
  exists fs tys, v = Tab "Doc" 24 fs /\ lookup sch "Doc" = Some tys /\ zget tys 5 = Some (TyScalars SInt32) /\ types_no_union tys 5 /\
  stored_table m (lookup sch) "Doc" 24 v /\ intact (mem doc_bytes) m v /\ only_table v v /\
  zget fs 5 = Some (Scalars 104 2 4) /\ inline_vector (Scalars 104 2 4) 104 2 /\
  gives_elem (pkg "Doc") (TyScalars SInt32) (fst x) (snd x) (scalar_bytes SInt32 99) /\
  (forall a l, In (a, l) (parts m (fill 24 5 (Absent (TyScalars SInt32)) v)) -> disjoint a l 108 4) /\
  (forall a u, In (a, u) (links m v) -> disjoint a 4 108 4) /\
  exists b' c', elem_in "Doc" doc_bytes "Doc" 24 5 1 x = Ok (Put_ok b' c') /\
    rd 4 b' 104 = Ok 10 /\ rd 4 b' 108 = Ok 99 /\ decode (flat_bytes b') (lookup sch) 9 "Doc" 24 = Some v.
Proof.
  eexists. eexists. split; [vm_compute; reflexivity|]. split; [reflexivity|]. split; [reflexivity|]. split; [intros us; vm_compute; discriminate|].
  split; [apply (decode_sound doc_bytes (lookup sch) 9); vm_compute; reflexivity|]. split; [apply intact_sound; vm_compute; reflexivity|].
  split; [apply only_sound; [vm_compute; left; reflexivity|vm_compute; reflexivity]|]. split; [reflexivity|]. split; [split; reflexivity|].
  split; [eapply (num_elem "Doc" (lookup sch) "Doc" 0); [vm_compute; reflexivity|vm_compute; reflexivity|reflexivity|vm_compute; intuition discriminate|vm_compute; reflexivity|vm_compute; reflexivity]|].
  split; [apply apart_from_sound; vm_compute; reflexivity|]. split; [apply links_from_sound; vm_compute; reflexivity|].
  put_done. repeat (split; [vm_compute; reflexivity|]). vm_compute. reflexivity.
Qed.

(** An index behind the end of the vector is refused, whatever the element. *)
Theorem C108_refused : forall n s, describes n s ->
  forall b m fuel name p z fs idx w k j eb e, in_memory b -> shows b m ->
  stored_table m s name p (Tab name p fs) -> intact b m (Tab name p fs) -> zget fs idx = Some w ->
  vector_length w = Some k -> k < j ->
  exists f, field_at n b (new_node n (Some (p, z)) no_vinfo name) idx = Ok f /\ set_elem n fuel b f j eb e = Ok Put_error.
Proof. exact elem_refused. Qed.
Print Assumptions C108_refused.

Example C108_third : elem_in "Doc" doc_bytes "Doc" 24 5 3 (num "Int32" SInt32 99) = Ok Put_error /\
  elem_in "Doc" doc_bytes "Doc" 24 4 3 (file 9 (letters [97])) = Ok Put_error.
Proof. split; vm_compute; reflexivity. Qed.

(** A number appended: the bytes behind the vector move, the references to what
    is there do not, and the document is no longer stored. *)
Theorem C108_append_refuted : exists l v fs q k x b' c',
  v = Tab "Doc" 24 fs /\ stored_table (img_bytes l) (lookup sch) "Doc" 24 v /\ zget fs 5 = Some (Scalars q k 4) /\
  x = num "Int32" SInt32 99 /\ elem_in "Doc" l "Doc" 24 5 k x = Ok (Put_ok b' c') /\
  v_len (c_info c') = k + 1 /\ decode (flat_bytes b') (lookup sch) 9 "Doc" 24 = None.
Proof.
  exists doc_bytes. eexists. eexists. exists 104, 2. eexists.
  match goal with |- exists b' c', _ => let r := eval vm_compute in (elem_in "Doc" doc_bytes "Doc" 24 5 2 (num "Int32" SInt32 99)) in
    match r with Ok (Put_ok ?b ?c) => exists b, c end end.
  split; [reflexivity|]. split; [apply (decode_sound doc_bytes (lookup sch) 9); vm_compute; reflexivity|].
  split; [reflexivity|]. split; [reflexivity|]. split; [vm_compute; reflexivity|]. split; vm_compute; reflexivity.
Qed.
Print Assumptions C108_append_refuted.

(** The type of the element is not checked: a number of eight bytes put into a
    vector of numbers of four bytes takes the place of two. *)
Theorem C108_wider_refuted : exists l v fs q x b' c',
  v = Tab "Doc" 24 fs /\ stored_table (img_bytes l) (lookup sch) "Doc" 24 v /\ zget fs 5 = Some (Scalars q 2 4) /\
  x = num "Uint64" SUint64 99 /\ elem_in "Doc" l "Doc" 24 5 0 x = Ok (Put_ok b' c') /\
  rd 4 (mem l) (q + 4) = Ok 20 /\ rd 4 b' (q + 4) = Ok 0.
Proof.
  exists doc_bytes. eexists. eexists. exists 104. eexists.
  match goal with |- exists b' c', _ => let r := eval vm_compute in (elem_in "Doc" doc_bytes "Doc" 24 5 0 (num "Uint64" SUint64 99)) in
    match r with Ok (Put_ok ?b ?c) => exists b, c end end.
  split; [reflexivity|]. split; [apply (decode_sound doc_bytes (lookup sch) 9); vm_compute; reflexivity|].
  split; [reflexivity|]. split; [reflexivity|]. split; [vm_compute; reflexivity|]. split; vm_compute; reflexivity.
Qed.
Print Assumptions C108_wider_refuted.

(** ** C109: tables of vectors *)

(** [SetAt] with a table that is not longer than the one it replaces.  Missing:
    longer tables and appended ones, for which space is made; see below. *)
Theorem C109_table_partial : forall n s, describes n s ->
  forall b m name p v z tn tp fs tys idx en q vs j old eb e m0 v0, in_memory b -> shows b m ->
  stored_table m s name p v -> intact b m v ->
  only_table v (Tab tn tp fs) -> s tn = Some tys -> zget tys idx = Some (TyTables en) -> types_no_union tys idx ->
  zget fs idx = Some (Tabs en q vs) -> measured (Tabs en q vs) -> zget vs j = Some old ->
  BuildSpec.lone_table n s eb e en m0 v0 -> reach v0 - val_pos v0 <= reach old - val_pos old ->
  let d := val_pos old - val_pos v0 in let dst := val_pos old - lead v0 in let len := reach v0 - val_pos v0 + lead v0 in
  let new := Tabs en q (set_nth j (carried d v0) vs) in
  measured new -> 0 <= dst ->
  elem_apart m v tp idx en q vs j (q - 4) 4 -> elem_apart m v tp idx en q vs j dst len -> disjoint (q - 4) 4 dst len ->
  forall x, zlen x = len -> bytes_at m0 (val_pos v0 - lead v0) x -> let m' := img_write m dst x in
  exists f b' c' k, field_at n b (new_node n (Some (tp, z)) no_vinfo tn) idx = Ok f /\
    (forall fuel, (k <= fuel)%nat -> set_elem n fuel b f j eb e = Ok (Put_ok b' c')) /\
    c_node c' = c_node f /\ c_name c' = c_name f /\ c_info c' = mkV q (reach new - q) (zlen vs) /\
    in_memory b' /\ shows b' m' /\
    stored_table m' s name p (fill tp idx new v) /\ intact b' m' (fill tp idx new v) /\
    same_value m' m0 (carried d v0) v0 /\
    same_value m m' (fill tp idx (Absent (TyTables en)) v) (fill tp idx (Absent (TyTables en)) v) /\
    (forall i u, zget vs i = Some u -> i <> j -> same_value m m' u u) /\
    held b' dst len /\ forall a l, 1 <= l -> held b a l -> disjoint a l (q - 4) 4 -> disjoint a l dst len -> held b' a l.
Proof. exact table_elem_replaced. Qed.
Print Assumptions C109_table_partial.

Lemma file_lone : BuildSpec.lone_table (pkg "Doc") (lookup sch) (fst (file 9 (letters [97]))) (snd (file 9 (letters [97]))) "File"
  (img_bytes (sl_data (b_bytes (fst (file 9 (letters [97])))))) (Tab "File" 8 [Scalar 12 8; Scalars 28 1 1]).
Proof.
  assert (E : snd (file 9 (letters [97])) = new_node (pkg "Doc") (Some (8, -1)) no_vinfo "File") by (vm_compute; reflexivity).
  rewrite E. apply (BuildProofs8.built_gives (pkg "Doc") (lookup sch) "File" [TyScalar SUint64; str] eq_refl (fst (file 9 (letters [97]))) [Scalar 12 8; Scalars 28 1 1]);
    [vm_compute; split; reflexivity|vm_compute; discriminate| |apply measured_sound; vm_compute; reflexivity].
  apply (BuildProofs9.window_all _ _ _ (sl_data (b_bytes (fst (file 9 (letters [97])))))); [|vm_compute; reflexivity].
  apply (decode_sound (sl_data (b_bytes (fst (file 9 (letters [97]))))) (lookup sch) 9). vm_compute. reflexivity.
Qed.

(** The first listed file of the sample replaced by one whose fields are stored
    in another order. *)
Example C109_file :
  let v := val_of doc_bytes "Doc" in let m := img_bytes doc_bytes in let x := file 9 (letters [97]) in
  let vs := [Tab "File" 148 [Scalar 156 8; Scalars 168 1 1]; Tab "File" 180 [Scalar 188 8; Scalars 200 2 1]] in
  let v0 := Tab "File" 8 [Scalar 12 8; Scalars 28 1 1] in
  let new := Tabs "File" 132 (set_nth 0 (carried 140 v0) vs) in
  exists fs tys, v = Tab "Doc" 24 fs /\ lookup sch "Doc" = Some tys /\ zget tys 4 = Some (TyTables "File") /\ types_no_union tys 4 /\
  zget fs 4 = Some (Tabs "File" 132 vs) /\ measured (Tabs "File" 132 vs) /\ measured new /\
  BuildSpec.lone_table (pkg "Doc") (lookup sch) (fst x) (snd x) "File" (img_bytes (sl_data (b_bytes (fst x)))) v0 /\
  elem_apart m v 24 4 "File" 132 vs 0 128 4 /\ elem_apart m v 24 4 "File" 132 vs 0 140 29 /\
  exists b' c', elem_in "Doc" doc_bytes "Doc" 24 4 0 x = Ok (Put_ok b' c') /\
    decode (flat_bytes b') (lookup sch) 9 "Doc" 24 = Some (fill 24 4 new v) /\ rd 8 b' 152 = Ok 9.
Proof.
  eexists. eexists. split; [vm_compute; reflexivity|]. split; [reflexivity|]. split; [reflexivity|]. split; [intros us; vm_compute; discriminate|].
  split; [reflexivity|]. split; [apply measured_sound; vm_compute; reflexivity|]. split; [apply measured_sound; vm_compute; reflexivity|].
  split; [exact file_lone|].
  split; [split; [apply apart_from_sound; vm_compute; reflexivity|apply links_from_sound; vm_compute; reflexivity]|].
  split; [split; [apply apart_from_sound; vm_compute; reflexivity|apply links_from_sound; vm_compute; reflexivity]|].
  put_done. split; vm_compute; reflexivity.
Qed.

(** What happens for longer tables and at the end, on the sample: the elements
    behind move, and the document is stored. *)
Example C109_longer : exists b' c', elem_in "Doc" doc_bytes "Doc" 24 4 0 (file 9 (letters [97; 98; 99; 100; 101; 102])) = Ok (Put_ok b' c') /\
  exists fs, decode (flat_bytes b') (lookup sch) 9 "Doc" 24 = Some (Tab "Doc" 24 fs) /\
    zget fs 4 = Some (Tabs "File" 132 [Tab "File" 148 [Scalar 152 8; Scalars 168 6 1]; Tab "File" 185 [Scalar 193 8; Scalars 205 2 1]]).
Proof. put_done. eexists. split; vm_compute; reflexivity. Qed.

Example C109_append : exists b' c', elem_in "Doc" doc_bytes "Doc" 24 4 2 (file 9 (letters [97])) = Ok (Put_ok b' c') /\
  exists fs es, decode (flat_bytes b') (lookup sch) 9 "Doc" 24 = Some (Tab "Doc" 24 fs) /\
    zget fs 4 = Some (Tabs "File" 132 es) /\ zlen es = 3 /\ zget es 2 = Some (Tab "File" 214 [Scalar 218 8; Scalars 234 1 1]).
Proof. put_done. eexists. eexists. repeat (split; [vm_compute; reflexivity|]). vm_compute. reflexivity. Qed.

(** Bytes behind the document stay behind it. *)
Example C109_behind : exists b' c', elem_in "Doc" (doc_bytes ++ letters [1; 2; 3]) "Doc" 24 4 2 (file 9 (letters [97])) = Ok (Put_ok b' c') /\
  zlen (flat_bytes b') = zlen doc_bytes + 3 + 4 + 29 /\ skipn 241 (flat_bytes b') = letters [1; 2; 3].
Proof. put_done. split; vm_compute; reflexivity. Qed.

(** The sample with the two files listed the other way round. *)
Definition turned : list byte := Eval vm_compute in firstn 132 doc_bytes ++ le_encode 4 48 ++ le_encode 4 12 ++ skipn 140 doc_bytes.

(** A longer table for the first element, which is stored behind the second: the
    reference to the second is moved although the second has not moved. *)
Theorem C109_order_refuted : exists l v x b' c', v = val_of l "Doc" /\ stored_table (img_bytes l) (lookup sch) "Doc" 24 v /\
  x = file 9 (letters [97; 98; 99; 100; 101; 102]) /\ elem_in "Doc" l "Doc" 24 4 0 x = Ok (Put_ok b' c') /\
  decode (flat_bytes b') (lookup sch) 9 "Doc" 24 = None.
Proof.
  exists turned. eexists. eexists.
  match goal with |- exists b' c', _ => let r := eval vm_compute in (elem_in "Doc" turned "Doc" 24 4 0 (file 9 (letters [97; 98; 99; 100; 101; 102]))) in
    match r with Ok (Put_ok ?b ?c) => exists b, c end end.
  split; [reflexivity|]. split; [apply (decode_sound turned (lookup sch) 9); vm_compute; reflexivity|]. split; [reflexivity|]. split; vm_compute; reflexivity.
Qed.
Print Assumptions C109_order_refuted.

(** A longer table for the second, which is stored before the first: the
    reference to the first is not moved, and measuring the vector panics. *)
Theorem C109_before_refuted : exists l v x, v = val_of l "Doc" /\ stored_table (img_bytes l) (lookup sch) "Doc" 24 v /\
  x = file 9 (letters [97; 98; 99; 100; 101; 102]) /\ elem_in "Doc" l "Doc" 24 4 1 x = Panic.
Proof.
  exists turned. eexists. eexists. split; [reflexivity|]. split; [apply (decode_sound turned (lookup sch) 9); vm_compute; reflexivity|]. split; [reflexivity|]. vm_compute. reflexivity.
Qed.
Print Assumptions C109_before_refuted.
