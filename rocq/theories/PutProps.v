(** Property theorems about setting fields of tables in a buffer with a root
    (C103 - C105). *)
From Coq Require Import ZArith List Bool String.
From Coq Require Import Strings.Byte.
From Verif Require Import GoLib BaseModel BaseSpec TableModel TableSpec NameModel NameSpec StreamModel
  WalkModel WalkSpec WalkProofs6 WalkProofs9 EqualSpec InsModel InsSpec InsProofs3 BuildModel PutModel PutSpec
  PutProofs2 PutProofs5 PutProofs6 PutProofs7.
From Verif Require BuildSpec BuildProofs8 BuildProofs9.
From Verif Require Import WalkProps InsProps.
Import ListNotations.
Open Scope string_scope.
Open Scope list_scope.
Open Scope Z_scope.

(** A number as the generated functions make it, and a string *)
Definition num (name : string) (t : scalar) (v : Z) : base * cnode :=
  match scalar_node reg name t v with Ok x => x | _ => (mem [], mkC None no_vinfo "" [] []) end.
Definition text (l : list byte) : base * cnode := byte_list reg l.
(** A note as a table of its own *)
Definition note (v : Z) : base * cnode :=
  let x := num "Int32" SInt32 v in
  match build_table reg 20 "Note" [(0, fst x, snd x)] with
  | Ok (Some (b, c)) => match base_flatten b with Ok b' => (b', c) | _ => (mem [], c) end
  | _ => (mem [], at_pos "Note" 0)
  end.

(** The field [i] of the table [nm] at [p] of [l] set to the value [x] *)
Definition set_in (root : string) (l : list byte) (nm : string) (p i : Z) (x : base * cnode) : res result :=
  put_field (pkg root) 20 (mem l) (at_pos nm p) i (fst x) (snd x).
(** The bytes written out *)
Definition flat_bytes (b : base) : list byte := match base_flatten b with Ok b' => sl_data (b_bytes b') | _ => [] end.

Ltac put_done :=
  match goal with |- exists b' c', ?x = _ /\ _ =>
    match eval vm_compute in x with Ok (Put_ok ?b ?c) => exists b, c end end;
  split; [vm_compute; reflexivity|].

(** Such a number is a value for the field. *)
Lemma num_gives : forall root s nm i l typ t v, lookup (n_idxname reg) nm = Some l -> lookupz l i = Some typ -> in_range t v ->
  BuildSpec.gives (pkg root) s nm i (TyScalar t) (fst (num typ t v)) (snd (num typ t v)) (BuildSpec.Bytes (scalar_bytes t v)).
Proof.
  intros root s nm i l typ t v HL HI HR.
  destruct (BuildProofs9.scalar_gives (pkg root) s nm i l typ t v HL HI HR) as (fb & f & E & G).
  change (scalar_node (pkg root) typ t v) with (scalar_node reg typ t v) in E.
  unfold num. rewrite E. exact G.
Qed.
Ltac number := eapply num_gives; [vm_compute; reflexivity|vm_compute; reflexivity|vm_compute; intuition discriminate].

Lemma text_gives : forall root s nm i l x, lookup (n_idxname reg) nm = Some l -> lookupz l i = Some "[]byte" -> zlen x < 4294967296 ->
  BuildSpec.gives (pkg root) s nm i str (fst (text x)) (snd (text x))
    (BuildSpec.Value (img_bytes (sl_data (b_bytes (fst (text x))))) (Scalars 4 (zlen x) 1)).
Proof.
  intros root s nm i l x HL HI HX.
  exact (BuildProofs9.bytes_gives (pkg root) s nm i l SByte x HL HI eq_refl eq_refl HX).
Qed.

Lemma note_gives : forall root nm i, BuildSpec.gives (pkg root) (lookup sch) nm i (TyTable "Note") (fst (note 7)) (snd (note 7))
    (BuildSpec.Value (img_bytes (sl_data (b_bytes (fst (note 7))))) (Tab "Note" 6 [Scalar 10 4])).
Proof.
  intros root nm i. exists (img_bytes (sl_data (b_bytes (fst (note 7))))), (Tab "Note" 6 [Scalar 10 4]). split; [reflexivity|].
  assert (E : snd (note 7) = new_node (pkg root) (Some (6, -1)) no_vinfo "Note") by (vm_compute; reflexivity).
  rewrite E. apply (BuildProofs8.built_gives (pkg root) (lookup sch) "Note" [TyScalar SInt32] eq_refl (fst (note 7)) [Scalar 10 4]);
    [vm_compute; split; reflexivity|vm_compute; discriminate| |apply measured_sound; vm_compute; reflexivity].
  apply (BuildProofs9.window_all _ _ _ (sl_data (b_bytes (fst (note 7))))); [|vm_compute; reflexivity].
  apply (decode_sound (sl_data (b_bytes (fst (note 7)))) (lookup sch) 9). vm_compute. reflexivity.
Qed.

(** ** C103: a number or struct that is there *)

Theorem C103_present : forall n b s fuel name p v tn tp z fs tys idx t w fb f x,
  let m := img_bytes (sl_data (b_bytes b)) in
  flat b -> describes n s ->
  stored_table m s name p v -> only_table v (Tab tn tp fs) -> s tn = Some tys -> zget tys idx = Some t -> types_no_union tys idx ->
  zget fs idx = Some w -> is_absent w = false -> BuildSpec.gives n s tn idx t fb f (BuildSpec.Bytes x) -> x <> [] ->
  (forall a k, In (a, k) (parts m (fill tp idx (Absent t) v)) -> disjoint a k (val_pos w) (zlen x)) ->
  (forall a r, In (a, r) (links m v) -> disjoint a 4 (val_pos w) (zlen x)) -> (1 <= fuel)%nat ->
  let c := new_node n (Some (tp, z)) no_vinfo tn in
  exists b' m', put_field n fuel b c idx fb f = Ok (Put_ok b' c) /\ shows b' m' /\ bytes_at m' (val_pos w) x /\
    (forall i, i < val_pos w \/ val_pos w + zlen x <= i -> m' i = m i) /\
    stored_table m' s name p v /\ same_value m m' (fill tp idx (Absent t) v) (fill tp idx (Absent t) v).
Proof. exact (fun n b s fuel name p v tn tp z fs tys idx t w fb f x HF HD => put_present n b s HF HD fuel name p v tn tp z fs tys idx t w fb f x). Qed.
Print Assumptions C103_present.

(** The number of the second listed file of the sample, from 2 to 9. *)
Example C103_file :
  let v := val_of doc_bytes "Doc" in let m := img_bytes doc_bytes in
  let fs := [Scalar 188 8; Scalars 200 2 1] in let x := num "Uint64" SUint64 9 in
  stored_table m (lookup sch) "Doc" 24 v /\ only_table v (Tab "File" 180 fs) /\
  lookup sch "File" = Some [TyScalar SUint64; str] /\ types_no_union [TyScalar SUint64; str] 0 /\
  BuildSpec.gives (pkg "Doc") (lookup sch) "File" 0 (TyScalar SUint64) (fst x) (snd x) (BuildSpec.Bytes (scalar_bytes SUint64 9)) /\
  (forall a k, In (a, k) (parts m (fill 180 0 (Absent (TyScalar SUint64)) v)) -> disjoint a k 188 8) /\
  (forall a r, In (a, r) (links m v) -> disjoint a 4 188 8) /\
  exists b' c', set_in "Doc" doc_bytes "File" 180 0 x = Ok (Put_ok b' c') /\ rd 8 b' 188 = Ok 9 /\
    decode (flat_bytes b') (lookup sch) 9 "Doc" 24 = Some v.
Proof.
  split; [apply (decode_sound doc_bytes (lookup sch) 9); vm_compute; reflexivity|].
  split; [apply only_sound; [vm_compute; tauto|vm_compute; reflexivity]|]. split; [vm_compute; reflexivity|].
  split; [intros us; vm_compute; discriminate|]. split; [number|].
  split; [apply apart_from_sound; vm_compute; reflexivity|]. split; [apply links_from_sound; vm_compute; reflexivity|].
  put_done. split; vm_compute; reflexivity.
Qed.

(** ** C104: a number or struct that is not there *)

(** For buffers without a journal and tables that no other one shares its vtable
    with, when the code finds every reference across the place of the new field
    ([met]): the table has the new field, and everything behind moved with all
    references.  Missing: values with structs or absent vectors elsewhere, a
    root at 65536 or behind, buffers with a journal, and what is refuted
    below. *)
Theorem C104_absent_partial : forall n b s name p v tn tp z fs tys idx t fb f x,
  let m := img_bytes (sl_data (b_bytes b)) in let pos := table_end m tp in
  flat b -> describes n s ->
  n_root n = name -> stored_table m s name p v -> holds_uint m 0 4 p -> insertable v ->
  p < 65536 -> vtable_of m p <> 0 -> only_table v (Tab tn tp fs) ->
  s tn = Some tys -> zget tys idx = Some t -> types_no_union tys idx -> zget fs idx = Some (Absent t) ->
  BuildSpec.gives n s tn idx t fb f (BuildSpec.Bytes x) -> x <> [] ->
  p < pos -> tp < pos -> 8 <= tp -> 4 <= vtable_of m tp -> pos - tp + zlen x < 65536 ->
  zlen (sl_data (b_bytes b)) + zlen x < 4294967296 ->
  between m pos v -> apart_links m v -> NoDup (starts v) -> sole_vtable m tp (zlen fs) v -> met s (tn, tp) pos false v ->
  let c := new_node n (Some (tp, z)) no_vinfo tn in
  exists k, forall fuel, (k <= fuel)%nat -> exists b' m',
    put_field n fuel b c idx fb f = Ok (Put_ok b' c) /\ shows b' m' /\ holds_uint m' 0 4 p /\
    stored_table m' s name p (fill tp idx (inline_at t pos) (moved pos (zlen x) v)) /\
    same_value m m' v (moved pos (zlen x) v) /\ bytes_at m' pos x.
Proof. exact (fun n b s name p v tn tp z fs tys idx t fb f x HF HD => put_absent n b s HF HD name p v tn tp z fs tys idx t fb f x). Qed.
Print Assumptions C104_absent_partial.

(** The number of a document that has none: it comes between the table and the
    string that follows it, and the seven values behind move by four. *)
Example C104_doc :
  let v := val_of plain_bytes "Doc" in let m := img_bytes plain_bytes in
  let x := num "Int32" SInt32 9 in let pos := table_end m 24 in
  exists fs tys, v = Tab "Doc" 24 fs /\ lookup sch "Doc" = Some tys /\ zget fs 0 = Some (Absent (TyScalar SInt32)) /\
  stored_table m (lookup sch) "Doc" 24 v /\ holds_uint m 0 4 24 /\ insertable v /\ only_table v v /\ types_no_union tys 0 /\
  BuildSpec.gives (pkg "Doc") (lookup sch) "Doc" 0 (TyScalar SInt32) (fst x) (snd x) (BuildSpec.Bytes (scalar_bytes SInt32 9)) /\
  pos = 56 /\ vtable_of m 24 = 4 /\ between m pos v /\ apart_links m v /\ NoDup (starts v) /\ sole_vtable m 24 (zlen fs) v /\
  met (lookup sch) ("Doc", 24) pos false v /\
  exists b' c', set_in "Doc" plain_bytes "Doc" 24 0 x = Ok (Put_ok b' c') /\ rd 4 b' 56 = Ok 9 /\
    decode (flat_bytes b') (lookup sch) 9 "Doc" 24 = Some (fill 24 0 (Scalar 56 4) (moved 56 4 v)) /\
    leads (mem plain_bytes) 48 100 /\ leads b' 48 104.
Proof.
  do 2 eexists. split; [vm_compute; reflexivity|]. split; [vm_compute; reflexivity|]. split; [reflexivity|].
  stored plain_bytes. split; [apply only_sound; [vm_compute; tauto|vm_compute; reflexivity]|].
  split; [intros us; vm_compute; discriminate|]. split; [number|].
  split; [vm_compute; reflexivity|]. split; [vm_compute; reflexivity|].
  split; [apply between_sound; vm_compute; reflexivity|]. split; [apply apart_sound; vm_compute; reflexivity|].
  split; [apply distinct_sound; vm_compute; reflexivity|]. split; [apply sole_sound; vm_compute; reflexivity|].
  split; [apply met_sound; vm_compute; reflexivity|].
  put_done. repeat split; vm_compute; reflexivity.
Qed.

(** A vtable shared by two files that lack the number: setting it in the second
    gives the first one a number too, made of the bytes of its name. *)
Definition unnumbered : list byte := firstn 36 shared_bytes ++ [z2b 0] ++ skipn 37 shared_bytes.
Theorem C104_shared_refuted : exists l v x a t, sample l "Dir" v a t /\
  v = Tab "Dir" 12 [Tabs "File" 24 [Tab "File" 40 [Absent (TyScalar SUint64); Scalars 60 1 1];
                                    Tab "File" 64 [Absent (TyScalar SUint64); Scalars 84 2 1]]] /\
  between (img_bytes l) (table_end (img_bytes l) 64) v /\ met (lookup sch) ("File", 64) (table_end (img_bytes l) 64) false v /\
  exists b' c', set_in "Dir" l "File" 64 0 x = Ok (Put_ok b' c') /\
    decode (flat_bytes b') (lookup sch) 9 "Dir" 12 =
      Some (Tab "Dir" 12 [Tabs "File" 24 [Tab "File" 40 [Scalar 56 8; Scalars 60 1 1];
                                          Tab "File" 64 [Scalar 80 8; Scalars 92 2 1]]]).
Proof.
  exists unnumbered, (val_of unnumbered "Dir"), (num "Uint64" SUint64 9), 28, 64. split; [sampled unnumbered|].
  split; [vm_compute; reflexivity|]. split; [apply between_sound; vm_compute; reflexivity|].
  split; [apply met_sound; vm_compute; reflexivity|]. put_done. vm_compute. reflexivity.
Qed.
Print Assumptions C104_shared_refuted.

(** A number for the file of a document that lacks its first note: the reference
    to the second note, behind the file, is not moved. *)
Definition unnumbered_file : list byte := firstn 72 other_bytes ++ [z2b 0] ++ skipn 73 other_bytes.
Theorem C104_gap_refuted : exists l v x a t fs pos, sample l "Doc" v a t /\ pos = table_end (img_bytes l) 76 /\
  only_table v (Tab "File" 76 fs) /\ zget fs 0 = Some (Absent (TyScalar SUint64)) /\
  between (img_bytes l) pos v /\ sole_vtable (img_bytes l) 76 (zlen fs) v /\
  exists b' c', set_in "Doc" l "File" 76 0 x = Ok (Put_ok b' c') /\ rd 8 b' pos = Ok 9 /\
    ~ leads b' (shift pos 8 a) (shift pos 8 t).
Proof.
  exists unnumbered_file, (val_of unnumbered_file "Doc"), (num "Uint64" SUint64 9), 52, 120,
    [Absent (TyScalar SUint64); Scalars 96 1 1], 92. split; [sampled unnumbered_file|]. split; [vm_compute; reflexivity|].
  split; [apply only_sound; [vm_compute; tauto|vm_compute; reflexivity]|]. split; [reflexivity|].
  split; [apply between_sound; vm_compute; reflexivity|]. split; [apply sole_sound; vm_compute; reflexivity|].
  put_done. split; [vm_compute; reflexivity|]. vm_compute. discriminate.
Qed.
Print Assumptions C104_gap_refuted.

(** ** C105: vectors and tables *)

(** For buffers without a journal, a vector of the same size or a table that is
    not larger, and when nothing else is where the value comes: the new value is
    stored in place of the old one and the rest stays.  Missing: unions, and what
    is refuted below. *)
Theorem C105_replaced_partial : forall n b s name p v tn tp z fs tys idx t w fb f m0 v0,
  let m := img_bytes (sl_data (b_bytes b)) in
  flat b -> describes n s ->
  stored_table m s name p v -> only_table v (Tab tn tp fs) -> s tn = Some tys -> zget tys idx = Some t -> is_union t = false ->
  types_no_union tys idx -> zget fs idx = Some w -> is_absent w = false -> measured w ->
  BuildSpec.gives n s tn idx t fb f (BuildSpec.Value m0 v0) -> claims f v0 -> fits w v0 ->
  let d := val_pos w - val_pos v0 in let dst := val_pos w - lead v0 in let len := reach v0 + d - dst in
  0 <= dst -> disjoint (slot_of m tp idx) 4 dst len ->
  (forall a k, In (a, k) (parts m (fill tp idx (Absent t) v)) -> disjoint a k dst len) ->
  (forall a u, In (a, u) (links m (fill tp idx (Absent t) v)) -> disjoint a 4 dst len) ->
  let c := new_node n (Some (tp, z)) no_vinfo tn in
  exists k, forall fuel, (k <= fuel)%nat -> exists b' m',
    put_field n fuel b c idx fb f = Ok (Put_ok b' c) /\ shows b' m' /\
    stored_table m' s name p (fill tp idx (carried d v0) v) /\ same_value m' m0 (carried d v0) v0 /\
    same_value m m' (fill tp idx (Absent t) v) (fill tp idx (Absent t) v).
Proof. exact (fun n b s name p v tn tp z fs tys idx t w fb f m0 v0 HF HD => put_replaced n b s HF HD name p v tn tp z fs tys idx t w fb f m0 v0). Qed.
Print Assumptions C105_replaced_partial.

(** Another name of the same length. *)
Example C105_name :
  let v := val_of doc_bytes "Doc" in let m := img_bytes doc_bytes in
  let w := Scalars 60 5 1 in let v0 := Scalars 4 5 1 in
  let x := text [x61; x62; x63; x64; x65] in let m0 := img_bytes (sl_data (b_bytes (fst x))) in
  exists fs tys, v = Tab "Doc" 24 fs /\ lookup sch "Doc" = Some tys /\ zget tys 1 = Some str /\ zget fs 1 = Some w /\
  stored_table m (lookup sch) "Doc" 24 v /\ only_table v v /\ types_no_union tys 1 /\
  BuildSpec.gives (pkg "Doc") (lookup sch) "Doc" 1 str (fst x) (snd x) (BuildSpec.Value m0 v0) /\
  claims (snd x) v0 /\ fits w v0 /\ disjoint (slot_of m 24 1) 4 56 9 /\
  (forall a k, In (a, k) (parts m (fill 24 1 (Absent str) v)) -> disjoint a k 56 9) /\
  (forall a u, In (a, u) (links m (fill 24 1 (Absent str) v)) -> disjoint a 4 56 9) /\
  exists b' c', set_in "Doc" doc_bytes "Doc" 24 1 x = Ok (Put_ok b' c') /\
    decode (flat_bytes b') (lookup sch) 9 "Doc" 24 = Some v /\
    map (zget (flat_bytes b')) [60; 61; 62; 63; 64] = map Some [x61; x62; x63; x64; x65].
Proof.
  do 2 eexists. split; [vm_compute; reflexivity|]. split; [vm_compute; reflexivity|]. split; [reflexivity|]. split; [reflexivity|].
  split; [apply (decode_sound doc_bytes (lookup sch) 9); vm_compute; reflexivity|].
  split; [apply only_sound; [vm_compute; tauto|vm_compute; reflexivity]|].
  split; [intros us; vm_compute; discriminate|].
  split; [eapply (text_gives "Doc" (lookup sch) "Doc" 1 _ [x61; x62; x63; x64; x65]); [vm_compute; reflexivity|reflexivity|reflexivity]|].
  split; [intros q z E; vm_compute in E; injection E as <- <-; left; discriminate|].
  split; [vm_compute; reflexivity|]. split; [apply disjoint_sound; vm_compute; reflexivity|].
  split; [apply apart_from_sound; vm_compute; reflexivity|]. split; [apply links_from_sound; vm_compute; reflexivity|].
  put_done. split; vm_compute; reflexivity.
Qed.

(** Another note in place of the first one. *)
Example C105_note :
  let v := val_of doc_bytes "Doc" in let m := img_bytes doc_bytes in
  let w := Tab "Note" 120 [Scalar 124 4] in let v0 := Tab "Note" 6 [Scalar 10 4] in
  let x := note 7 in let m0 := img_bytes (sl_data (b_bytes (fst x))) in
  exists fs tys, v = Tab "Doc" 24 fs /\ lookup sch "Doc" = Some tys /\ zget tys 6 = Some (TyTable "Note") /\ zget fs 6 = Some w /\
  stored_table m (lookup sch) "Doc" 24 v /\ only_table v v /\ types_no_union tys 6 /\ measured w /\
  BuildSpec.gives (pkg "Doc") (lookup sch) "Doc" 6 (TyTable "Note") (fst x) (snd x) (BuildSpec.Value m0 v0) /\
  claims (snd x) v0 /\ fits w v0 /\ disjoint (slot_of m 24 6) 4 114 14 /\
  (forall a k, In (a, k) (parts m (fill 24 6 (Absent (TyTable "Note")) v)) -> disjoint a k 114 14) /\
  (forall a u, In (a, u) (links m (fill 24 6 (Absent (TyTable "Note")) v)) -> disjoint a 4 114 14) /\
  exists b' c', set_in "Doc" doc_bytes "Doc" 24 6 x = Ok (Put_ok b' c') /\
    decode (flat_bytes b') (lookup sch) 9 "Doc" 24 = Some v /\ rd 4 (mem doc_bytes) 124 = Ok 99 /\ rd 4 b' 124 = Ok 7.
Proof.
  do 2 eexists. split; [vm_compute; reflexivity|]. split; [vm_compute; reflexivity|]. split; [reflexivity|]. split; [reflexivity|].
  split; [apply (decode_sound doc_bytes (lookup sch) 9); vm_compute; reflexivity|].
  split; [apply only_sound; [vm_compute; tauto|vm_compute; reflexivity]|].
  split; [intros us; vm_compute; discriminate|]. split; [apply measured_sound; vm_compute; reflexivity|].
  split; [apply note_gives|].
  split; [intros q z E; vm_compute in E; injection E as <- <-; left; discriminate|].
  split; [vm_compute; discriminate|]. split; [apply disjoint_sound; vm_compute; reflexivity|].
  split; [apply apart_from_sound; vm_compute; reflexivity|]. split; [apply links_from_sound; vm_compute; reflexivity|].
  put_done. repeat split; vm_compute; reflexivity.
Qed.

(** A longer name: the bytes behind move by two, but no reference does. *)
Theorem C105_longer_refuted : exists l v x a t, sample l "Doc" v a t /\
  zget (match v with Tab _ _ fs => fs | _ => [] end) 1 = Some (Scalars 60 5 1) /\ a < 60 /\ 65 <= t /\
  exists b' c', set_in "Doc" l "Doc" 24 1 x = Ok (Put_ok b' c') /\
    skipn 67 (flat_bytes b') = skipn 65 l /\ leads b' a t /\ ~ leads b' a (t + 2).
Proof.
  exists doc_bytes, (val_of doc_bytes "Doc"), (text [x61; x62; x63; x64; x65; x66; x67]), 52, 120.
  split; [sampled doc_bytes|]. split; [vm_compute; reflexivity|]. do 2 (split; [vm_compute; congruence|]).
  put_done. split; [vm_compute; reflexivity|]. split; [vm_compute; reflexivity|]. vm_compute. discriminate.
Qed.
Print Assumptions C105_longer_refuted.

(** A shorter name: an offset inside the table itself, before the name, is
    overwritten; it cannot be read any more, and once the buffer is written out
    it leads out of it. *)
Theorem C105_shorter_refuted : exists l v x a t, sample l "Doc" v a t /\
  zget (match v with Tab _ _ fs => fs | _ => [] end) 1 = Some (Scalars 60 5 1) /\ a + 4 <= 56 /\
  exists b' c', set_in "Doc" l "Doc" 24 1 x = Ok (Put_ok b' c') /\
    rd 4 b' a = Panic /\ exists o, rd 4 (mem (flat_bytes b')) a = Ok o /\ zlen (flat_bytes b') < a + o.
Proof.
  exists doc_bytes, (val_of doc_bytes "Doc"), (text [x61; x62; x63]), 52, 120.
  split; [sampled doc_bytes|]. split; [vm_compute; reflexivity|]. split; [vm_compute; congruence|].
  put_done. split; [vm_compute; reflexivity|]. eexists. split; vm_compute; reflexivity.
Qed.
Print Assumptions C105_shorter_refuted.

(** A second note for a document that has none: the bytes behind move by 32, the
    references of the table by 4. *)
Theorem C105_table_refuted : exists l v x a t, sample l "Doc" v a t /\
  zget (match v with Tab _ _ fs => fs | _ => [] end) 7 = Some (Absent (TyTable "Note")) /\ a < 56 /\ 56 <= t /\
  exists b' c', set_in "Doc" l "Doc" 24 7 x = Ok (Put_ok b' c') /\
    skipn 88 (flat_bytes b') = skipn 56 l /\ leads b' a (t + 4) /\ ~ leads b' a (t + 32).
Proof.
  exists doc_bytes, (val_of doc_bytes "Doc"), (note 7), 32, 56.
  split; [sampled doc_bytes|]. split; [vm_compute; reflexivity|]. do 2 (split; [vm_compute; congruence|]).
  put_done. split; [vm_compute; reflexivity|]. split; [vm_compute; reflexivity|]. vm_compute. discriminate.
Qed.
Print Assumptions C105_table_refuted.

(** A name for a document that has none: the code panics. *)
Definition nameless : list byte := firstn 10 doc_bytes ++ [z2b 0] ++ skipn 11 doc_bytes.
Theorem C105_vector_refuted : exists l v x fs, v = Tab "Doc" 24 fs /\ stored_table (img_bytes l) (lookup sch) "Doc" 24 v /\
  holds_uint (img_bytes l) 0 4 24 /\ apart_links (img_bytes l) v /\ zget fs 1 = Some (Absent str) /\
  set_in "Doc" l "Doc" 24 1 x = Panic.
Proof.
  exists nameless, (val_of nameless "Doc"), (text [x61; x62]). eexists. split; [vm_compute; reflexivity|].
  split; [apply (decode_sound nameless (lookup sch) 9); vm_compute; reflexivity|].
  split; [apply uint_sound; vm_compute; reflexivity|]. split; [apply apart_sound; vm_compute; reflexivity|].
  split; [reflexivity|]. vm_compute. reflexivity.
Qed.
Print Assumptions C105_vector_refuted.
