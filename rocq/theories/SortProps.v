(** Property theorems about exchanging and sorting elements of vectors in a buffer
    with a root (C110, C111). *)
From Coq Require Import ZArith List Bool String Permutation.
From Coq Require Import Strings.Byte.
From Verif Require Import GoLib BaseModel BaseSpec TableModel TableSpec NameModel NameSpec StreamModel
  WalkModel WalkSpec WalkProofs6 WalkProofs9 EqualSpec InsModel InsSpec InsProofs3 BuildModel PutModel PutSpec PutProofs6
  JourModel JourSpec JourProofs10 SortModel SortSpec.
From Verif Require ListModel ListSpec ListProofs2 SortProofs.
From Verif Require Import WalkProps InsProps PutProps JourProps ElemProps.
Import ListNotations.
Open Scope string_scope.
Open Scope list_scope.
Open Scope Z_scope.

(** Elements [i] and [j] of the field [k] of the table [nm] at [p] of [l] exchanged *)
Definition swap_in (root : string) (l : list byte) (nm : string) (p k i j : Z) : res (base * bool) :=
  do f <- field_at (pkg root) (mem l) (at_pos nm p) k; swap_elem (pkg root) (mem l) f i j.

(** ** C110: SwapAt *)

(** [SwapAt] on two tables of a vector: the vector has them exchanged, everything
    else is as before, and the journal that results can be read like the one
    before. *)
Theorem C110_swap : forall n s, describes n s ->
  forall b m name p v tn tp fs tys idx en q vs, in_memory b -> shows b m ->
  stored_table m s name p v -> intact b m v ->
  only_table v (Tab tn tp fs) -> s tn = Some tys -> zget tys idx = Some (TyTables en) -> types_no_union tys idx ->
  zget fs idx = Some (Tabs en q vs) -> slots_apart m v tp idx en q vs -> elems_follow q vs ->
  forall z i j, 0 <= i < zlen vs -> 0 <= j < zlen vs ->
  let new := Tabs en q (ListSpec.swapped vs i j) in let m' := swap_slots m q vs i j in
  exists f b', field_at n b (new_node n (Some (tp, z)) no_vinfo tn) idx = Ok f /\
    swap_elem n b f i j = Ok (b', true) /\ in_memory b' /\ shows b' m' /\
    (forall a, a < q \/ q + 4 * zlen vs <= a -> m' a = m a) /\
    stored_table m' s name p (fill tp idx new v) /\ intact b' m' (fill tp idx new v) /\
    same_value m m' (fill tp idx (Absent (TyTables en)) v) (fill tp idx (Absent (TyTables en)) v) /\
    (forall u, In u vs -> same_value m m' u u) /\
    (forall a k, 1 <= k -> held b a k -> disjoint a k q (4 * zlen vs) -> held b' a k).
Proof. exact SortProofs.elems_swapped. Qed.
Print Assumptions C110_swap.

(** The two files of the sample. *)
Definition files : list val := [Tab "File" 148 [Scalar 156 8; Scalars 168 1 1]; Tab "File" 180 [Scalar 188 8; Scalars 200 2 1]].

Example C110_files :
  let v := val_of doc_bytes "Doc" in let m := img_bytes doc_bytes in
  exists fs tys, v = Tab "Doc" 24 fs /\ lookup sch "Doc" = Some tys /\ zget tys 4 = Some (TyTables "File") /\ types_no_union tys 4 /\
  stored_table m (lookup sch) "Doc" 24 v /\ intact (mem doc_bytes) m v /\ only_table v v /\
  zget fs 4 = Some (Tabs "File" 132 files) /\ slots_apart m v 24 4 "File" 132 files /\ elems_follow 132 files /\
  exists b', swap_in "Doc" doc_bytes "Doc" 24 4 0 1 = Ok (b', true) /\
    decode (flat_bytes b') (lookup sch) 9 "Doc" 24 = Some (fill 24 4 (Tabs "File" 132 (rev files)) v).
Proof.
  eexists. eexists. split; [vm_compute; reflexivity|]. split; [reflexivity|]. split; [reflexivity|]. split; [intros us; vm_compute; discriminate|].
  split; [apply (decode_sound doc_bytes (lookup sch) 9); vm_compute; reflexivity|]. split; [apply intact_sound; vm_compute; reflexivity|].
  split; [apply only_sound; [vm_compute; left; reflexivity|vm_compute; reflexivity]|]. split; [reflexivity|].
  split; [split; [apply apart_from_sound; vm_compute; reflexivity|apply links_from_sound; vm_compute; reflexivity]|].
  split; [intros u [<-|[<-|[]]]; vm_compute; intuition discriminate|].
  eexists. split; [vm_compute; reflexivity|]. vm_compute. reflexivity.
Qed.

(** Numbers are not exchanged: both become zero (as in C36). *)
Theorem C110_numbers_refuted : exists l v fs q b',
  v = Tab "Doc" 24 fs /\ stored_table (img_bytes l) (lookup sch) "Doc" 24 v /\ zget fs 5 = Some (Scalars q 2 4) /\
  rd 4 (mem l) q = Ok 10 /\ rd 4 (mem l) (q + 4) = Ok 20 /\
  swap_in "Doc" l "Doc" 24 5 0 1 = Ok (b', true) /\ rd 4 b' q = Ok 0 /\ rd 4 b' (q + 4) = Ok 0.
Proof.
  exists doc_bytes. eexists. eexists. exists 104. eexists. split; [reflexivity|]. split; [apply (decode_sound doc_bytes (lookup sch) 9); vm_compute; reflexivity|].
  split; [reflexivity|]. split; [vm_compute; reflexivity|]. split; [vm_compute; reflexivity|]. split; [vm_compute; reflexivity|]. split; vm_compute; reflexivity.
Qed.
Print Assumptions C110_numbers_refuted.

(** With a journal the buffer is flattened first: the entries for the number set
    before are gone and only those for the two zeros are left. *)
Example C110_numbers_journal : let x := num "Int32" SInt32 99 in
  exists f b c b', field_at (pkg "Doc") (mem doc_bytes) (at_pos "Doc" 24) 5 = Ok f /\
    ElemModel.set_elem (pkg "Doc") 20 (mem doc_bytes) f 1 (fst x) (snd x) = Ok (PutModel.Put_ok b c) /\ zlen (b_diffs b) = 2 /\ rd 4 b 108 = Ok 99 /\
    swap_elem (pkg "Doc") b f 0 1 = Ok (b', true) /\ map d_off (b_diffs b') = [104; 104; 108; 108] /\ rd 4 b' 104 = Ok 0 /\ rd 4 b' 108 = Ok 0.
Proof. cbv zeta. do 4 eexists. repeat (split; [vm_compute; reflexivity|]). vm_compute. reflexivity. Qed.

(** Fields that are no vectors are refused. *)
Example C110_no_vector : exists f, field_at (pkg "Doc") (mem doc_bytes) (at_pos "Doc" 24) 6 = Ok f /\
  swap_elem (pkg "Doc") (mem doc_bytes) f 0 0 = Ok (mem doc_bytes, false) /\
  sort_elems (pkg "Doc") (fun _ _ _ => Ok true) (mem doc_bytes) f (ListModel.insertion_sort 2) = Ok (mem doc_bytes, false) /\
  is_sorted (fun _ _ _ => Ok true) (mem doc_bytes) f = Ok false.
Proof. eexists. repeat (split; [vm_compute; reflexivity|]). vm_compute. reflexivity. Qed.

(** Negative indexes are not refused: the length of the vector is exchanged with
    a reference. *)
Theorem C110_negative_refuted : exists l v fs vs b', v = Tab "Doc" 24 fs /\ stored_table (img_bytes l) (lookup sch) "Doc" 24 v /\
  zget fs 4 = Some (Tabs "File" 132 vs) /\ rd 4 (mem l) 128 = Ok 2 /\ rd 4 (mem l) 132 = Ok 16 /\
  swap_in "Doc" l "Doc" 24 4 (-1) 0 = Ok (b', true) /\ rd 4 b' 128 = Ok 20 /\ rd 4 b' 132 = Ok 4294967294.
Proof.
  exists doc_bytes. eexists. eexists. eexists. eexists. split; [reflexivity|]. split; [apply (decode_sound doc_bytes (lookup sch) 9); vm_compute; reflexivity|].
  split; [reflexivity|]. repeat (split; [vm_compute; reflexivity|]). vm_compute. reflexivity.
Qed.
Print Assumptions C110_negative_refuted.

(** ** C111: SortBy and IsSorted *)

(** [SortBy] with any algorithm that only compares and exchanges elements within
    the vector: the elements are the same in another order, the document is stored
    with them, and [IsSorted] answers whether neighbours are in order, which they
    are if the algorithm sorts. *)
Theorem C111_sort : forall n s, describes n s ->
  forall b m name p v tn tp fs tys idx en q vs, in_memory b -> shows b m ->
  stored_table m s name p v -> intact b m v ->
  only_table v (Tab tn tp fs) -> s tn = Some tys -> zget tys idx = Some (TyTables en) -> types_no_union tys idx ->
  zget fs idx = Some (Tabs en q vs) -> slots_apart m v tp idx en q vs -> elems_follow q vs ->
  forall less lt, compares_elems less lt s b m en q vs ->
  forall z st, ListSpec.in_bounds (zlen vs) st ->
  exists f b' m' ws r, field_at n b (new_node n (Some (tp, z)) no_vinfo tn) idx = Ok f /\
    sort_elems n less b f st = Ok (b', true) /\ Permutation vs ws /\
    (ListSpec.strict_weak lt -> ListSpec.sorting (zlen vs) st -> ListSpec.sorted lt (map val_pos ws) /\ r = true) /\
    is_sorted less b' f = Ok r /\ (r = true <-> in_order lt ws) /\
    in_memory b' /\ shows b' m' /\ (forall a, a < q \/ q + 4 * zlen vs <= a -> m' a = m a) /\
    stored_table m' s name p (fill tp idx (Tabs en q ws) v) /\ intact b' m' (fill tp idx (Tabs en q ws) v) /\
    same_value m m' (fill tp idx (Absent (TyTables en)) v) (fill tp idx (Absent (TyTables en)) v) /\
    forall u, In u vs -> same_value m m' u u.
Proof. exact SortProofs.elems_sorted. Qed.
Print Assumptions C111_sort.

(** Comparing a number field of the elements is a comparison as the theorem asks
    for, when all elements have the field. *)
Theorem C111_compares_exist : forall n s, describes n s ->
  forall b m name p v tn tp fs tys idx en q vs,
  stored_table m s name p v ->
  only_table v (Tab tn tp fs) -> s tn = Some tys -> zget tys idx = Some (TyTables en) ->
  zget fs idx = Some (Tabs en q vs) -> slots_apart m v tp idx en q vs ->
  forall k t etys, s en = Some etys -> zget etys k = Some (TyScalar t) ->
  (forall u, In u vs -> exists nm gs a, u = Tab nm (val_pos u) gs /\ zget gs k = Some (Scalar a (zwidth t)) /\ held b a (zwidth t)) ->
  compares_elems (by_number n (new_node n (Some (tp, -1)) (mkV q 0 (zlen vs)) ("[]" ++ en)%string) k (Z.to_nat (zwidth t)))
    (smaller_number m k (Z.to_nat (zwidth t))) s b m en q vs.
Proof. exact SortProofs.number_compares. Qed.
Print Assumptions C111_compares_exist.

(** The sample with its files the other way round, sorted by the number of the
    files with the algorithm [sort.Sort] uses for short lists. *)
Example C111_files :
  let v := val_of turned "Doc" in let m := img_bytes turned in
  let f := new_node (pkg "Doc") (Some (24, -1)) (mkV 132 0 2) "[]File" in
  let less := by_number (pkg "Doc") f 0 8 in
  stored_table m (lookup sch) "Doc" 24 v /\ slots_apart m v 24 4 "File" 132 (rev files) /\ elems_follow 132 (rev files) /\
  (exists fs, v = Tab "Doc" 24 fs /\ zget fs 4 = Some (Tabs "File" 132 (rev files))) /\
  (forall u, In u (rev files) -> exists nm gs a, u = Tab nm (val_pos u) gs /\ zget gs 0 = Some (Scalar a 8) /\ held (mem turned) a 8) /\
  ListSpec.sorting 2 (ListModel.insertion_sort 2) /\
  field_at (pkg "Doc") (mem turned) (at_pos "Doc" 24) 4 = Ok f /\ is_sorted less (mem turned) f = Ok false /\
  exists b', sort_elems (pkg "Doc") less (mem turned) f (ListModel.insertion_sort 2) = Ok (b', true) /\ is_sorted less b' f = Ok true /\
    decode (flat_bytes b') (lookup sch) 9 "Doc" 24 = Some (fill 24 4 (Tabs "File" 132 files) v).
Proof.
  split; [apply (decode_sound turned (lookup sch) 9); vm_compute; reflexivity|].
  split; [split; [apply apart_from_sound; vm_compute; reflexivity|apply links_from_sound; vm_compute; reflexivity]|].
  split; [intros u [<-|[<-|[]]]; vm_compute; intuition discriminate|].
  split; [eexists; split; [vm_compute; reflexivity|reflexivity]|].
  split.
  { intros u [<-|[<-|[]]]; eexists; eexists; eexists; (split; [reflexivity|]); (split; [reflexivity|]); right; (split; [vm_compute; discriminate|constructor]). }
  split; [apply ListProofs2.insertion_sorting; vm_compute; discriminate|].
  split; [vm_compute; reflexivity|]. split; [vm_compute; reflexivity|].
  eexists. split; [vm_compute; reflexivity|]. split; vm_compute; reflexivity.
Qed.
