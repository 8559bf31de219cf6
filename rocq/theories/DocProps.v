(** Property theorem about sequences of calls on a buffer with a root (C112). *)
From Coq Require Import ZArith List Bool String.
From Coq Require Import Strings.Byte.
From Verif Require Import GoLib BaseModel BaseSpec TableModel TableSpec NameModel NameSpec StreamModel
  WalkModel WalkSpec WalkProofs6 WalkProofs9 EqualSpec InsModel InsSpec InsProofs3 BuildModel PutModel PutSpec PutProofs6
  JourSpec JourProofs10 ElemModel ElemSpec SortModel SortSpec DocModel DocSpec.
From Verif Require ListSpec DocProofs.
From Verif Require Import WalkProps InsProps PutProps JourProps ElemProps SortProps.
Import ListNotations.
Open Scope string_scope.
Open Scope list_scope.
Open Scope Z_scope.

(** ** C112: any sequence of calls *)

(** The buffer after all calls has the bytes and the stored value that the calls
    make one after the other; what a call put into it, and what was there before,
    can be read until a later call touches it. *)
Theorem C112_calls : forall n s, describes n s ->
  forall m v cs ts m' v', changes n s m v cs ts m' v' -> forall b name p, in_memory b -> shows b m ->
  stored_table m s name p v -> intact b m v ->
  exists b' k, (forall fuel, (k <= fuel)%nat -> run_calls n fuel b cs = Ok b') /\ in_memory b' /\ shows b' m' /\
    stored_table m' s name p v' /\ intact b' m' v' /\
    (forall a l, 1 <= l -> left_whole b ts a l -> held b' a l) /\
    (forall ts1 t ts2 a x, ts = ts1 ++ t :: ts2 -> In (a, x) (given t) -> Forall (untouched a (zlen x)) ts2 -> delivers b' a x) /\
    (forall a y, 0 <= a -> y <> [] -> held b a (zlen y) -> bytes_at m a y -> Forall (untouched a (zlen y)) ts -> delivers b' a y).
Proof. exact DocProofs.calls_done. Qed.
Print Assumptions C112_calls.

(** The same with [Flatten] at the end: the bytes of the buffer are the document. *)
Theorem C112_written : forall n s, describes n s ->
  forall m v cs ts m' v', changes n s m v cs ts m' v' -> forall b name p, in_memory b -> shows b m ->
  stored_table m s name p v -> intact b m v -> proper m ->
  exists b' b2 k, (forall fuel, (k <= fuel)%nat -> run_calls n fuel b cs = Ok b') /\ base_flatten b' = Ok b2 /\ flat b2 /\
    let m2 := img_bytes (sl_data (b_bytes b2)) in
    stored_table m2 s name p v' /\ (forall i x, m' i = Some x -> m2 i = Some x).
Proof. exact DocProofs.calls_written. Qed.
Print Assumptions C112_written.

(** On the sample: the second listed file gets the number 9, the second number
    becomes 99, the first file is replaced, the files are exchanged, and the one
    that was second, still where it was, gets the number 10. *)
Definition new_file : base * cnode := file 9 (letters [97]).
Definition new_number : base * cnode := num "Int32" SInt32 99.
Definition to_file (v : Z) : call := let x := num "Uint64" SUint64 v in Set_field "File" 180 0 (fst x) (snd x).
Definition five : list call :=
  [to_file 9; Set_elem "Doc" 24 5 1 (fst new_number) (snd new_number);
   Set_elem "Doc" 24 4 0 (fst new_file) (snd new_file); Swap_elems "Doc" 24 4 0 1; to_file 10].

Definition done_base : base := Eval vm_compute in match run_calls (pkg "Doc") 20 (mem doc_bytes) five with Ok b => b | _ => mem [] end.
Definition moved_file : val := Tab "File" 148 [Scalar 152 8; Scalars 168 1 1].
Definition files' : list val := Eval vm_compute in set_nth 0 moved_file files.

Definition v1 : val := Eval vm_compute in fill 24 4 (Tabs "File" 132 files') (val_of doc_bytes "Doc").
Definition v2 : val := Eval vm_compute in fill 24 4 (Tabs "File" 132 (rev files')) v1.

Definition new_file_bytes : list byte := Eval vm_compute in firstn 29 (sl_data (b_bytes (fst new_file))).

Lemma bytes_sound : forall l p x, 0 <=? p = true -> firstn (List.length x) (zskip p l) = x -> bytes_at (img_bytes l) p x.
Proof. exact DocProofs.bytes_in. Qed.

Lemma five_changes : exists ts m', changes (pkg "Doc") (lookup sch) (img_bytes doc_bytes) (val_of doc_bytes "Doc") five ts m' v2.
Proof.
  eexists. eexists. unfold five. eapply Chs_cons; [apply (Ch_field _ _ _ _ (file_edit 9)); apply file_editable; vm_compute; intuition discriminate|].
  eapply Chs_cons.
  { eapply (Ch_elem _ _ _ _ "Doc" 24 5 (TyScalars SInt32) (Scalars 104 2 4) 104 2 1).
    - eexists. eexists. split; [apply only_sound; [vm_compute; left; reflexivity|vm_compute; reflexivity]|].
      split; [reflexivity|]. split; [reflexivity|]. split; [intros us; vm_compute; discriminate|reflexivity].
    - split; reflexivity.
    - split; [discriminate|reflexivity].
    - eapply (num_elem "Doc" (lookup sch) "Doc" 0); [vm_compute; reflexivity|vm_compute; reflexivity|reflexivity|vm_compute; intuition discriminate|vm_compute; reflexivity|vm_compute; reflexivity].
    - discriminate.
    - apply apart_from_sound. vm_compute. reflexivity.
    - apply links_from_sound. vm_compute. reflexivity. }
  eapply Chs_cons.
  { eapply (Ch_table _ _ _ _ "Doc" 24 4 "File" 132 files 0 (Tab "File" 148 [Scalar 156 8; Scalars 168 1 1]) (fst new_file) (snd new_file)
      (img_bytes (sl_data (b_bytes (fst new_file)))) (Tab "File" 8 [Scalar 12 8; Scalars 28 1 1]) new_file_bytes).
    - eexists. eexists. split; [apply only_sound; [vm_compute; left; reflexivity|vm_compute; reflexivity]|].
      split; [reflexivity|]. split; [reflexivity|]. split; [intros us; vm_compute; discriminate|reflexivity].
    - reflexivity.
    - exact file_lone.
    - vm_compute. discriminate.
    - apply measured_sound. vm_compute. reflexivity.
    - apply measured_sound. vm_compute. reflexivity.
    - reflexivity.
    - apply bytes_sound; vm_compute; reflexivity.
    - vm_compute. discriminate.
    - split; [apply apart_from_sound; vm_compute; reflexivity|apply links_from_sound; vm_compute; reflexivity].
    - split; [apply apart_from_sound; vm_compute; reflexivity|apply links_from_sound; vm_compute; reflexivity].
    - vm_compute. left. discriminate. }
  match goal with |- changes _ _ _ ?v _ _ _ _ => change v with v1 end.
  eapply Chs_cons.
  { eapply (Ch_swap _ _ _ _ "Doc" 24 4 "File" 132 files' 0 1).
    - eexists. eexists. split; [apply only_sound; [vm_compute; left; reflexivity|vm_compute; reflexivity]|].
      split; [reflexivity|]. split; [reflexivity|]. split; [intros us; vm_compute; discriminate|reflexivity].
    - split; [apply apart_from_sound; vm_compute; reflexivity|apply links_from_sound; vm_compute; reflexivity].
    - intros u [<-|[<-|[]]]; vm_compute; intuition discriminate.
    - vm_compute. intuition discriminate.
    - vm_compute. intuition discriminate. }
  match goal with |- changes _ _ _ ?v _ _ _ _ => change v with v2 end.
  eapply Chs_cons; [|apply Chs_nil]. apply (Ch_field _ _ _ _ (file_edit 10)).
  constructor.
  - exists [Scalar 188 8; Scalars 200 2 1], [TyScalar SUint64; str]. split; [apply only_sound; [vm_compute; tauto|vm_compute; reflexivity]|].
    split; [reflexivity|]. split; [reflexivity|]. split; [intros us; vm_compute; discriminate|reflexivity].
  - reflexivity.
  - eapply num_gives; [vm_compute; reflexivity|vm_compute; reflexivity|vm_compute; intuition discriminate].
  - discriminate.
  - apply apart_from_sound. vm_compute. reflexivity.
  - apply links_from_sound. vm_compute. reflexivity.
Qed.

Example C112_five : 
  stored_table (img_bytes doc_bytes) (lookup sch) "Doc" 24 (val_of doc_bytes "Doc") /\
  intact (mem doc_bytes) (img_bytes doc_bytes) (val_of doc_bytes "Doc") /\
  (exists ts m', changes (pkg "Doc") (lookup sch) (img_bytes doc_bytes) (val_of doc_bytes "Doc") five ts m' v2) /\
  run_calls (pkg "Doc") 20 (mem doc_bytes) five = Ok done_base /\ zlen (b_diffs done_base) = 14 /\
  rd 8 done_base 188 = Ok 10 /\ rd 4 done_base 108 = Ok 99 /\ rd 8 done_base 152 = Ok 9 /\
  decode (flat_bytes done_base) (lookup sch) 9 "Doc" 24 = Some v2.
Proof.
  split; [apply (decode_sound doc_bytes (lookup sch) 9); vm_compute; reflexivity|]. split; [apply intact_sound; vm_compute; reflexivity|].
  split; [exact five_changes|]. split; [vm_compute; reflexivity|]. 
  repeat (split; [vm_compute; reflexivity|]). vm_compute. reflexivity.
Qed.

(** A file can be appended and the first two exchanged; the other way round the
    vector, whose last element is then not the one stored last, is measured
    wrongly, and appending panics. *)
Theorem C112_order_refuted : exists sw ap b v, sw = Swap_elems "Doc" 24 4 0 1 /\ ap = Set_elem "Doc" 24 4 2 (fst new_file) (snd new_file) /\
  run_calls (pkg "Doc") 20 (mem doc_bytes) [ap; sw] = Ok b /\ decode (flat_bytes b) (lookup sch) 9 "Doc" 24 = Some v /\
  (exists b1, run_calls (pkg "Doc") 20 (mem doc_bytes) [sw] = Ok b1) /\
  run_calls (pkg "Doc") 20 (mem doc_bytes) [sw; ap] = Panic.
Proof.
  eexists. eexists. match goal with |- exists b v, ?s = ?x /\ ?a = ?y /\ _ =>
    let r := eval vm_compute in (run_calls (pkg "Doc") 20 (mem doc_bytes) [y; x]) in match r with Ok ?b => exists b;
    let d := eval vm_compute in (decode (flat_bytes b) (lookup sch) 9 "Doc" 24) in match d with Some ?v => exists v end end end.
  split; [reflexivity|]. split; [reflexivity|]. split; [vm_compute; reflexivity|]. split; [vm_compute; reflexivity|].
  split; [eexists|]; vm_compute; reflexivity.
Qed.
Print Assumptions C112_order_refuted.
