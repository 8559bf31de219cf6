(** Fields of separated vectors, and calls that lose elements. *)
From Coq Require Import ZArith List Bool Lia.
From Coq Require Import Strings.Byte.
From Verif Require Import GoLib BaseModel GoLemmas BaseSpec BaseProofs BaseProofs2 BaseProofs3.
From Verif Require Import TableModel TableSpec TableProofs TableProofs2 ListModel ListSpec.
From Verif Require Import ListProofs ListProofs2 ListProofs3 ListProofs4 ListProofs5 ListProofs6.
From Verif Require Import AddModel AddSpec AddProofs AddProofs2 AddProofs3 AddProofs4 AddProofs5 AddProofs7 AddProofs8 AddProofs9.
From Verif Require Import SepModel SepSpec SepProofs SepProofs2 SepProofs3 SepProofs4.
Import ListNotations.
Open Scope Z_scope.

Lemma sep_split : forall ks l es, built ks l es ->
  exists s, write_data_all ks (set_writer l empty_file) = Ok (SOk s) /\ separated ks s es.
Proof.
  intros ks l es H. destruct (split_ok ks l es H) as (s & E & I). exists s. split; [exact E|].
  exact (sinv_separated ks true s es I).
Qed.

Lemma sep_kept : forall ks g s es, sep_built ks g s es -> separated ks s es.
Proof. intros ks g s es H. apply (sinv_separated ks g). apply sep_sinv. exact H. Qed.

Lemma sep_set : forall ks s es src sp e, sep_built ks true s es -> fills_buffer ks src sp e ->
  appended_size ks (es ++ [(src, sp, e)]) < 2 ^ 32 - 4 ->
  exists s', sep_set_at ks s (zlen es) src sp = Ok (SOk s') /\ sep_built ks true s' (es ++ [(src, sp, e)]) /\
    separated ks s' (es ++ [(src, sp, e)]).
Proof.
  intros ks s es src sp e H FB HM. pose proof HM as HM'. change (2 ^ 32) with 4294967296 in HM'.
  destruct (sinv_set ks s es src sp e (sep_sinv ks true s es H) FB HM') as (s' & E & I). exists s'. split; [exact E|].
  split; [eapply S_set; eauto|]. exact (sinv_separated ks true s' _ I).
Qed.

Lemma sep_join : forall ks f g d es s fs, sep_built ks f d es -> sep_built ks g s fs ->
  appended_size ks (es ++ fs) < 2 ^ 32 - 4 ->
  exists n s', sep_add d (rewound s) = Ok (Added n s') /\ sep_built ks false n (es ++ fs) /\
    separated ks n (es ++ fs) /\ separated ks s' fs.
Proof.
  intros ks f g d es s fs H1 H2 HM. pose proof HM as HM'. change (2 ^ 32) with 4294967296 in HM'.
  pose proof (sep_sinv ks _ _ _ H1) as I1. pose proof (sep_sinv ks _ _ _ H2) as I2.
  destruct (sinv_add ks f g d es s fs I1 I2 HM') as (n & s' & E). exists n, s'. split; [exact E|].
  split; [eapply S_add; [exact H1|apply S_rewind; exact H2|exact HM|exact E]|].
  destruct (sinv_added ks f g d es (rewound s) fs n s' I1 (sinv_rewound ks _ _ _ I2) HM' E) as [A B].
  split; [exact (sinv_separated ks false n _ A)|exact (sinv_separated ks g s' fs B)].
Qed.

(** ** Fields *)

Section Fields.
Variable ks : list fkind.
Hypothesis sizes_pos : Forall (fun k => forall n, inline_size k = Some n -> 1 <= n) ks.
Hypothesis inline : Forall (fun k => inline_size k <> None) ks.
Hypothesis HS : 4 + 2 * zlen ks < 65536.
Hypothesis HT : 4 + inline_total ks < 65536.

Lemma sep_fields : forall g s es hs, sep_built ks g s es -> Forall2 (made_or_merged ks) hs es ->
  exists l, whole s = Ok l /\ list_vlen l = Ok (zlen hs) /\
  forall i h, zget hs i = Some h -> exists t, list_at (ETable ks) l i = Ok (Some t) /\
    forall f k n, zget ks f = Some k -> inline_size k = Some n ->
      read_field (mkT (l_io l) t) f n = Ok (final_map h f).
Proof.
  intros g s es hs HB HF. destruct (sep_kept ks g s es HB) as (_ & _ & _ & l & EW & EV & EA). exists l. split; [exact EW|].
  pose proof (Forall2_zlen _ _ _ _ _ HF) as LZ. split; [rewrite LZ; exact EV|]. intros i h Hh.
  destruct (Forall2_zget _ _ _ _ _ i h HF Hh) as ([[b sp] e] & He & M).
  destruct (EA i b sp e He) as (t & AT & SR & VT). exists t. split; [exact AT|].
  destruct M as [M|(src & M & EF)].
  - destruct (made_inv ks sizes_pos inline HS HT _ _ _ _ M) as (SC & _ & vt & tl & I & HB').
    intros f k n Hk Hn. apply (copy_fields ks sizes_pos inline (mkT b sp) vt tl _ e (l_io l) t I SC HB' VT SR f k n Hk Hn).
  - destruct (made_inv ks sizes_pos inline HS HT _ _ _ _ M) as (SC & GP & vt & tl & I & HB').
    destruct (made_fills ks sizes_pos inline HS HT _ _ _ _ M) as (b' & EF' & (SCb & FL & HP & HL) & SR1).
    assert (b' = b) by congruence. subst b'.
    assert (RB : forall j, - vtable_size ks <= j < e -> readable b (sp + j)).
    { intros j Hj. assert (MB : in_memory b) by (apply (TableProofs.flat_in_memory _ FL)). apply readable_content; auto; [lia|].
      rewrite flat_content by exact FL. unfold gs_len in HL.
      destruct (zget_some (sl_data (b_bytes b)) (sp + j) ltac:(lia)) as [x Hx]. unfold img_bytes. congruence. }
    assert (SR2 : same_reads src sp (l_io l) t (- vtable_size ks) e).
    { intros j q Hj Hj2 Hq HR HD. apply SR; auto.
      intros j0 Hj0. apply RB. lia. }
    assert (VT2 : forall j, 0 <= j < zlen ks -> exists x,
       virtual_table src sp j = Ok (sp + x) /\ virtual_table (l_io l) t j = Ok (t + x)).
    { intros j Hj. destruct (VT j Hj) as (x & X1 & X2).
      destruct (cp_entry ks src sp e b sp SC (TableProofs.flat_in_memory _ FL) ltac:(lia) SR1 j Hj) as (y & Y1 & Y2).
      exists x. split; [|exact X2]. rewrite Y1. f_equal. rewrite X1 in Y2. injection Y2 as Y2. lia. }
    intros f k n Hk Hn. apply (copy_fields ks sizes_pos inline (mkT src sp) vt tl _ e (l_io l) t I SC HB' VT2 SR2 f k n Hk Hn).
Qed.
End Fields.

(** ** Calls that lose elements *)

(** The first fields of all elements. *)
Definition firsts (ks : list fkind) (n : Z) (s : sep) : res (list (res (option (list byte)))) :=
  do l <- whole s; Ok (map (first_of ks n l) (zseq (l_vlen l))).
Definition says (vs : list byte) : list (res (option (list byte))) :=
  map (fun v => Ok (Some [v; x00; x00; x00])) vs.

(** Two elements changed places before the data was written: the change is
    lost. *)
Lemma split_swapped : exists l l' s, sample_list slim 4 [x01; x02; x03] = Ok (LOk l) /\
  swap_at (ETable slim) l 1 2 = Ok (l', true) /\ map (first_of slim 4 l') (zseq 3) = says [x01; x03; x02] /\
  write_data_all slim (set_writer l' empty_file) = Ok (SOk s) /\ firsts slim 4 s = Ok (says [x01; x02; x03]).
Proof.
  match eval vm_compute in (sample_list slim 4 [x01; x02; x03]) with Ok (LOk ?l) => exists l;
    match eval vm_compute in (swap_at (ETable slim) l 1 2) with Ok (?m, _) => exists m;
      match eval vm_compute in (write_data_all slim (set_writer m empty_file)) with Ok (SOk ?s) => exists s end end end.
  split; [vm_compute; reflexivity|]. split; [vm_compute; reflexivity|]. split; [vm_compute; reflexivity|].
  split; [vm_compute; reflexivity|vm_compute; reflexivity].
Qed.

(** A separated vector of samples. *)
Definition start (vs : list byte) (w : writer) : res sep_res :=
  do r <- sample_list slim 4 vs;
  match r with LOk l => write_data_all slim (set_writer l w) | _ => Panic end.

Lemma set_merged : exists src b sp e s s', sample slim 4 x03 = Ok (src, sp, e) /\ base_flatten src = Ok b /\
  start [x01; x02] empty_file = Ok (SOk s) /\ sep_set_at slim s 2 b sp = Ok (SOk s') /\
  firsts slim 4 s' = Ok (says [x01; x02; x03]).
Proof.
  match eval vm_compute in (sample slim 4 x03) with Ok (?a, ?p, ?e) => exists a;
    match eval vm_compute in (base_flatten a) with Ok ?b => exists b, p, e;
      match eval vm_compute in (start [x01; x02] empty_file) with Ok (SOk ?s) => exists s;
        match eval vm_compute in (sep_set_at slim s 2 b p) with Ok (SOk ?s') => exists s' end end end end.
  split; [vm_compute; reflexivity|]. split; [vm_compute; reflexivity|]. split; [vm_compute; reflexivity|].
  split; [vm_compute; reflexivity|vm_compute; reflexivity].
Qed.

(** The table was not merged. *)
Lemma set_unmerged : exists src sp e s s', sample slim 4 x03 = Ok (src, sp, e) /\
  start [x01; x02] empty_file = Ok (SOk s) /\ sep_set_at slim s 2 src sp = Ok (SOk s') /\
  read_field (mkT src sp) 0 4 = Ok (Some [x03; x00; x00; x00]) /\
  firsts slim 4 s' = Ok (says [x01; x02] ++ [Ok (Some [x00; x03; x00; x00])]).
Proof.
  match eval vm_compute in (sample slim 4 x03) with Ok (?a, ?p, ?e) => exists a, p, e;
    match eval vm_compute in (start [x01; x02] empty_file) with Ok (SOk ?s) => exists s;
      match eval vm_compute in (sep_set_at slim s 2 a p) with Ok (SOk ?s') => exists s' end end end.
  split; [vm_compute; reflexivity|]. split; [vm_compute; reflexivity|]. split; [vm_compute; reflexivity|].
  split; [vm_compute; reflexivity|vm_compute; reflexivity].
Qed.

(** The table is the second one of a merged vector. *)
Lemma set_inner : exists l b p s s', sample_list slim 4 [x01; x02] = Ok (LOk l) /\ base_flatten (l_io l) = Ok b /\
  list_at (ETable slim) (set_io l b) 1 = Ok (Some p) /\ read_field (mkT b p) 0 4 = Ok (Some [x02; x00; x00; x00]) /\
  start [x07] empty_file = Ok (SOk s) /\ sep_set_at slim s 1 b p = Ok (SOk s') /\
  firsts slim 4 s' = Ok (says [x07; x04]).
Proof.
  match eval vm_compute in (sample_list slim 4 [x01; x02]) with Ok (LOk ?l) => exists l;
    match eval vm_compute in (base_flatten (l_io l)) with Ok ?b => exists b;
      match eval vm_compute in (list_at (ETable slim) (set_io l b) 1) with Ok (Some ?p) => exists p;
        match eval vm_compute in (start [x07] empty_file) with Ok (SOk ?s) => exists s;
          match eval vm_compute in (sep_set_at slim s 1 b p) with Ok (SOk ?s') => exists s' end end end end end.
  split; [vm_compute; reflexivity|]. split; [vm_compute; reflexivity|]. split; [vm_compute; reflexivity|].
  split; [vm_compute; reflexivity|]. split; [vm_compute; reflexivity|].
  split; [vm_compute; reflexivity|vm_compute; reflexivity].
Qed.

(** The writer cannot write at an offset. *)
Lemma set_plain : exists src b sp e s s', sample slim 4 x03 = Ok (src, sp, e) /\ base_flatten src = Ok b /\
  start [x01; x02] (Plain (mkFile nil 0)) = Ok (SOk s) /\ sep_set_at slim s 2 b sp = Ok (SOk s') /\
  data_of s' = data_of s /\ s_len s' = s_len s + 16 /\ firsts slim 4 s' = Ok (says [x01; x02] ++ [Ok None]).
Proof.
  match eval vm_compute in (sample slim 4 x03) with Ok (?a, ?p, ?e) => exists a;
    match eval vm_compute in (base_flatten a) with Ok ?b => exists b, p, e;
      match eval vm_compute in (start [x01; x02] (Plain (mkFile nil 0))) with Ok (SOk ?s) => exists s;
        match eval vm_compute in (sep_set_at slim s 2 b p) with Ok (SOk ?s') => exists s' end end end end.
  split; [vm_compute; reflexivity|]. split; [vm_compute; reflexivity|]. split; [vm_compute; reflexivity|].
  split; [vm_compute; reflexivity|]. split; [vm_compute; reflexivity|].
  split; [vm_compute; reflexivity|vm_compute; reflexivity].
Qed.

Lemma join_samples : exists a b n b', start [x01; x02] empty_file = Ok (SOk a) /\ start [x03; x04] empty_file = Ok (SOk b) /\
  sep_add a (rewound b) = Ok (Added n b') /\ firsts slim 4 n = Ok (says [x01; x02; x03; x04]).
Proof.
  match eval vm_compute in (start [x01; x02] empty_file) with Ok (SOk ?a) => exists a;
    match eval vm_compute in (start [x03; x04] empty_file) with Ok (SOk ?b) => exists b;
      match eval vm_compute in (sep_add a (rewound b)) with Ok (Added ?n ?c) => exists n, c end end end.
  split; [vm_compute; reflexivity|]. split; [vm_compute; reflexivity|].
  split; [vm_compute; reflexivity|vm_compute; reflexivity].
Qed.

(** Joining right after [WriteDataAll], the file still being where the writing
    ended. *)
Lemma join_unwound : exists a b a' b', start [x01; x02] empty_file = Ok (SOk a) /\ start [x03; x04] empty_file = Ok (SOk b) /\
  sep_add a b = Ok (NotAdded a' b').
Proof.
  match eval vm_compute in (start [x01; x02] empty_file) with Ok (SOk ?a) => exists a;
    match eval vm_compute in (start [x03; x04] empty_file) with Ok (SOk ?b) => exists b;
      match eval vm_compute in (sep_add a b) with Ok (NotAdded ?n ?c) => exists n, c end end end.
  split; [vm_compute; reflexivity|]. split; [vm_compute; reflexivity|vm_compute; reflexivity].
Qed.

(** An element added to a joined vector. *)
Lemma set_joined : exists a b n b' src m sp e s, start [x01; x02] empty_file = Ok (SOk a) /\ start [x03; x04] empty_file = Ok (SOk b) /\
  sep_add a (rewound b) = Ok (Added n b') /\ sample slim 4 x05 = Ok (src, sp, e) /\ base_flatten src = Ok m /\
  sep_set_at slim n 4 m sp = Ok (SOk s) /\ firsts slim 4 s = Ok ([Ok None; Ok None; Ok None] ++ says [x04; x05]).
Proof.
  match eval vm_compute in (start [x01; x02] empty_file) with Ok (SOk ?a) => exists a;
    match eval vm_compute in (start [x03; x04] empty_file) with Ok (SOk ?b) => exists b;
      match eval vm_compute in (sep_add a (rewound b)) with Ok (Added ?n ?c) => exists n, c;
        match eval vm_compute in (sample slim 4 x05) with Ok (?t, ?p, ?e) => exists t;
          match eval vm_compute in (base_flatten t) with Ok ?m => exists m, p, e;
            match eval vm_compute in (sep_set_at slim n 4 m p) with Ok (SOk ?s) => exists s end end end end end end.
  split; [vm_compute; reflexivity|]. split; [vm_compute; reflexivity|]. split; [vm_compute; reflexivity|].
  split; [vm_compute; reflexivity|]. split; [vm_compute; reflexivity|].
  split; [vm_compute; reflexivity|vm_compute; reflexivity].
Qed.

(** [SetAt] writes at an offset and leaves the cursor of the file where it was,
    so a file rewound before can be joined after. *)
Lemma set_then_join : exists a b src m sp e s n s', start [x01; x02] empty_file = Ok (SOk a) /\ start [x03; x04] empty_file = Ok (SOk b) /\
  sample slim 4 x05 = Ok (src, sp, e) /\ base_flatten src = Ok m /\
  sep_set_at slim (rewound b) 2 m sp = Ok (SOk s) /\
  sep_add a s = Ok (Added n s') /\ firsts slim 4 n = Ok (says [x01; x02; x03; x04; x05]).
Proof.
  match eval vm_compute in (start [x01; x02] empty_file) with Ok (SOk ?a) => exists a;
    match eval vm_compute in (start [x03; x04] empty_file) with Ok (SOk ?b) => exists b;
        match eval vm_compute in (sample slim 4 x05) with Ok (?t, ?p, ?e) => exists t;
          match eval vm_compute in (base_flatten t) with Ok ?m => exists m, p, e;
            match eval vm_compute in (sep_set_at slim (rewound b) 2 m p) with Ok (SOk ?s) => exists s;
              match eval vm_compute in (sep_add a s) with Ok (Added ?n ?c) => exists n, c end end end end end end.
  split; [vm_compute; reflexivity|]. split; [vm_compute; reflexivity|]. split; [vm_compute; reflexivity|].
  split; [vm_compute; reflexivity|]. split; [vm_compute; reflexivity|].
  split; [vm_compute; reflexivity|vm_compute; reflexivity].
Qed.
