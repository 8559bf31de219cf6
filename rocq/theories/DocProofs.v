(** Sequences of calls on a root buffer. *)
From Coq Require Import ZArith List Bool Lia String.
From Coq Require Import Strings.Byte.
From Verif Require Import GoLib BaseModel GoLemmas BaseSpec BaseProofs BaseProofs2 TableModel TableSpec.
From Verif Require Import NameModel NameSpec StreamModel WalkModel WalkSpec WalkProofs EqualSpec BuildModel InsModel InsSpec InsProofs InsProofs7 PutModel PutSpec PutProofs PutProofs2 PutProofs7.
From Verif Require Import JourSpec JourProofs JourProofs8 JourProofs9 ElemModel ElemSpec ElemProofs ElemProofs2 ElemProofs4 SortModel SortSpec SortProofs DocModel DocSpec.
From Verif Require BuildSpec BuildProofs3 BuildProofs8 ListSpec.
Import ListNotations.
Open Scope list_scope.
Open Scope Z_scope.

Lemma written_there : forall m p x, bytes_at (img_write m p x) p x.
Proof. intros m p x i Hi. unfold img_write. replace ((_ <=? _) && (_ <? _)) with true by lia. f_equal. lia. Qed.

Lemma written_besides : forall m p x a y, bytes_at m a y -> disjoint a (zlen y) p (zlen x) -> bytes_at (img_write m p x) a y.
Proof. intros m p x a y H D i Hi. unfold img_write. unfold disjoint in D. replace ((_ <=? _) && (_ <? _)) with false by lia. apply H. exact Hi. Qed.

Lemma bytes_in : forall l p x, 0 <=? p = true -> firstn (List.length x) (zskip p l) = x -> bytes_at (img_bytes l) p x.
Proof.
  intros l p x Hp E i Hi. apply Z.leb_le in Hp. unfold img_bytes.
  assert (E' : zfirst (zlen x) (zskip p l) = x) by (unfold zfirst, zlen; rewrite Nat2Z.id; exact E).
  rewrite <- E' at 1. rewrite zget_zfirst, zget_zskip by lia. replace (i <? zlen x) with true by lia. replace (i <? 0) with false by lia. reflexivity.
Qed.

Section Doc.
Variable n : names.
Variable s : schema.
Hypothesis HD : describes n s.

Definition vector_start (w : val) : Z :=
  match w with Scalars q _ _ | Structs q _ _ | Tabs _ q _ => q | _ => 0 end.

Lemma vector_place : forall m name p v tn tp fs tys idx t w, stored_table m s name p v -> only_table v (Tab tn tp fs) -> s tn = Some tys ->
  zget tys idx = Some t -> zget fs idx = Some w -> 0 <= vector_start w.
Proof.
  intros m name p v tn tp fs tys idx t w H [OT1 _] HS Ht Hw.
  destruct (proj1 (tables_stored m s v) name p H _ OT1) as (nm & q0 & gs & E & HT). injection E as <- <- <-.
  inversion HT as [? ? so es l tys' ? Hs' T Hso SF]; subst. rewrite HS in Hs'. injection Hs' as <-.
  destruct (fields_of m s _ None tys es fs SF) as (_ & _ & N). destruct (N _ _ Hw) as (t' & e0 & pv & _ & _ & N3 & _).
  pose proof (ta_vpos _ _ _ _ _ T) as TV. clear - N3 TV.
  destruct w; cbn [vector_start]; try lia; inversion N3; subst; try (match goal with X : stored_table _ _ _ _ _ |- _ => inversion X end);
    match goal with X : vector_from _ _ _ _ |- _ => destruct X as [X _]; destruct X end; lia.
Qed.

(** One call *)
Lemma call_done : forall c t b m name p v m' v', change n s m v c t m' v' -> in_memory b -> shows b m ->
  stored_table m s name p v -> intact b m v ->
  exists b' k, (forall fuel, (k <= fuel)%nat -> run_call n fuel b c = Ok b') /\ in_memory b' /\ shows b' m' /\
    stored_table m' s name p v' /\ intact b' m' v' /\
    (forall a x, In (a, x) (given t) -> 0 <= a /\ x <> [] /\ held b' a (zlen x) /\ bytes_at m' a x) /\
    (forall a k, 1 <= k -> held b a k -> untouched a k t -> held b' a k) /\
    (forall a y, bytes_at m a y -> untouched a (zlen y) t -> bytes_at m' a y).
Proof.
  intros c t b m name p v m' v' HC HB HM H HI. unfold untouched.
  destruct HC as [e HE|tn tp idx t w q k j eb e x (fs & tys & OT & HS & Ht & NU & Hw) IV Rj HG HX DP DL
                 |tn tp idx en q vs j old eb e m0 v0 x (fs & tys & OT & HS & Ht & NU & Hw) Ho HL HF M1 M2 ZX BX D0 A1 A2 DQ
                 |tn tp idx en q vs i j (fs & tys & OT & HS & Ht & NU & Hw) SA EF Ri Rj]; cbn [touched given].
  - destruct (put_one n s HD b m name p v (-1) e HB HM H HI HE) as (b' & P1 & P2 & P3 & P4 & P5 & _ & P7 & P8). exists b', 1%nat.
    split; [intros fuel Hf; cbn [run_call]; rewrite (P1 fuel Hf); reflexivity|].
    split; [exact P2|]. split; [exact P3|]. split; [exact P4|]. split; [exact P5|]. split.
    + intros a x [E|[]]. injection E as <- <-. split; [exact (edit_place n s HD m v name p e H HE)|]. split; [destruct HE; assumption|]. split; [exact P7|]. apply written_there.
    + split; intros a y; [intros HY H1|intros H2]; intros F; inversion F as [|? ? F1 _]; subst; cbn [fst snd] in F1; [apply P8; auto|apply written_besides; auto].
  - destruct (elem_replaced n s HD b m name p v (-1) tn tp fs tys idx t w q k j eb e x HB HM H HI OT HS Ht NU Hw IV Rj HG HX DP DL)
      as (f & b' & c' & E1 & E2 & _ & _ & _ & P2 & P3 & P4 & P5 & _ & P7 & P8). exists b', 1%nat.
    split; [intros fuel Hf; cbn [run_call]; rewrite E1; cbn [bind]; rewrite (E2 fuel Hf); reflexivity|].
    split; [exact P2|]. split; [exact P3|]. split; [exact P4|]. split; [exact P5|]. split.
    + intros a y [E|[]]. injection E as <- <-. split; [|split; [exact HX|split; [exact P7|apply written_there]]].
      pose proof (vector_place m name p v tn tp fs tys idx t w H OT HS Ht Hw) as Q.
      destruct w; cbn [inline_vector] in IV; try contradiction; destruct IV as [-> ->]; cbn [vector_start] in Q; pose proof (zlen_nonneg x); nia.
    + split; intros a y; [intros HY H1|intros H2]; intros F; inversion F as [|? ? F1 _]; subst; cbn [fst snd] in F1; [apply P8; auto|apply written_besides; auto].
  - rewrite ZX in A2, DQ.
    destruct (table_elem_replaced n s HD b m name p v (-1) tn tp fs tys idx en q vs j old eb e m0 v0 HB HM H HI OT HS Ht NU Hw M1 Ho HL HF M2 D0 A1 A2 DQ x ZX BX)
      as (f & b' & c' & k & E1 & E2 & _ & _ & _ & P2 & P3 & P4 & P5 & _ & _ & _ & P7 & P8). exists b', k.
    split; [intros fuel Hf; cbn [run_call]; rewrite E1; cbn [bind]; rewrite (E2 fuel Hf); reflexivity|].
    split; [exact P2|]. split; [exact P3|]. split; [exact P4|]. split; [exact P5|]. split.
    + intros a y [E|[]]. injection E as <- <-. split; [exact D0|]. split; [|split; [rewrite ZX; exact P7|apply written_there]].
      intros ->. destruct (lone_given n s HD eb e en m0 v0 HL) as (_ & _ & _ & LL & _). change (zlen (@nil byte)) with 0 in ZX. lia.
    + split; intros a y; [intros HY H1|intros H2]; intros F; inversion F as [|? ? F1 F']; subst; inversion F' as [|? ? F2 _]; subst; cbn [fst snd] in F1, F2;
        [apply P8; auto; rewrite <- ZX; exact F2|apply written_besides; auto].
  - destruct (elems_swapped n s HD b m name p v tn tp fs tys idx en q vs HB HM H HI OT HS Ht NU Hw SA EF (-1) i j Ri Rj)
      as (f & b' & E1 & E2 & P2 & P3 & P6 & P4 & P5 & _ & _ & P8). exists b', O.
    split; [intros fuel Hf; cbn [run_call]; rewrite E1; cbn [bind]; rewrite E2; reflexivity|].
    split; [exact P2|]. split; [exact P3|]. split; [exact P4|]. split; [exact P5|]. split; [intros a x []|].
    split; intros a y; [intros HY H1|intros H2]; intros F; pose proof (Forall_inv F) as F1; unfold fst, snd in F1; [apply P8; auto|].
    intros i0 Hi. unfold disjoint in F1. rewrite (P6 (a + i0)); [apply H2; exact Hi|]. lia.
Qed.

Lemma held_within : forall b a l c k, held b a l -> a <= c -> c + k <= a + l -> held b c k.
Proof.
  intros b a l c k H H1 H2.
  assert (B : forall ds, Forall (beside a l) ds -> Forall (beside c k) ds).
  { intros ds. apply Forall_impl. unfold beside. intros d D. lia. }
  destruct H as [(l1 & d & l2 & E & D1 & D2 & F)|[D F]]; [left; exists l1, d, l2|right]; repeat split; auto; lia.
Qed.

Lemma still_held : forall b b' t ts a k, 1 <= k -> left_whole b (t :: ts) a k ->
  (forall a x, In (a, x) (given t) -> held b' a (zlen x)) -> (forall a k, 1 <= k -> held b a k -> untouched a k t -> held b' a k) -> left_whole b' ts a k.
Proof.
  intros b b' t ts a k Hk [(ts1 & t' & ts2 & a0 & x & E & HG & A1 & A2 & HU)|[HH HU]] G K.
  - destruct ts1 as [|t1 ts1]; injection E as -> ->; [right; split; [|exact HU]|left; exists ts1, t', ts2, a0, x; auto].
    eapply held_within; eauto.
  - right. split; [apply K; auto; exact (Forall_inv HU)|exact (Forall_inv_tail HU)].
Qed.

(** All of them *)
Lemma calls_done : forall m v cs ts m' v', changes n s m v cs ts m' v' -> forall b name p, in_memory b -> shows b m ->
  stored_table m s name p v -> intact b m v ->
  exists b' k, (forall fuel, (k <= fuel)%nat -> run_calls n fuel b cs = Ok b') /\ in_memory b' /\ shows b' m' /\
    stored_table m' s name p v' /\ intact b' m' v' /\
    (forall a l, 1 <= l -> left_whole b ts a l -> held b' a l) /\
    (forall ts1 t ts2 a x, ts = ts1 ++ t :: ts2 -> In (a, x) (given t) -> Forall (untouched a (zlen x)) ts2 -> delivers b' a x) /\
    (forall a y, 0 <= a -> y <> [] -> held b a (zlen y) -> bytes_at m a y -> Forall (untouched a (zlen y)) ts -> delivers b' a y).
Proof.
  assert (Z1 : forall (y : list byte), y <> [] -> 1 <= zlen y).
  { intros [|y l] H; [contradiction|]. rewrite zlen_cons. pose proof (zlen_nonneg l). lia. }
  assert (GEN : forall m v cs ts m' v', changes n s m v cs ts m' v' -> forall b name p, in_memory b -> shows b m ->
    stored_table m s name p v -> intact b m v ->
    exists b' k, (forall fuel, (k <= fuel)%nat -> run_calls n fuel b cs = Ok b') /\ in_memory b' /\ shows b' m' /\
      stored_table m' s name p v' /\ intact b' m' v' /\
      (forall a l, 1 <= l -> left_whole b ts a l -> held b' a l) /\
      (forall ts1 t ts2 a x, ts = ts1 ++ t :: ts2 -> In (a, x) (given t) -> Forall (untouched a (zlen x)) ts2 ->
         0 <= a /\ x <> [] /\ bytes_at m' a x) /\
      (forall a y, bytes_at m a y -> Forall (untouched a (zlen y)) ts -> bytes_at m' a y)).
  { intros m v cs ts m' v' HC. induction HC as [m v|m v c t m1 v1 cs ts m2 v2 H1 HC IH]; intros b name p HB HM H HI.
    - exists b, O. split; [reflexivity|]. split; [exact HB|]. split; [exact HM|]. split; [exact H|]. split; [exact HI|]. split; [|split; [|auto]].
      + intros a l _ [(ts1 & t & ts2 & a0 & x & E & _)|[HH _]]; [destruct ts1; discriminate|exact HH].
      + intros ts1 t ts2 a x E. destruct ts1; discriminate.
    - destruct (call_done c t b m name p v m1 v1 H1 HB HM H HI) as (b1 & k1 & R1 & HB1 & HM1 & S1 & I1 & G1 & K1 & W1).
      destruct (IH b1 name p HB1 HM1 S1 I1) as (b2 & k2 & R2 & HB2 & HM2 & S2 & I2 & L2 & G2 & W2).
      exists b2, (k1 + k2)%nat. split; [intros fuel Hf; cbn [run_calls]; rewrite R1 by lia; cbn [bind]; apply R2; lia|].
      split; [exact HB2|]. split; [exact HM2|]. split; [exact S2|]. split; [exact I2|]. split; [|split].
      + intros a l Hl HW. apply L2; [exact Hl|]. eapply still_held; [exact Hl|exact HW| |exact K1]. intros a0 x X. apply G1, X.
      + intros ts1 t' ts2 a x E HG HU. destruct ts1 as [|t1 ts1]; injection E as -> ->; [|eapply G2; eauto].
        destruct (G1 a x HG) as (A1 & A2 & A3 & A4). auto.
      + intros a y HA HU. pose proof (Forall_inv HU) as U1. apply Forall_inv_tail in HU. auto. }
  intros m v cs ts m' v' HC b name p HB HM H HI.
  destruct (GEN m v cs ts m' v' HC b name p HB HM H HI) as (b' & k & R & HB' & HM' & S' & I' & L & G & W).
  exists b', k. split; [exact R|]. split; [exact HB'|]. split; [exact HM'|]. split; [exact S'|]. split; [exact I'|]. split; [exact L|]. split.
  - intros ts1 t ts2 a x E HG HU. destruct (G ts1 t ts2 a x E HG HU) as (A1 & A2 & A3). eapply held_delivers; eauto.
    apply L; [auto|]. left. exists ts1, t, ts2, a, x. repeat split; auto; lia.
  - intros a y H0 HY HH HA HU. eapply held_delivers; eauto. apply L; [auto|]. right. auto.
Qed.

(** Images of bytes have nothing before their start. *)
Lemma write_proper : forall m p x, proper m -> 0 <= p -> proper (img_write m p x).
Proof. intros m p x H Hp i Hi. unfold img_write. replace (p <=? i) with false by lia. apply H, Hi. Qed.

Lemma change_proper : forall m v c t m' v' name p, change n s m v c t m' v' -> stored_table m s name p v -> proper m -> proper m'.
Proof.
  intros m v c t m' v' name p HC H HP.
  destruct HC as [e HE|tn tp idx t w q k j eb e x (fs & tys & OT & HS & Ht & NU & Hw) IV Rj HG HX DP DL
                 |tn tp idx en q vs j old eb e m0 v0 x (fs & tys & OT & HS & Ht & NU & Hw) Ho HL HF M1 M2 ZX BX D0 A1 A2 DQ
                 |tn tp idx en q vs i j (fs & tys & OT & HS & Ht & NU & Hw) SA EF Ri Rj].
  - apply write_proper; [exact HP|]. exact (edit_place n s HD m v name p e H HE).
  - apply write_proper; [exact HP|]. pose proof (vector_place m name p v tn tp fs tys idx t w H OT HS Ht Hw) as Q. pose proof (zlen_nonneg x).
    destruct w; cbn [inline_vector] in IV; try contradiction; destruct IV as [-> ->]; cbn [vector_start] in Q; nia.
  - apply write_proper; assumption.
  - pose proof (vector_place m name p v tn tp fs tys idx _ _ H OT HS Ht Hw) as Q. cbn [vector_start] in Q.
    unfold swap_slots. destruct (zget vs i); [|exact HP]. destruct (zget vs j); [|exact HP]. destruct (i =? j); [exact HP|].
    apply write_proper; [|lia]. apply write_proper; [exact HP|lia].
Qed.

(** What is written out afterwards *)
Lemma flatten_after : forall b m name p v, in_memory b -> shows b m -> proper m -> stored_table m s name p v -> intact b m v ->
  exists b', base_flatten b = Ok b' /\ flat b' /\ let m' := img_bytes (sl_data (b_bytes b')) in
    (forall i x, m i = Some x -> m' i = Some x) /\ stored_table m' s name p v.
Proof.
  intros b m name p v HB HM HP H HI. destruct (flatten_spec b HB) as (l & E & L & G).
  eexists. split; [exact E|]. split; [split; reflexivity|]. cbn [b_bytes]. change (sl_data (gs_of l)) with l. set (m' := img_bytes l). cbv zeta.
  assert (SUB : forall i x, m i = Some x -> 0 <= i /\ m' i = Some x).
  { intros i x Hx. assert (H0 : 0 <= i) by (destruct (Z_lt_ge_dec i 0) as [N|N]; [rewrite HP in Hx by exact N; discriminate|lia]). split; [exact H0|].
    unfold m', img_bytes. rewrite G. unfold img_fill. replace (0 <=? i) with true by lia. cbn [andb].
    rewrite <- (shown b m HB HM i H0) in Hx. rewrite Hx.
    replace (i <? len_buf b) with true; [reflexivity|]. symmetry.
    apply Z.ltb_lt, (BuildProofs8.content_last b i HB). congruence. }
  split; [intros i x Hx; apply SUB, Hx|]. eapply BuildProofs3.stored_mono; eauto.
Qed.

Lemma changes_proper : forall m v cs ts m' v', changes n s m v cs ts m' v' -> forall b name p, in_memory b -> shows b m ->
  stored_table m s name p v -> intact b m v -> proper m -> proper m'.
Proof.
  intros m v cs ts m' v' HC. induction HC as [m v|m v c t m1 v1 cs ts m2 v2 H1 HC IH]; intros b name p HB HM H HI HP; [exact HP|].
  destruct (call_done c t b m name p v m1 v1 H1 HB HM H HI) as (b1 & k1 & _ & HB1 & HM1 & S1 & I1 & _).
  eapply (IH b1 name p); eauto. eapply change_proper; eauto.
Qed.

Lemma calls_written : forall m v cs ts m' v', changes n s m v cs ts m' v' -> forall b name p, in_memory b -> shows b m ->
  stored_table m s name p v -> intact b m v -> proper m ->
  exists b' b2 k, (forall fuel, (k <= fuel)%nat -> run_calls n fuel b cs = Ok b') /\ base_flatten b' = Ok b2 /\ flat b2 /\ let m2 := img_bytes (sl_data (b_bytes b2)) in
    stored_table m2 s name p v' /\ (forall i x, m' i = Some x -> m2 i = Some x).
Proof.
  intros m v cs ts m' v' HC b name p HB HM H HI HP.
  destruct (calls_done m v cs ts m' v' HC b name p HB HM H HI) as (b' & k & R & HB' & HM' & S' & I' & _).
  destruct (flatten_after b' m' name p v' HB' HM' (changes_proper m v cs ts m' v' HC b name p HB HM H HI HP) S' I') as (b2 & E & F & M & S2).
  exists b', b2, k. auto.
Qed.

End Doc.
