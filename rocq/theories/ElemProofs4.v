(** Replacing a table of a vector by one that is not longer: the theorem. *)
From Coq Require Import ZArith List Bool Lia String.
From Coq Require Import Strings.Byte.
From Verif Require Import GoLib BaseModel GoLemmas BaseSpec BaseProofs BaseProofs2 BaseProofs3 TableModel TableSpec TableProofs.
From Verif Require Import TableProofs2 NameModel NameSpec StreamModel WalkModel WalkSpec WalkProofs WalkProofs2 WalkProofs3 WalkProofs4 WalkProofs5.
From Verif Require Import EqualSpec BuildModel InsModel InsSpec InsProofs InsProofs7 PutModel PutSpec PutProofs PutProofs2 PutProofs7.
From Verif Require Import JourModel JourSpec JourProofs JourProofs2 JourProofs3 JourProofs4 JourProofs5 JourProofs8 JourProofs9 JourProofs10.
From Verif Require Import ElemModel ElemSpec ElemProofs ElemProofs2 ElemProofs3.
From Verif Require BuildSpec BuildProofs3 BuildProofs5 AddProofs7.
Import ListNotations.
Open Scope list_scope.
Open Scope Z_scope.

Section Cleared.
Variable m : image.
Variable s : schema.
Variables (tp idx : Z) (t : ty).
Hypothesis HI : 0 <= idx.
Local Notation clear := (fill tp idx (Absent t)).

Lemma frame_clear_parts : forall u, somewhere m s u -> forall a k, In (a, k) (frame m (clear u)) ->
  exists c0 k0, In (c0, k0) (parts m (clear u)) /\ c0 <= a /\ a + k <= c0 + k0 /\ 1 <= k.
Proof.
  intros u. induction u as [ty|q w'|q ms|q k' w'|q k' ms|nm p gs go|nm p vs go] using val_deep; intros HW a k H; try (apply (frame_in_parts m s _ HW); exact H).
  - change (clear (Tab nm p gs)) with (Tab nm p (match clear (Tab nm p gs) with Tab _ _ gs => gs | _ => [] end)) in H |- *.
    set (hs := match clear (Tab nm p gs) with Tab _ _ gs => gs | _ => [] end) in *. cbn [frame parts] in H |- *. pose proof (zlen_nonneg hs).
    destruct H as [E|[E|[E|H]]].
    + injection E as <- <-. exists p, 4. split; [left; reflexivity|]. lia.
    + injection E as <- <-. exists (vtable_of m p), (4 + 2 * zlen hs). split; [right; left; reflexivity|]. lia.
    + injection E as <- <-. exists (vtable_of m p), (4 + 2 * zlen hs). split; [right; left; reflexivity|]. lia.
    + apply in_app_or in H. destruct H as [H|H].
      * apply in_map_iff in H. destruct H as (i & E & Hi). pose proof (f_equal fst E) as Ea. pose proof (f_equal snd E) as Ek. cbn [fst snd] in Ea, Ek. apply in_seq in Hi. exists (vtable_of m p), (4 + 2 * zlen hs).
        split; [right; left; reflexivity|]. unfold zlen. lia.
      * apply in_flat_map in H. destruct H as (g & G1 & G2). pose proof G1 as GI. apply zget_of_in in GI. destruct GI as (i & GI).
        destruct (cleared_field tp idx HI t nm p gs i g GI) as [->|(f & F1 & ->)]; [destruct G2|].
        destruct (go f (zget_in _ _ _ _ F1) (somewhere_field m s _ _ _ _ _ HW F1) a k G2) as (c0 & k0 & C1 & C2). exists c0, k0. split; [|exact C2].
        right. right. apply in_flat_map. exists (clear f). split; [exact G1|exact C1].
  - cbn [fill frame parts] in H |- *. destruct H as [E|H]; [injection E as <- <-; exists (p - 4), 4; split; [left; reflexivity|lia]|].
    apply in_flat_map in H. destruct H as (g & G1 & G2). apply in_map_iff in G1. destruct G1 as (f & <- & F1). pose proof F1 as FI. apply zget_of_in in FI. destruct FI as (i & FI).
    destruct (go f F1 (somewhere_elem m s _ _ _ _ _ HW FI) a k G2) as (c0 & k0 & C1 & C2). exists c0, k0. split; [|exact C2].
    right. apply in_flat_map. exists (clear f). split; [apply in_map; exact F1|exact C1].
Qed.
End Cleared.

Lemma elems_at : forall m s slot tn vs, stored_elems m s slot tn vs -> forall i v, zget vs i = Some v ->
  points_to m (slot + 4 * i) (val_pos v) /\ stored_table m s tn (val_pos v) v.
Proof.
  intros m s slot tn vs H i v Hi. destruct (elems_of m s slot tn vs H i v Hi) as (u & U1 & U2).
  assert (E : u = val_pos v) by (clear - U2; inversion U2; reflexivity). rewrite <- E. auto.
Qed.

Section Elem.
Variable n : names.
Variable s : schema.
Hypothesis HD : describes n s.

(** The new element, and what [setTableAt] finds out about it *)
Lemma lone_given : forall eb e en m0 v0, BuildSpec.lone_table n s eb e en m0 v0 ->
  let lo := val_pos v0 - lead v0 in let len := reach v0 - val_pos v0 + lead v0 in
  flat eb /\ m0 = img_bytes (sl_data (b_bytes eb)) /\ 0 <= lo /\ 4 <= len /\ lo + len <= zlen (sl_data (b_bytes eb)) /\
  stored_table (BuildSpec.window m0 lo (reach v0)) s en (val_pos v0) v0 /\
  c_name e = en /\ map_len (c_groups e) * 2 + 4 = lead v0 /\
  exists k, forall fuel, (k <= fuel)%nat -> elem_size n fuel eb e = Ok (val_pos v0, reach v0 - val_pos v0).
Proof.
  intros eb e en m0 v (pos & fz & tys' & Hfe & FF & -> & HS' & Hpos & Hle & SV & MV & Hz) lo len.
  assert (SV' : stored_table (img_bytes (sl_data (b_bytes eb))) s en pos v).
  { eapply BuildProofs3.stored_mono; [|exact SV]. intros q x H. eapply BuildProofs5.window_sub; eauto. }
  assert (RP : pos + 4 <= reach v) by (eapply reach_pos; eauto).
  assert (EV : exists fs0, v = Tab en pos fs0 /\ zlen fs0 = zlen tys').
  { inversion SV as [? ? so1 es1 l1 tys1 fs1 Hs1 T1 Hso1 SF1]; subst. exists fs1. split; [reflexivity|]. assert (tys1 = tys') by congruence. subst tys1.
    destruct (fields_zlen _ _ _ _ _ _ _ SF1). congruence. }
  destruct EV as (fs0 & EV & LN). pose proof (zlen_nonneg tys') as ZT.
  assert (VP : val_pos v = pos) by (rewrite EV; reflexivity).
  assert (LD : lead v = 4 + 2 * zlen tys') by (rewrite EV; cbn [lead]; rewrite LN; reflexivity).
  unfold len, lo. rewrite VP, LD. split; [exact FF|]. split; [reflexivity|]. split; [lia|]. split; [lia|]. split; [lia|]. split; [exact SV|].
  split; [rewrite Hfe; apply new_node_name|].
  destruct (table_node n s HD en tys' (Some (pos, fz)) no_vinfo HS') as (_ & _ & ML' & _). rewrite <- Hfe in ML'. split; [rewrite ML'; lia|].
  destruct (measured_info n eb s FF HD en pos v fz SV' MV) as [k2 Hk2]. exists k2. intros fuel Hfu. unfold elem_size.
  assert (CN : c_node e = Some (pos, fz)) by (rewrite Hfe, new_node_node; reflexivity). rewrite CN.
  destruct (fz <=? 0) eqn:X; [|f_equal; f_equal; lia]. rewrite Hfe, (Hk2 fuel Hfu). reflexivity.
Qed.

Lemma table_elem_replaced : forall b m name p v z tn tp fs tys idx en q vs j old eb e m0 v0, in_memory b -> shows b m ->
  stored_table m s name p v -> intact b m v ->
  only_table v (Tab tn tp fs) -> s tn = Some tys -> zget tys idx = Some (TyTables en) -> types_no_union tys idx ->
  zget fs idx = Some (Tabs en q vs) -> measured (Tabs en q vs) -> zget vs j = Some old ->
  BuildSpec.lone_table n s eb e en m0 v0 -> reach v0 - val_pos v0 <= reach old - val_pos old ->
  let d := val_pos old - val_pos v0 in let dst := val_pos old - lead v0 in let len := reach v0 - val_pos v0 + lead v0 in
  let new := Tabs en q (set_nth j (carried d v0) vs) in
  measured new -> 0 <= dst ->
  elem_apart m v tp idx en q vs j (q - 4) 4 -> elem_apart m v tp idx en q vs j dst len -> disjoint (q - 4) 4 dst len ->
  forall x, zlen x = len -> bytes_at m0 (val_pos v0 - lead v0) x -> let m' := img_write m dst x in
  exists f b' c' k, field_at n b (new_node n (Some (tp, z)) no_vinfo tn) idx = Ok f /\
    (forall fuel, (k <= fuel)%nat -> set_elem n fuel b f j eb e = Ok (Put_ok b' c')) /\
    c_node c' = c_node f /\ c_name c' = c_name f /\ c_info c' = mkV q (reach new - q) (zlen vs) /\
    in_memory b' /\ shows b' m' /\
    stored_table m' s name p (fill tp idx new v) /\ intact b' m' (fill tp idx new v) /\
    same_value m' m0 (carried d v0) v0 /\
    same_value m m' (fill tp idx (Absent (TyTables en)) v) (fill tp idx (Absent (TyTables en)) v) /\
    (forall i u, zget vs i = Some u -> i <> j -> same_value m m' u u) /\
    held b' dst len /\ forall a l, 1 <= l -> held b a l -> disjoint a l (q - 4) 4 -> disjoint a l dst len -> held b' a l.
Proof.
  intros b m name p v z tn tp fs tys idx en q vs j old eb e m0 v0 HB HM H HI OT HS Ht HNU Hw HMe Hold Hg HFit d dst len new HMn D0 AQ AD DQ x ZX BX m'.
  pose proof (zget_some_range _ _ _ Ht) as RI. pose proof OT as [OT1 OT2]. pose proof (zget_some_range _ _ _ Hold) as RJ.
  destruct (proj1 (tables_stored m s v) name p H _ OT1) as (nm & q0 & gs & E & HT). injection E as <- <- <-.
  assert (INV : exists so es l, table_at m tp so es l /\ 0 <= so /\ stored_fields m s tp None tys es fs).
  { inversion HT as [? ? so es l tys' ? Hs' T Hso SF]; subst. rewrite HS in Hs'. injection Hs' as <-. exists so, es, l. auto. }
  destruct INV as (so & es & l & T & Hso & SF).
  destruct (fields_of m s tp None tys es fs SF) as (L1 & L2 & N). destruct (N idx _ Hw) as (t' & e0 & pv & N1 & N2 & N3 & _).
  assert (t' = TyTables en) by congruence. subst t'.
  assert (UN : forall nm gs, In (Tab nm tp gs) (tables v) -> nm = tn /\ gs = fs).
  { intros nm gs HG. specialize (OT2 _ HG eq_refl). split; congruence. }
  destruct (table_node n s HD tn tys (Some (tp, z)) no_vinfo HS) as (SN & _ & ML & TN).
  destruct (TN idx _ Ht) as (typ & g & G1 & G2 & G3 & G4). cbn [field_described] in G3. destruct G3 as (_ & TY & TD).
  assert (INV : 4 <= e0 /\ vector_from m (tp + e0) q (zlen vs) /\ stored_elems m s q en vs).
  { clear - N3. inversion N3; subst; auto. }
  destruct INV as (W2 & W3 & SE). pose proof W3 as [W3a W3b].
  pose proof (ta_vpos _ _ _ _ _ T) as TV.
  assert (Q4 : 4 <= q) by (destruct W3a; lia).
  assert (ES' : slot_of m tp idx = tp + e0).
  { unfold slot_of. rewrite (table_vtable m tp so es l T Hso). rewrite (num_holds m 2 _ e0 (ta_entry _ _ _ _ _ T idx e0 N2)). reflexivity. }
  destruct (lone_given eb e en m0 v0 Hg) as (FE & Em & Hlo & Hlen & Hle & SV & NM & VS & k2 & Hk2).
  set (lo := val_pos v0 - lead v0) in *. fold len in Hlen, Hle.
  (* the two writes *)
  destruct (rewritten b m (q - 4) (zlen vs) HB HM ltac:(lia) W3b) as (b1 & U1 & U2 & U3 & U4 & U5).
  { unfold u32. apply Z.mod_small. destruct W3b as [W _]. cbn in W. lia. }
  assert (EX : x = zfirst len (zskip lo (sl_data (b_bytes eb)))).
  { apply zget_ext. intros i. rewrite zget_zfirst. destruct (Z_lt_ge_dec i 0) as [|I1]; [rewrite !zget_neg by lia; destruct (i <? len); reflexivity|].
    destruct (i <? len) eqn:I2; [|rewrite zget_ge by lia; reflexivity]. rewrite zget_zskip by lia. rewrite <- (BX i ltac:(lia)). fold lo. rewrite Em. unfold img_bytes. replace (lo + i <? 0) with false by lia. replace (i <? 0) with false by lia. reflexivity. }
  assert (DV : delivers eb lo x).
  { apply AddProofs7.flat_delivers; auto; try lia; [unfold gs_len; lia|rewrite ZX; exact EX]. }
  destruct (copied_to b1 m eb lo x dst U2 U3 DV ltac:(lia) D0) as (b' & CP & MB' & SH & HH & KEEP). rewrite ZX in CP, HH, KEEP. fold m' in SH.
  assert (OUT : forall i, i < dst \/ dst + len <= i -> m' i = m i).
  { intros i Hi. unfold m', img_write. rewrite ZX. replace ((dst <=? i) && (i <? dst + len)) with false by lia. reflexivity. }
  assert (INS : forall i, 0 <= i < len -> m' (dst + i) = m0 (lo + i)).
  { intros i Hi. unfold m', img_write. rewrite ZX. replace ((dst <=? dst + i) && (dst + i <? dst + len)) with true by lia.
    replace (dst + i - dst) with i by lia. rewrite EX. rewrite zget_zfirst, zget_zskip by lia. replace (i <? len) with true by lia. rewrite Em. unfold img_bytes. replace (i <? 0) with false by lia. reflexivity. }
  clearbody m'.
  assert (HELD : forall a k, 1 <= k -> held b a k -> disjoint a k (q - 4) 4 -> disjoint a k dst len -> held b' a k) by (intros; apply KEEP; auto).
  assert (HQ : held b' (q - 4) 4) by (apply KEEP; auto).
  destruct AQ as [AQ1 AQ2]. destruct AD as [AD1 AD2].
  (* everything else *)
  assert (SAMEP : forall u, (forall a k, In (a, k) (parts m u) -> disjoint a k dst len) -> forall a k, In (a, k) (parts m u) -> forall i, 0 <= i < k -> m' (a + i) = m (a + i)).
  { intros u HU a k Hak i Hi. apply OUT. specialize (HU a k Hak). unfold disjoint in HU. lia. }
  set (cl := fill tp idx (Absent (TyTables en)) v) in *.
  assert (CP1 : forall a k, In (a, k) (parts m cl) -> disjoint a k (q - 4) 4 /\ disjoint a k dst len).
  { intros a k Hak. split; [apply AQ1|apply AD1]; apply in_or_app; left; exact Hak. }
  assert (CL1 : forall a u, In (a, u) (links m cl) -> disjoint a 4 (q - 4) 4 /\ disjoint a 4 dst len).
  { intros a u Hau. split; [apply (AQ2 a u)|apply (AD2 a u)]; right; apply in_or_app; left; exact Hau. }
  assert (STC : same_tables m m' cl) by (apply parts_same_tables, SAMEP; intros a k Hak; apply CP1, Hak).
  set (ws := set_nth j (Absent (TyTable en)) vs) in *.
  assert (WS : forall i u, zget vs i = Some u -> i <> j -> zget ws i = Some u).
  { intros i u Hi NE. unfold ws. rewrite zget_set_nth by lia. replace (i =? j) with false by lia. exact Hi. }
  assert (EP1 : forall i u, zget vs i = Some u -> i <> j -> forall a k, In (a, k) (parts m u) -> disjoint a k (q - 4) 4 /\ disjoint a k dst len).
  { intros i u Hi NE a k Hak. assert (IN : In (a, k) (flat_map (parts m) ws)) by (apply in_flat_map; exists u; split; [eapply zget_in; eauto|exact Hak]).
    split; [apply AQ1|apply AD1]; apply in_or_app; right; exact IN. }
  assert (EL1 : forall i u, zget vs i = Some u -> i <> j -> forall a k, In (a, k) (links m u) -> disjoint a 4 (q - 4) 4 /\ disjoint a 4 dst len).
  { intros i u Hi NE a k Hak. assert (IN : In (a, k) (links m (without en q vs j))) by (unfold without; rewrite links_tabs; eapply in_concat_numbered; [apply (WS i u Hi NE)|right; exact Hak]).
    split; [apply (AQ2 a k)|apply (AD2 a k)]; right; apply in_or_app; right; exact IN. }
  assert (SL1 : forall i, 0 <= i < zlen vs -> disjoint (q + 4 * i) 4 (q - 4) 4 /\ disjoint (q + 4 * i) 4 dst len).
  { intros i Hi. assert (ZW : zlen ws = zlen vs) by apply zlen_set_nth. destruct (zget_some ws i ltac:(lia)) as (u & Hu).
    assert (IN : In (q + 4 * i, val_pos u) (links m (without en q vs j))) by (unfold without; rewrite links_tabs; eapply in_concat_numbered; [exact Hu|left; reflexivity]).
    split; [apply (AQ2 _ (val_pos u))|apply (AD2 _ (val_pos u))]; right; apply in_or_app; right; exact IN. }
  assert (SLT : disjoint (tp + e0) 4 (q - 4) 4 /\ disjoint (tp + e0) 4 dst len).
  { split; [apply (AQ2 _ (q - 4))|apply (AD2 _ (q - 4))]; left; rewrite ES'; reflexivity. }
  (* the new element *)
  assert (HW1 : forall a y, BuildSpec.window m0 lo (reach v0) a = Some y -> 0 <= a + d /\ BuildSpec.window m' dst (dst + len) (a + d) = Some y).
  { intros a y Hq. apply BuildProofs3.window_some in Hq. destruct Hq as [Q1 Q2]. split; [unfold d, dst, lo in *; lia|].
    unfold BuildSpec.window. replace ((dst <=? a + d) && (a + d <? dst + len)) with true by (unfold d, dst, lo, len in *; lia).
    replace (a + d) with (dst + (a - lo)) by (unfold d, dst, lo; lia). rewrite INS by (unfold len, lo in *; lia). replace (lo + (a - lo)) with a by lia. exact Q2. }
  assert (HW2 : forall a y, BuildSpec.window m0 lo (reach v0) a = Some y -> 0 <= a + d /\ m' (a + d) = Some y).
  { intros a y Hq. destruct (HW1 a y Hq) as [Q1 Q2]. split; [exact Q1|]. apply BuildProofs3.window_some in Q2. apply Q2. }
  assert (HW0 : forall a y, BuildSpec.window m0 lo (reach v0) a = Some y -> m0 a = Some y).
  { intros a y Hq. apply BuildProofs3.window_some in Hq. apply Hq. }
  destruct (proj1 (BuildProofs3.stored_shift _ _ m0 s d HW1 HW0) en (val_pos v0) v0 SV) as (NW1 & _).
  destruct (proj1 (BuildProofs3.stored_shift _ m' m0 s d HW2 HW0) en (val_pos v0) v0 SV) as (NW2 & SVN).
  rewrite <- carried_shift in NW1, NW2, SVN. replace (val_pos v0 + d) with (val_pos old) in NW1, NW2 by (unfold d; lia).
  assert (VPN : val_pos (carried d v0) = val_pos old) by (clear - NW2; inversion NW2; reflexivity).
  destruct (frame_window m' s dst (dst + len) (carried d v0) (or_introl (ex_intro _ _ (ex_intro _ _ NW1)))) as [FW1 FW2].
  (* the elements *)
  set (us := set_nth j (carried d v0) vs) in *.
  assert (ZU : zlen us = zlen vs) by apply zlen_set_nth.
  assert (US : forall i u, zget us i = Some u -> 0 <= i < zlen vs /\ ((i = j /\ u = carried d v0) \/ (i <> j /\ zget vs i = Some u))).
  { intros i u Hi. pose proof (zget_some_range _ _ _ Hi). split; [lia|]. unfold us in Hi. rewrite zget_set_nth in Hi by lia. destruct (Z.eqb_spec i j) as [->|NE].
    - left. replace (j <? zlen vs) with true in Hi by lia. split; congruence.
    - right. auto. }
  assert (PTS : forall i u, zget vs i = Some u -> points_to m' (q + 4 * i) (val_pos u)).
  { intros i u Hi. pose proof (zget_some_range _ _ _ Hi) as R. destruct (elems_at m s q en vs SE i u Hi) as [[P1 P2] _]. split; [exact P1|]. eapply holds_uint_ext; [|exact P2].
    intros a Ha. apply OUT. destruct (SL1 i R) as [_ DS]. unfold disjoint in DS. lia. }
  assert (OTHER : forall i u, zget vs i = Some u -> i <> j -> stored_table m' s en (val_pos u) u /\ same_value m m' u u /\ same_tables m m' u).
  { intros i u Hi NE. pose proof (EP1 i u Hi NE) as EP. pose proof (EL1 i u Hi NE) as EL.
    destruct (stored_same m m' s en (val_pos u) u) as [S1 S2]; [| |apply (elems_at m s q en vs SE i u Hi)|].
    - apply SAMEP. intros a k Hak. apply EP, Hak.
    - intros a t Hat i0 Hi0. apply OUT. destruct (EL a t Hat) as [_ DS]. unfold disjoint in DS. lia.
    - split; [exact S1|]. split; [exact S2|]. apply parts_same_tables, SAMEP. intros a k Hak. apply EP, Hak. }
  assert (SE' : stored_elems m' s q en us).
  { apply elems_from. intros i u Hi. destruct (US i u Hi) as [R [[-> ->]|[NE Hu]]].
    - rewrite VPN. split; [apply PTS; exact Hold|exact NW2].
    - split; [apply PTS; exact Hu|]. apply (OTHER i u Hu NE). }
  (* the journal *)
  assert (SI : intact b m (Tab tn tp fs)) by exact (intact_inside b m v _ HI OT1).
  assert (IW : intact b m (Tabs en q vs)) by exact (fine_field b m _ _ _ _ _ SI Hw).
  assert (FINE : forall i u, zget us i = Some u -> intact b' m' u /\ held b' (q + 4 * i) 4).
  { intros i u Hi. destruct (US i u Hi) as [R HU]. split.
    - destruct HU as [[-> ->]|[NE Hu]].
      + split; intros a k Hak; [destruct (FW1 a k Hak)|destruct (FW2 a k Hak)]; apply (held_sub b' dst len); try exact HH; try lia.
        destruct (frame_in_parts m' s (carried d v0) (or_introl (ex_intro _ _ (ex_intro _ _ NW2))) a k Hak) as (? & ? & ? & ? & ? & ?). lia.
      + destruct (OTHER i u Hu NE) as (_ & _ & ST). destruct (fine_elem b m _ _ _ _ _ IW Hu) as [[F1 F2] _].
        split; [rewrite (same_frame m m' u ST)|rewrite (same_links m m' u ST)]; intros a k Hak.
        * destruct (frame_in_parts m s u (or_introl (ex_intro _ _ (ex_intro _ _ (proj2 (elems_at m s q en vs SE i u Hu))))) a k Hak) as (c0 & k0 & C1 & C2 & C3 & C4).
          destruct (EP1 i u Hu NE c0 k0 C1) as [D1 D2]. unfold disjoint in D1, D2. apply HELD; auto; unfold disjoint; lia.
        * destruct (EL1 i u Hu NE a k Hak). apply HELD; auto; [lia|]. apply (F2 a k Hak).
    - destruct (zget_some vs i R) as (u' & Hu'). destruct (fine_elem b m _ _ _ _ _ IW Hu') as [_ F]. destruct (SL1 i R). apply HELD; auto. lia. }
  assert (ST' : slot_of m' tp idx = tp + e0).
  { destruct (own_parts m tp idx (TyTables en) ltac:(lia) v tn fs UN OT1) as (P1 & P2). fold cl in P1, P2. destruct (CP1 _ _ P1) as [_ D1]. destruct (CP1 _ _ P2) as [_ D2].
    pose proof (zget_some_range _ _ _ Hw) as RW. unfold disjoint in D1, D2. rewrite <- ES'.
    assert (EV : vtable_of m' tp = vtable_of m tp) by (unfold vtable_of; f_equal; apply num_ext; intros i Hi; apply OUT; lia).
    unfold slot_of. rewrite EV. f_equal. apply num_ext. intros i Hi. apply OUT. lia. }
  assert (HSL : held b' (tp + e0) 4).
  { destruct SLT. apply HELD; auto; [lia|]. apply (proj2 SI _ (q - 4)). rewrite links_tab. eapply in_concat_numbered; [exact Hw|]. rewrite ES'. left. reflexivity. }
  assert (INTACT : intact b' m' (fill tp idx new v)).
  { split.
    - intros a k Hak. destruct (frame_fill m' tp idx (TyTables en) new ltac:(lia) v a k Hak) as [F|F].
      + unfold new in F. cbn [frame] in F. destruct F as [F|F]; [injection F as <- <-; exact HQ|]. apply in_flat_map in F. destruct F as (u & F1 & F2).
        apply zget_of_in in F1. destruct F1 as (i & F1). destruct (FINE i u F1) as [[F3 _] _]. apply F3, F2.
      + fold cl in F. rewrite (same_frame m m' cl STC) in F.
        destruct (frame_clear_parts m s tp idx (TyTables en) ltac:(lia) v (or_introl (ex_intro _ _ (ex_intro _ _ H))) a k F) as (c0 & k0 & C1 & C2 & C3 & C4).
        destruct (CP1 c0 k0 C1) as [D1 D2]. unfold disjoint in D1, D2. apply HELD; try (unfold disjoint; lia). apply (proj1 HI). eapply frame_clear; [|exact F]. lia.
    - intros a u Hau. destruct (links_fill m' tp idx (TyTables en) new ltac:(lia) v a u Hau) as [F|[F| ->]].
      + unfold new in F. rewrite links_tabs in F. apply concat_numbered_in in F. destruct F as (i & g' & F1 & F2). destruct (FINE i g' F1) as [[_ F4] F5].
        destruct F2 as [F2|F2]; [|apply (F4 a u F2)]. pose proof (f_equal fst F2) as Ea. cbn [fst] in Ea. subst a. exact F5.
      + fold cl in F. rewrite (same_links m m' cl STC) in F. destruct (CL1 a u F). apply HELD; auto; [lia|]. apply (proj2 HI a u). eapply clear_links; [|exact F]. lia.
      + rewrite ST'. exact HSL. }
  assert (W3' : vector_from m' (tp + e0) q (zlen us)).
  { rewrite ZU. destruct SLT as [_ DS]. unfold disjoint in DS, DQ. split; [split; [apply W3a|]|].
    - eapply holds_uint_ext; [|apply W3a]. intros i Hi. apply OUT. lia.
    - eapply holds_uint_ext; [|exact W3b]. intros i Hi. apply OUT. lia. }
  destruct (in_place m s name p v tn tp fs tys idx (TyTables en) so es l e0 new m' dst len H OT HS Ht HNU T Hso N2) as [ST1 SC]; auto.
  { intros a k Hak. apply CP1, Hak. }
  { intros a u Hau. apply (CL1 a u), Hau. }
  { intros pv'. constructor; auto. }
  (* the node *)
  pose proof (proj1 (stored_seen b m s HB HM) tn tp _ HT SI) as SEE.
  assert (INV : exists so2 es2 l2, seen_at b tp so2 es2 l2 /\ 0 <= so2 /\ seen_fields b s tp None tys es2 fs).
  { clear - SEE HS. inversion SEE as [? ? so2 es2 l2 tys2 ? Hs2 T2 Hso2 SF2]; subst. rewrite HS in Hs2. injection Hs2 as <-. exists so2, es2, l2. auto. }
  destruct INV as (so2 & es2 & l2 & T2 & Hso2 & SF2).
  destruct (fields_nth_j b s tp None tys es2 fs SF2) as (_ & _ & N'). destruct (N' idx _ Hw) as (t2 & e2 & pv2 & M1 & M2 & M3 & _).
  pose proof (field_at_stored_j n b s HD tn tp z so2 es2 l2 tys idx t2 e2 pv2 _ HS T2 Hso2 M1 M2 M3) as FA.
  unfold WalkProofs.tnode_at in FA. rewrite G2, TY in FA. cbn [field_node] in FA.
  assert (E2 : t2 = TyTables en) by congruence. subst t2.
  assert (SEN : seen_elems b s q en vs) by (clear - M3; inversion M3; subst; auto).
  assert (R : reads b (q - 4) 4 (zlen vs)).
  { apply (holds_reads b m HB HM); [lia|lia|exact W3b|]. apply (proj1 IW). left. reflexivity. }
  assert (R' : reads b' (q - 4) 4 (zlen us)).
  { apply (holds_reads b' m' MB' SH); [lia|lia|apply W3'|exact HQ]. }
  assert (SEN' : seen_elems b' s q en us).
  { apply (stored_seen b' m' s MB' SH); [exact SE'|lia|exact FINE]. }
  assert (MT : forall l, measured (Tabs en q l) -> (forall e, In e l -> reach e <= reach (last l (Absent (TyTable en)))) /\ Forall measured l).
  { clear. intros l H. inversion H; subst. auto. }
  destruct (MT _ HMe) as [ML1 ML2]. destruct (MT _ HMn) as [MN1 MN2].
  destruct (proj2 (proj2 (proj2 (info_stored_j n b s HD))) q en vs SEN ML2) as [k1 Hk1].
  destruct (proj2 (proj2 (proj2 (info_stored_j n b' s HD))) q en us SEN' MN2) as [k3 Hk3].
  set (f := new_node n (Some (tp, -1)) (mkV q 0 (zlen vs)) ("[]" ++ en)%string) in *.
  exists f, b', (new_node n (Some (tp, -1)) (mkV q (reach new - q) (zlen vs)) ("[]" ++ en)%string), (S (k1 + k2 + k3)).
  split; [exact FA|]. split; [|unfold f; rewrite !new_node_node, !new_node_name, !new_node_info; split; [reflexivity|split; [reflexivity|split; [reflexivity|]]]].
  - intros fuel Hfu.
    assert (SL : forall z1, info_slice n b (node_info n b fuel) (new_node n (Some (tp, -1)) (mkV q z1 (zlen vs)) ("[]" ++ en)%string) = Ok (mkV q (reach (Tabs en q vs) - q) (zlen vs))).
    { intros z1. apply (slice_tables_j n b s); auto; [destruct fuel as [|fu]; [lia|]; apply node_info_good|]. cbn [sub_ok]. split; [|exact ML1]. apply Hk1. lia. }
    assert (SL' : forall z1, info_slice n b' (node_info n b' fuel) (new_node n (Some (tp, -1)) (mkV q z1 (zlen vs)) ("[]" ++ en)%string) = Ok (mkV q (reach new - q) (zlen vs))).
    { intros z1. rewrite <- ZU. apply (slice_tables_j n b' s); auto; [destruct fuel as [|fu]; [lia|]; apply node_info_good|]. cbn [sub_ok]. split; [|exact MN1]. apply Hk3. lia. }
    destruct TD as (TD1 & g' & GG & GS). pose proof (says_tests _ _ GS) as (T1 & T3 & T4 & T5 & T6 & T7). cbn in T1, T3, T4, T5, T6, T7.
    unfold set_elem. unfold f at 1. rewrite new_node_info. cbn [v_len]. replace (zlen vs <? j) with false by lia. rewrite NM, GG. cbn [bind]. rewrite T1, T3, T4, T7. cbn [orb].
    unfold set_table_elem, vlen_total. unfold f at 1 2 3 4. rewrite new_node_info. cbn [v_pos v_len v_size]. replace (q =? 0) with false by lia. replace (zlen vs =? 0) with false by lia. cbn [orb Z.eqb].
    unfold f. rewrite (SL 0). cbn [bind v_len]. replace (zlen vs =? 0) with false by lia. rewrite with_new, new_node_info. cbn [v_len v_size v_pos].
    replace (j <? zlen vs) with true by lia. rewrite (vec_at_table_j n b s (tp, -1) q _ en vs j old); auto; [|split; [exact TD1|exists g'; auto]].
    cbn [bind]. rewrite (Hk1 fuel ltac:(lia) old ltac:(eapply zget_in; eauto) (-1)). cbn [bind v_size].
    assert (NP : node_pos (WalkProofs.tnode_at n en (val_pos old) (-1)) = Ok (val_pos old)) by (unfold node_pos, WalkProofs.tnode_at; rewrite new_node_node; reflexivity).
    rewrite NP. cbn [bind]. rewrite (Hk2 fuel ltac:(lia)). cbn [bind fst snd].
    replace (zlen vs =? j) with false by lia. replace (Z.max 0 (reach v0 - val_pos v0 - (reach old - val_pos old))) with 0 by lia. cbn [bind Z.ltb Z.compare].
    rewrite new_node_info. cbn [v_pos]. rewrite U1. cbn [bind]. rewrite VS. fold lo. fold len. fold dst. rewrite CP. cbn [bind]. unfold refreshed. rewrite SL'. cbn [bind]. rewrite with_new. reflexivity.
  - split; [exact MB'|]. split; [exact SH|]. split; [exact ST1|]. split; [exact INTACT|]. split; [exact SVN|]. split; [exact SC|].
    split; [intros i u Hi NE; apply (OTHER i u Hi NE)|]. split; [exact HH|exact HELD].
Qed.

Lemma elem_refused : forall b m fuel name p z fs idx w k j eb e, in_memory b -> shows b m ->
  stored_table m s name p (Tab name p fs) -> intact b m (Tab name p fs) -> zget fs idx = Some w ->
  vector_length w = Some k -> k < j ->
  exists f, field_at n b (new_node n (Some (p, z)) no_vinfo name) idx = Ok f /\ set_elem n fuel b f j eb e = Ok Put_error.
Proof.
  intros b m fuel name p z fs idx w k j eb e HB HM H HI Hw HV Hj.
  destruct (jour_field n b m s HD HB HM name p fs idx w z H HI Hw) as (f & E & SF). exists f. split; [exact E|].
  unfold set_elem. replace (v_len (c_info f) <? j) with true; [reflexivity|]. symmetry. apply Z.ltb_lt.
  destruct w; try discriminate; injection HV as <-; cbn [stands_for] in SF; [destruct SF as (_ & SF & _)|destruct SF as (_ & SF)|destruct SF as (_ & SF)]; lia.
Qed.
End Elem.
