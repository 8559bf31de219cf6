(** The tables in a value, and fields set in place. *)
From Coq Require Import ZArith List Bool Lia String.
From Coq Require Import Strings.Byte.
From Verif Require Import GoLib BaseModel GoLemmas BaseSpec BaseProofs TableModel TableSpec TableProofs TableProofs2 NameModel NameSpec.
From Verif Require Import WalkModel WalkSpec WalkProofs WalkProofs2 WalkProofs3 WalkProofs4 WalkProofs5 EqualSpec ListProofs2.
From Verif Require Import BuildModel BuildProofs6 InsModel InsSpec InsProofs InsProofs2 InsProofs4 InsProofs5 InsProofs7 InsProofs11.
From Verif Require Import PutModel PutSpec PutProofs.
From Verif Require BuildSpec.
Import ListNotations.
Open Scope list_scope.
Open Scope Z_scope.

Lemma field_tables : forall m s p prev t e v, stored_field m s p prev t e v -> forall w, In w (tables v) ->
  (exists nm q, stored_table m s nm q v) \/ (exists tn q vs, v = Tabs tn q vs /\ stored_elems m s q tn vs).
Proof.
  intros m s p prev t e v H w Hw. destruct H; cbn [tables] in Hw; try (destruct Hw; fail); eauto. right. eauto.
Qed.

Lemma tables_stored : forall m s v, (forall name p, stored_table m s name p v -> forall w, In w (tables v) -> exists nm q fs, w = Tab nm q fs /\ stored_table m s nm q w) /\
    (forall tn q vs, v = Tabs tn q vs -> stored_elems m s q tn vs -> forall w, In w (tables v) -> exists nm q fs, w = Tab nm q fs /\ stored_table m s nm q w).
Proof.
  intros m s v. induction v as [ty|q w|q ms|q k w|q k ms|nm p fs go|nm p vs go] using val_deep; split; intros; try (discriminate); try (match goal with H : In _ (tables _) |- _ => destruct H; fail end).
  - match goal with H : stored_table _ _ _ _ _, W : In _ (tables _) |- _ => rename H into HT; rename W into HW end.
    assert (INV : nm = name /\ p = p0 /\ exists so1 es1 l1 tys1, s name = Some tys1 /\ table_at m p so1 es1 l1 /\ 0 <= so1 /\ stored_fields m s p None tys1 es1 fs)
      by (inversion HT; subst; repeat split; do 4 eexists; eauto).
    destruct INV as (-> & <- & so1 & es1 & l1 & tys1 & Hs & T & Hso & SF).
    cbn [tables] in HW. destruct HW as [<-|HW]; [exists name, p, fs; auto|].
    apply in_flat_map in HW. destruct HW as (f & F1 & F2). pose proof F1 as FI. apply zget_of_in in FI. destruct FI as (i & FI).
    destruct (fields_of m s p None tys1 es1 fs SF) as (_ & _ & N). destruct (N i f FI) as (t & e & pv & _ & _ & Hfi & _).
    destruct (go f F1) as [G1 G2]. destruct (field_tables _ _ _ _ _ _ _ Hfi w F2) as [(nm & q & K)|(tn & q & vs & K1 & K2)]; eauto.
  - exfalso. match goal with H : stored_table _ _ _ _ (Tabs _ _ _) |- _ => inversion H end.
  - match goal with H : stored_elems _ _ _ _ _, W : In _ (tables _), E : Tabs _ _ _ = _ |- _ => rename H into HT; rename W into HW; injection E as <- <- <- end.
    cbn [tables] in HW. apply in_flat_map in HW. destruct HW as (f & F1 & F2). pose proof F1 as FI. apply zget_of_in in FI. destruct FI as (i & FI).
    destruct (elems_of m s p nm vs HT i f FI) as (t & _ & K). destruct (go f F1) as [G1 G2]. eauto.
Qed.

Lemma moved_zero : forall pos v, moved pos 0 v = v.
Proof.
  assert (S : forall pos p, shift pos 0 p = p) by (intros; unfold shift; destruct (p <? pos); lia).
  intros pos v. induction v as [ty|q w|q ms|q k w|q k ms|nm p fs go|nm p vs go] using val_deep; cbn [moved]; rewrite ?S; try reflexivity.
  - f_equal. lia.
  - f_equal. lia.
  - f_equal. rewrite <- (map_id fs) at 2. apply map_ext_in. exact go.
  - f_equal; [lia|]. rewrite <- (map_id vs) at 2. apply map_ext_in. exact go.
Qed.

Lemma besides_parts : forall m tp v, incl (besides m tp v) (parts m v).
Proof.
  intros m tp v. induction v as [ty|q w|q ms|q k w|q k ms|nm p fs go|nm p vs go] using val_deep; cbn [besides parts]; try apply incl_refl; intros a Ha.
  - destruct Ha as [Ha|Ha]; [left; exact Ha|]. right. apply in_app_or in Ha. destruct Ha as [Ha|Ha].
    + destruct (p =? tp); [destruct Ha|]. destruct Ha as [Ha|[]]. left. exact Ha.
    + right. apply in_flat_map in Ha. destruct Ha as (f & F1 & F2). apply in_flat_map. exists f. split; [exact F1|]. apply go; assumption.
  - destruct Ha as [Ha|Ha]; [left; exact Ha|]. right. apply in_flat_map in Ha. destruct Ha as (f & F1 & F2). apply in_flat_map. exists f. split; [exact F1|]. apply go; assumption.
Qed.

(** Clearing a field without tables or references. *)
Section Cleared.
Variable m : image.
Variables tp idx : Z.
Hypothesis HI : 0 <= idx.
Variable t : ty.
Local Notation clear := (fill tp idx (Absent t)).

Lemma cleared_field : forall nm p fs i f', zget (match clear (Tab nm p fs) with Tab _ _ gs => gs | _ => [] end) i = Some f' ->
  f' = Absent t \/ exists f, zget fs i = Some f /\ f' = clear f.
Proof.
  intros nm p fs i f' H. cbn [fill] in H. destruct (p =? tp).
  - rewrite zget_set_nth in H by exact HI. destruct (i =? idx).
    + destruct (_ <? _); [|discriminate]. left. congruence.
    + rewrite zget_map in H. destruct (zget fs i) as [f|]; [|discriminate]. right. exists f. split; [reflexivity|]. cbn in H. congruence.
  - rewrite zget_map in H. destruct (zget fs i) as [f|]; [|discriminate]. right. exists f. split; [reflexivity|]. cbn in H. congruence.
Qed.

Lemma clear_links : forall v, incl (links m (clear v)) (links m v).
Proof.
  intros v. induction v as [ty|q w|q ms|q k w|q k ms|nm p fs go|nm p vs go] using val_deep; try apply incl_refl; intros a Ha.
  - change (clear (Tab nm p fs)) with (Tab nm p (match clear (Tab nm p fs) with Tab _ _ gs => gs | _ => [] end)) in Ha.
    rewrite links_tab in Ha |- *. apply concat_numbered_in in Ha. destruct Ha as (i & f' & Hi & Ha). destruct (cleared_field nm p fs i f' Hi) as [->|(f & Hf & ->)]; [destruct Ha|].
    eapply in_concat_numbered; [exact Hf|]. rewrite fill_start in Ha. apply in_app_or in Ha. apply in_or_app. destruct Ha as [Ha|Ha]; [left; exact Ha|right].
    apply go; [eapply zget_in; exact Hf|exact Ha].
  - cbn [fill] in Ha. rewrite links_tabs in Ha |- *. apply concat_numbered_in in Ha. destruct Ha as (i & f' & Hi & Ha).
    rewrite zget_map in Hi. destruct (zget vs i) as [f|] eqn:Hf; [|discriminate]. cbn in Hi. injection Hi as <-.
    eapply in_concat_numbered; [exact Hf|]. rewrite fill_pos in Ha. destruct Ha as [Ha|Ha]; [left; exact Ha|right].
    apply go; [eapply zget_in; exact Hf|exact Ha].
Qed.

Lemma clear_tables : forall v, (forall nm gs, In (Tab nm tp gs) (tables v) -> exists w, zget gs idx = Some w /\ tables w = []) ->
  forall nm q fs, In (Tab nm q fs) (tables v) -> In (q, 4) (parts m (clear v)) /\ In (vtable_of m q, 4 + 2 * zlen fs) (parts m (clear v)).
Proof.
  intros v. induction v as [ty|q0 w|q0 ms|q0 k w|q0 k ms|nm0 p fs0 go|nm0 p vs go] using val_deep; intros HU nm q fs Hin; try (destruct Hin; fail); cbn [tables] in Hin.
  - destruct Hin as [E|Hin].
    + injection E as -> -> ->. cbn [fill parts]. split; [left; reflexivity|right; left]. do 2 f_equal. destruct (q =? tp); rewrite ?zlen_set_nth, zlen_map; reflexivity.
    + apply in_flat_map in Hin. destruct Hin as (f & F1 & F2). pose proof F1 as FI. apply zget_of_in in FI. destruct FI as (i & FI).
      destruct (go f F1) with (nm := nm) (q := q) (fs := fs) as [G1 G2]; auto.
      { intros nm' gs' H'. apply (HU nm' gs'). right. apply in_flat_map. eauto. }
      assert (K : In (clear f) (if p =? tp then set_nth idx (Absent t) (map clear fs0) else map clear fs0)).
      { destruct (Z.eqb_spec p tp) as [->|NE]; [|apply in_map; exact F1]. destruct (HU nm0 fs0) as (w & W1 & W2); [left; reflexivity|].
        destruct (Z.eq_dec i idx) as [->|NI]; [assert (f = w) by congruence; subst w; rewrite W2 in F2; destruct F2|].
        eapply zget_in with (i := i). rewrite zget_set_nth by exact HI. replace (i =? idx) with false by lia. apply zget_map_some. exact FI. }
      cbn [fill parts]. split; right; right; apply in_flat_map; exists (clear f); split; assumption.
  - apply in_flat_map in Hin. destruct Hin as (f & F1 & F2). destruct (go f F1) with (nm := nm) (q := q) (fs := fs) as [G1 G2]; auto.
    { intros nm' gs' H'. apply (HU nm' gs'). apply in_flat_map. eauto. }
    cbn [fill parts]. split; right; apply in_flat_map; exists (clear f); (split; [apply in_map; exact F1|assumption]).
Qed.
End Cleared.

Lemma bounded : forall l : list (Z * Z), exists B, forall a c, In (a, c) l -> a < B /\ c < B.
Proof.
  induction l as [|[a c] l [B HB]]; [exists 0; intros a c []|]. exists (Z.max B (1 + Z.max a c)). intros a' c' [E|H].
  - assert (a = a') by congruence. assert (c = c') by congruence. lia.
  - specialize (HB a' c' H). lia.
Qed.

Section Place.
Variable n : names.
Variable b : base.
Variable s : schema.
Hypothesis HF : flat b.
Hypothesis HD : describes n s.
Local Notation m := (img_bytes (sl_data (b_bytes b))).

(** What the node given tells the code. *)
Lemma inline_given : forall tn tys tp z idx t fb f x, s tn = Some tys -> zget tys idx = Some t -> BuildSpec.gives n s tn idx t fb f (BuildSpec.Bytes x) ->
  let c := new_node n (Some (tp, z)) no_vinfo tn in
  exists fp fz, c_node f = Some (fp, fz) /\ delivers fb fp x /\ map_len (c_groups c) <=? idx = false /\ is_same_type n c idx (c_name f) = true /\
    is_field_slice (group_at c idx) = false /\ is_field_struct (group_at c idx) || is_field_basic (group_at c idx) = true /\
    (forall fuel, (1 <= fuel)%nat ->
       (if is_field_struct (group_at c idx) then do v <- node_info n fb fuel f; Ok (v_size v) else Ok (type_size c idx)) = Ok (zlen x)) /\
    match t with TyScalar t => zlen x = zwidth t | TyStruct _ ms => zlen x = struct_size ms | _ => False end.
Proof.
  intros tn tys tp z idx t fb f x HS Ht Hg c. pose proof (zget_some_range _ _ _ Ht) as R.
  destruct (table_node n s HD tn tys (Some (tp, z)) no_vinfo HS) as (SN & _ & ML & TN).
  destruct (TN idx t Ht) as (typ & g & G1 & G2 & G3 & G4). fold c in SN, ML, G1, G2, G4.
  assert (OUT : map_len (c_groups c) <=? idx = false) by lia.
  assert (ST : typ = c_name f -> is_same_type n c idx (c_name f) = true).
  { intros E. unfold is_same_type. rewrite G2, E, String.eqb_refl. reflexivity. }
  destruct t as [t|sn ms|tn'|us|t|sn ms|tn']; cbn [BuildSpec.gives] in Hg; cbn [field_described] in G3.
  - destruct Hg as (HLb & p & pos & fz & E & CN & LP & DL). injection E as <-.
    destruct G3 as [G3 _]. pose proof (says_tests _ _ G3) as (T1 & T2 & T3 & T4 & T5 & T6).
    assert (W : is_field_struct g = false /\ is_field_slice g = false /\ is_field_basic g = true).
    { rewrite T1, T4, T6. destruct (width_cases t) as [W|[W|[W|W]]]; rewrite W; auto. }
    destruct W as (W1 & W2 & W3). exists pos, fz. rewrite G1, W1, W2, W3. cbn [orb]. repeat (split; [auto; fail|]).
    assert (NM : typ = c_name f).
    { destruct HLb as (l & L1 & L2). rewrite <- G2. unfold field_type_name. unfold c. rewrite new_node_name.
      rewrite (sub_lookup _ _ _ _ L1), L2. reflexivity. }
    repeat (split; [auto; fail|]). split; [|exact LP]. intros fuel Hfu. rewrite (G4 t eq_refl), LP. reflexivity.
  - destruct Hg as (p & pos & fz & E & Hf & LP & DL). injection E as <-. destruct G3 as (G3 & -> & SD).
    pose proof (says_tests _ _ G3) as (T1 & T2 & T3 & T4 & T5 & T6). cbn in T1, T4, T6.
    exists pos, fz. rewrite G1, T1, T4. cbn [orb]. split; [rewrite Hf; apply new_node_node|]. repeat (split; [auto; fail|]).
    split; [apply ST; rewrite Hf, new_node_name; reflexivity|]. split; [reflexivity|]. split; [reflexivity|]. split; [|exact LP].
    intros fuel Hfu. destruct fuel as [|fu]; [lia|]. rewrite Hf. rewrite (proj2 (node_info_good n fb fu) sn ms pos fz SD). cbn [bind v_size]. rewrite LP. reflexivity.
  - destruct Hg as (m0 & v0 & E & _). discriminate.
  - destruct Hg as (tn' & m0 & v0 & _ & E & _). discriminate.
  - destruct Hg as (_ & m0 & v0 & q0 & nd & E & _). discriminate.
  - destruct Hg as (_ & m0 & v0 & q0 & nd & E & _). discriminate.
  - destruct Hg as (_ & m0 & v0 & q0 & nd & E & _). discriminate.
Qed.

Lemma set_nth_same : forall A (x : A) l i, zget l i = Some x -> set_nth i x l = l.
Proof.
  induction l as [|y l IH]; intros i H; [reflexivity|]. cbn [set_nth]. rewrite zget_cons in H. destruct (i =? 0) eqn:E.
  - injection H as <-. rewrite set_nth_neg by lia. reflexivity.
  - rewrite IH by exact H. reflexivity.
Qed.

Lemma put_present : forall fuel name p v tn tp z fs tys idx t w fb f x,
  stored_table m s name p v -> only_table v (Tab tn tp fs) -> s tn = Some tys -> zget tys idx = Some t -> types_no_union tys idx ->
  zget fs idx = Some w -> is_absent w = false -> BuildSpec.gives n s tn idx t fb f (BuildSpec.Bytes x) -> x <> [] ->
  (forall a k, In (a, k) (parts m (fill tp idx (Absent t) v)) -> disjoint a k (val_pos w) (zlen x)) ->
  (forall a u, In (a, u) (links m v) -> disjoint a 4 (val_pos w) (zlen x)) -> (1 <= fuel)%nat ->
  let c := new_node n (Some (tp, z)) no_vinfo tn in
  exists b' m', put_field n fuel b c idx fb f = Ok (Put_ok b' c) /\ shows b' m' /\ bytes_at m' (val_pos w) x /\
    (forall i, i < val_pos w \/ val_pos w + zlen x <= i -> m' i = m i) /\
    stored_table m' s name p v /\ same_value m m' (fill tp idx (Absent t) v) (fill tp idx (Absent t) v).
Proof.
  intros fuel name p v tn tp z fs tys idx t w fb f x H [OT1 OT2] HS Ht HNU Hw Ha Hg Hx DP DL Hfu c.
  pose proof (zget_some_range _ _ _ Ht) as RI.
  destruct (inline_given tn tys tp z idx t fb f x HS Ht Hg) as (fp & fz & CN & DV & G1 & G2 & G3 & G4 & G5 & G6). fold c in G1, G2, G3, G4, G5.
  destruct (proj1 (tables_stored m s v) name p H _ OT1) as (nm & q & gs & E & HT). injection E as <- <- <-.
  assert (INV : exists so es l, table_at m tp so es l /\ 0 <= so /\ stored_fields m s tp None tys es fs).
  { inversion HT as [? ? so es l tys' ? Hs' T Hso SF]; subst. rewrite HS in Hs'. injection Hs' as <-. exists so, es, l. auto. }
  destruct INV as (so & es & l & T & Hso & SF).
  destruct (fields_nth b s tp None tys es fs SF) as (L1 & L2 & N). destruct (N idx w Hw) as (t' & e & pv & N1 & N2 & N3 & _).
  assert (t' = t) by congruence. subst t'.
  assert (FW : val_pos w = tp + e /\ 4 <= e /\ tables w = [] /\ start w = None /\ occupied m (tp + e) (zlen x) /\
    forall m' pv', occupied m' (tp + e) (zlen x) -> stored_field m' s tp pv' t e w).
  { destruct t; try contradiction; inversion N3; subst; cbn [is_absent] in Ha; try discriminate; rewrite G6; repeat (split; [auto; fail|]); intros; constructor; auto. }
  destruct FW as (W1 & W2 & W3 & W4 & W5 & W6). rewrite W1 in *.
  destruct (conforming_access b tp so es l HF T Hso) as (_ & _ & CA). destruct (CA idx e N2) as (C1 & C2 & _).
  assert (ZX : 1 <= zlen x) by (destruct x as [|y x]; [contradiction|]; rewrite zlen_cons; pose proof (zlen_nonneg x); lia).
  pose proof (ta_vpos _ _ _ _ _ T) as TV.
  destruct (copy_any b fb fp x (tp + e) DV ZX ltac:(lia)) as (sl & pre & CP1 & CP2 & CP3). destruct HF as [F1 F2]. rewrite F2, app_nil_r in CP1.
  set (b' := set_diffs b (pre ++ [mkDiff (tp + e) sl])) in *.
  assert (CT : forall i, content b' i = img_write m (tp + e) x i).
  { intros i. unfold content, b'. cbn [set_diffs b_diffs b_bytes].
    assert (ONE : over [mkDiff (tp + e) sl] m i = img_write m (tp + e) x i).
    { rewrite over_one. cbn [d_off]. unfold d_data. cbn [d_sl]. rewrite CP2. reflexivity. }
    destruct CP3 as [->|(D1 & tt & -> & D2)]; [exact ONE|]. cbn [app]. rewrite over_front by (auto; lia). exact ONE. }
  assert (MB' : in_memory b').
  { split; [exact F1|]. unfold b'. cbn [set_diffs b_diffs]. apply Forall_app. split; [|repeat constructor; cbn [d_off]; lia].
    destruct CP3 as [->|(D1 & tt & -> & D2)]; repeat constructor; cbn [d_off]; lia. }
  set (m' := img_write m (tp + e) x).
  assert (OUT : forall i, i < tp + e \/ tp + e + zlen x <= i -> m' i = m i).
  { intros i Hi. unfold m', img_write. replace ((tp + e <=? i) && (i <? tp + e + zlen x)) with false by lia. reflexivity. }
  assert (INS : bytes_at m' (tp + e) x).
  { intros i Hi. unfold m', img_write. replace ((tp + e <=? tp + e + i) && (tp + e + i <? tp + e + zlen x)) with true by lia. f_equal. lia. }
  exists b', m'. split; [|split; [|split; [exact INS|split; [exact OUT|]]]].
  - unfold put_field. rewrite G1, G2. cbn [negb]. unfold c at 1. rewrite new_node_node. rewrite G3, G4. unfold put_inline.
    rewrite (G5 fuel Hfu). cbn [bind]. rewrite CN. rewrite (table_preload b tp so es l (conj F1 F2) T Hso). cbn [bind].
    rewrite C2. cbn [bind]. replace (e =? 0) with false by lia. cbn [negb]. rewrite C1. cbn [bind]. rewrite CP1. reflexivity.
  - intros i Hi. pose proof (shows_content b' MB' i Hi) as SC. rewrite CT in SC. exact SC.
  - assert (UN : forall nm gs, In (Tab nm tp gs) (tables v) -> nm = tn /\ gs = fs).
    { intros nm gs HG. specialize (OT2 _ HG eq_refl). split; congruence. }
    destruct (bounded ((tp, tp) :: ties m (fill tp idx (Absent t) v))) as (B & HB).
    assert (SH : forall y, shift B 0 y = y) by (intros y; unfold shift; destruct (y <? B); lia).
    set (PS := parts m (fill tp idx (Absent t) v)) in *. set (LS := links m v) in *.
    assert (COPY : forall y k, In (y, k) PS -> forall j, 0 <= j < k -> m' (shift B 0 y + j) = m (y + j)).
    { intros y k HI j Hj. rewrite SH. apply OUT. specialize (DP y k HI). unfold disjoint in DP. lia. }
    assert (LINK : forall a u, In (a, u) LS -> a + 4 <= u -> holds_uint m a 4 (u - a) -> holds_uint m' (shift B 0 a) 4 (shift B 0 u - shift B 0 a)).
    { intros a u HI _ HO. rewrite !SH. eapply holds_uint_ext; [|exact HO]. intros j Hj. apply OUT. specialize (DL a u HI). unfold disjoint in DL. lia. }
    destruct (clear_tables m tp idx ltac:(lia) t v) with (nm := tn) (q := tp) (fs := fs) as (P1 & P2).
    { intros nm gs HG. destruct (UN nm gs HG) as [-> ->]. eauto. }
    { exact OT1. }
    assert (KP : kept m B PS LS tp (fill tp idx (Absent t) v)).
    { split; [apply besides_parts|]. split; [apply clear_links; lia|]. intros a u Hau. destruct (HB a u (or_intror Hau)). lia. }
    assert (T1 : table_at m' tp so (set_nth idx e es) l).
    { rewrite set_nth_same by exact N2. rewrite (table_vtable m tp so es l T Hso) in P2. fold PS in P1, P2. pose proof (zlen_nonneg es) as LN.
      pose proof (DP _ _ P1) as D1. pose proof (DP _ _ P2) as D2. unfold disjoint in D1, D2.
      destruct T as [Ta Tb Tc Td Te Tf]. constructor; auto.
      - eapply holds_uint_ext; [|exact Ta]. intros j Hj. apply OUT. lia.
      - eapply holds_uint_ext; [|exact Td]. intros j Hj. apply OUT. lia.
      - eapply holds_uint_ext; [|exact Te]. intros j Hj. apply OUT. lia.
      - intros i y Hy. pose proof (zget_some_range _ _ _ Hy). eapply holds_uint_ext; [|exact (Tf i y Hy)]. intros j Hj. apply OUT. lia. }
    split.
    + pose proof (stored_put m m' s B 0 (Z.le_refl 0) PS LS COPY LINK tp idx (proj1 (HB tp tp (or_introl eq_refl))) ltac:(lia) w t tn tys t so es l l e
        HS Ht HNU Hso T T1) as SP. specialize (SP ltac:(intros pv'; apply W6; intros j Hj; rewrite (INS j Hj); destruct (zget_some x j Hj) as (y & Y); eauto) v KP).
      specialize (SP ltac:(intros nm gs HG; apply (UN nm gs HG)) name p H). cbn beta in SP. rewrite SH, moved_zero in SP.
      rewrite fill_same in SP; [exact SP|lia|]. intros nm gs HG. destruct (UN nm gs HG) as [-> ->]. exact Hw.
    + pose proof (alike_put m m' B 0 PS LS COPY LINK tp idx (fill tp idx (Absent t) v)) as AL. rewrite moved_zero in AL. apply AL. apply besides_parts.
Qed.
End Place.
