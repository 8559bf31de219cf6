(** Joining separated vectors, merged tables, and what every call keeps. *)
From Coq Require Import ZArith List Bool Lia.
From Coq Require Import Strings.Byte.
From Verif Require Import GoLib BaseModel GoLemmas BaseSpec BaseProofs BaseProofs2 BaseProofs3.
From Verif Require Import TableModel TableSpec TableProofs TableProofs2 ListModel ListSpec.
From Verif Require Import ListProofs ListProofs2 ListProofs3 ListProofs4 ListProofs5 ListProofs6.
From Verif Require Import AddModel AddSpec AddProofs AddProofs2 AddProofs3 AddProofs4 AddProofs5 AddProofs7 AddProofs8.
From Verif Require Import SepModel SepSpec SepProofs SepProofs2 SepProofs3.
Import ListNotations.
Open Scope Z_scope.

Section Join.
Variable ks : list fkind.
Notation V := (vtable_size ks).
Notation k := (ETable ks).
Notation size := (appended_size ks).

Lemma move_spec : forall N from a d o is nb, in_memory nb -> Forall (shp N (4 * N)) (b_diffs nb) -> NoDup is -> 0 <= N ->
  (forall i, In i is -> 0 <= a + i < N /\ rd 4 (l_io from) (l_pos from + i * 4) = Ok (o i) /\ 0 <= o i + d < 4294967296) ->
  exists nb', move_slots nb from a d is = Ok nb' /\ in_memory nb' /\ b_bytes nb' = b_bytes nb /\
    Forall (shp N (4 * N)) (b_diffs nb') /\
    (forall i, In i is -> rd 4 nb' (4 + (a + i) * 4) = Ok (o i + d)) /\
    (forall j x, 0 <= j <= N -> (forall i, In i is -> j <> a + i + 1) -> rd 4 nb (4 * j) = Ok x -> rd 4 nb' (4 * j) = Ok x).
Proof.
  intros N from a d o. induction is as [|i is IH]; intros nb M S ND HN H; cbn [move_slots].
  - exists nb. split; [reflexivity|]. split; [exact M|]. split; [reflexivity|]. split; [exact S|]. split; [intros ? []|auto].
  - inversion ND as [|? ? NI ND']; subst. destruct (H i (or_introl eq_refl)) as (Hi & HR & HO).
    rewrite HR. cbn [bind].
    assert (HU : u32 (o i + d) = o i + d) by (unfold u32; apply Z.mod_small; exact HO). rewrite HU.
    destruct (u_rd nb (4 + (a + i) * 4) 4 (o i + d) M ltac:(lia) ltac:(lia)) as (b1 & E1 & M1 & B1 & _ & R1 & F1 & _).
    change (Z.of_nat 4) with 4 in *. rewrite E1. cbn [bind].
    destruct (u_word nb N (4 * N) (a + i + 1) (o i + d) b1 S ltac:(lia) ltac:(rewrite <- E1; f_equal; lia)) as [S1 _].
    destruct (IH b1 M1 S1 ND' HN (fun j Hj => H j (or_intror Hj))) as (b2 & E2 & M2 & B2 & S2 & R2 & O2).
    exists b2. split; [exact E2|]. split; [exact M2|]. split; [congruence|]. split; [exact S2|]. split.
    + intros j [<-|Hj]; [|apply R2; exact Hj]. replace (4 + (a + i) * 4) with (4 * (a + i + 1)) in * by lia.
      apply O2; [lia| |].
      * intros j Hj X. assert (j = i) by lia. subst j. contradiction.
      * rewrite R1. f_equal. change (256 ^ 4) with 4294967296. apply Z.mod_small. lia.
    + intros j x Hj HX HRj. apply O2; [exact Hj|intros i' Hi'; apply HX; right; exact Hi'|].
      pose proof (HX i (or_introl eq_refl)). apply F1; [lia|lia|change (Z.of_nat 4) with 4; lia|exact HRj].
Qed.

Lemma slot_room : forall es bl, Forall2 (good ks) es bl -> forall i, 0 <= i < zlen bl -> starts bl i + V + 4 <= zlen (concat bl).
Proof.
  intros es bl HG i Hi. pose proof (Forall2_zlen _ _ _ _ _ HG) as LZ. destruct (zget_some bl i Hi) as [qi Hq].
  assert (exists ei, good ks ei qi) as [ei G].
  { destruct (zget_some es i ltac:(lia)) as [x Hx]. destruct (Forall2_zget _ _ _ _ _ i x HG Hx) as (y & Hy & G).
    rewrite Hq in Hy. injection Hy as <-. eauto. }
  apply good_len in G as [G _]. pose proof (starts_next bl i qi Hq) as H. pose proof (starts_le bl (i + 1)). lia.
Qed.

(** The joined header. *)
Lemma join_header : forall b1 bl1 es b2 bl2 fs np1 sz1 np2 sz2 chk,
  hinv ks b1 bl1 -> Forall2 (good ks) es bl1 -> hinv ks b2 bl2 -> Forall2 (good ks) fs bl2 ->
  size (es ++ fs) < 4294967296 - 4 ->
  exists nb0 nb1 nb, base_u (mkBase (gs_of (zeros (4 + (zlen bl1 + zlen bl2) * 4))) nil nil chk 0) 0 4
      (le_encode 4 (zlen bl1 + zlen bl2)) = Ok nb0 /\
    move_slots nb0 (mkL b1 np1 4 (zlen es) sz1) 0 (zlen bl2 * 4) (zseq (zlen bl1)) = Ok nb1 /\
    move_slots nb1 (mkL b2 np2 4 (zlen fs) sz2) (zlen bl1) (zlen (concat bl1)) (zseq (zlen bl2)) = Ok nb /\
    hinv ks nb (bl1 ++ bl2).
Proof.
  intros b1 bl1 es b2 bl2 fs np1 sz1 np2 sz2 chk I1 G1 I2 G2 HM.
  pose proof (Forall2_zlen _ _ _ _ _ G1) as L1. pose proof (Forall2_zlen _ _ _ _ _ G2) as L2.
  rewrite size_app, (good_size ks _ _ G1), (good_size ks _ _ G2), L1, L2 in HM.
  pose proof (zlen_nonneg bl1) as H1. pose proof (zlen_nonneg bl2) as H2.
  pose proof (zlen_nonneg (concat bl1)) as H3. pose proof (zlen_nonneg (concat bl2)) as H4.
  pose proof (slot_room _ _ G1) as SR1. pose proof (slot_room _ _ G2) as SR2. pose proof (V_ge ks) as HV.
  set (n1 := zlen bl1) in *. set (n2 := zlen bl2) in *. set (D1 := zlen (concat bl1)) in *. set (D2 := zlen (concat bl2)) in *.
  set (z := mkBase _ _ _ _ _).
  assert (M : in_memory z) by (split; [reflexivity|constructor]).
  destruct (u_rd z 0 4 (n1 + n2) M ltac:(lia) ltac:(lia)) as (nb0 & E0 & M0 & B0 & _ & R0 & _).
  change (Z.of_nat 4) with 4 in *.
  destruct (u_word z (n1 + n2) (4 * (n1 + n2)) 0 (n1 + n2) nb0 ltac:(constructor) ltac:(lia) E0) as [S0 _].
  set (o1 := fun i => 4 * (n1 - i) + starts bl1 i + V). set (o2 := fun i => 4 * (n2 - i) + starts bl2 i + V).
  destruct (move_spec (n1 + n2) (mkL b1 np1 4 (zlen es) sz1) 0 (n2 * 4) o1 (zseq n1) nb0 M0 S0 (zseq_nodup n1) ltac:(lia))
    as (nb1 & E1 & M1 & B1 & S1 & R1 & O1).
  { intros i Hi. apply zseq_in in Hi. pose proof (SR1 i Hi). pose proof (starts_nonneg bl1 i). split; [lia|].
    split; [apply (hi_slot _ _ _ I1 i Hi)|unfold o1; lia]. }
  destruct (move_spec (n1 + n2) (mkL b2 np2 4 (zlen fs) sz2) n1 D1 o2 (zseq n2) nb1 M1 S1 (zseq_nodup n2) ltac:(lia))
    as (nb & E2 & M2 & B2 & S2 & R2 & O2).
  { intros i Hi. apply zseq_in in Hi. pose proof (SR2 i Hi). pose proof (starts_nonneg bl2 i). split; [lia|].
    split; [apply (hi_slot _ _ _ I2 i Hi)|unfold o2; lia]. }
  exists nb0, nb1, nb. split; [exact E0|]. split; [exact E1|]. split; [exact E2|].
  assert (LB : zlen (bl1 ++ bl2) = n1 + n2) by apply zlen_app.
  assert (LC : zlen (concat (bl1 ++ bl2)) = D1 + D2) by (rewrite concat_app; apply zlen_app).
  constructor; rewrite ?LB, ?LC; auto.
  - exists (n1 + n2 + 1). rewrite B2, B1, B0. unfold gs_len. cbn [z b_bytes gs_of sl_data]. rewrite zlen_zeros. lia.
  - lia.
  - apply (O2 0); [lia| |].
    + intros i Hi. apply zseq_in in Hi. lia.
    + apply (O1 0); [lia| |].
      * intros i Hi. apply zseq_in in Hi. lia.
      * change (4 * 0) with 0. rewrite R0. f_equal. change (256 ^ 4) with 4294967296. apply Z.mod_small. lia.
  - intros i Hi. destruct (Z_lt_dec i n1) as [X|X].
    + rewrite starts_app by (fold n1; lia). replace (4 + i * 4) with (4 * (i + 1)) by lia. apply O2; [lia| |].
      * intros j Hj. apply zseq_in in Hj. lia.
      * replace (4 * (i + 1)) with (4 + (0 + i) * 4) by lia. rewrite R1 by (apply zseq_in; lia). unfold o1. f_equal. lia.
    + replace i with (n1 + (i - n1)) at 3 by lia. rewrite starts_behind by lia. fold D1.
      replace (4 + i * 4) with (4 + (n1 + (i - n1)) * 4) by lia. rewrite R2 by (apply zseq_in; lia). unfold o2. f_equal. lia.
Qed.

Lemma Forall2_both : forall A B (R : A -> B -> Prop) a b c d, Forall2 R a b -> Forall2 R c d -> Forall2 R (a ++ c) (b ++ d).
Proof. intros A B R a b c d H1 H2. apply Forall2_app; assumption. Qed.

(** Everything up to the copy of the file. *)
Lemma join_add : forall g1 g2 d es s fs, sinv ks g1 d es -> sinv ks g2 s fs -> size (es ++ fs) < 4294967296 - 4 ->
  exists f g s0 nb bl1 bl2 np1 sz1 np2 sz2 b1 b2,
    d = mkSep (mkL b1 np1 4 (zlen es) sz1) (File f) (zlen (concat bl1)) /\
    s = mkSep (mkL b2 np2 4 (zlen fs) sz2) (File g) (zlen (concat bl2)) /\
    f_data f = concat bl1 /\ f_data g = concat bl2 /\
    s0 = mkSep (mkL b2 np2 4 (zlen fs) sz2) (File (mkFile (f_data g) (f_cur g + zlen (zskip (f_cur g) (f_data g))))) (zlen (concat bl2)) /\
    Forall2 (good ks) (es ++ fs) (bl1 ++ bl2) /\ hinv ks nb (bl1 ++ bl2) /\
    sep_add d s = Ok (let p := zskip (f_cur g) (f_data g) in
      let f' := File (mkFile (concat bl1 ++ p) (zlen (concat bl1) + zlen p)) in
      if zlen p =? zlen (concat bl2)
      then Added (mkSep (mkL nb 4 4 (zlen (es ++ fs)) (sz1 + (sz2 - 4))) f' (zlen (concat bl1) + zlen (concat bl2))) s0
      else NotAdded (mkSep (mkL b1 np1 4 (zlen es) sz1) f' (zlen (concat bl1))) s0).
Proof.
  intros g1 g2 d es s fs (b1 & np1 & sz1 & f & bl1 & -> & N1 & Z1 & F1 & G1 & I1) (b2 & np2 & sz2 & g & bl2 & -> & N2 & Z2 & F2 & G2 & I2) HM.
  pose proof (Forall2_zlen _ _ _ _ _ G1) as L1. pose proof (Forall2_zlen _ _ _ _ _ G2) as L2.
  destruct (join_header b1 bl1 es b2 bl2 fs np1 sz1 np2 sz2 (b_check b1) I1 G1 I2 G2 HM) as (nb0 & nb1 & nb & E0 & E1 & E2 & HI).
  exists f, g. eexists. exists nb, bl1, bl2, np1, sz1, np2, sz2, b1, b2.
  split; [reflexivity|]. split; [reflexivity|]. split; [exact F1|]. split; [exact F2|]. split; [reflexivity|].
  split; [apply Forall2_both; assumption|]. split; [exact HI|].
  rewrite size_app, (good_size ks _ _ G1), (good_size ks _ _ G2), L1, L2 in HM.
  pose proof (zlen_nonneg bl1). pose proof (zlen_nonneg bl2).
  pose proof (zlen_nonneg (concat bl1)). pose proof (zlen_nonneg (concat bl2)).
  unfold sep_add. cbn [s_w s_list s_len]. unfold list_vlen. cbn [l_io l_pos l_size]. change (4 - 4) with 0.
  rewrite (hi_count _ _ _ I1), (hi_count _ _ _ I2). cbn [bind].
  assert (U1 : u32 (zlen bl1 + zlen bl2) = zlen bl1 + zlen bl2).
  { unfold u32. change (2 ^ 32) with 4294967296. apply Z.mod_small. lia. }
  assert (U2 : u32 (zlen (concat bl1)) = zlen (concat bl1)).
  { unfold u32. change (2 ^ 32) with 4294967296. apply Z.mod_small. lia. }
  rewrite U1, U2, E0. cbn [bind]. rewrite E1. cbn [bind]. rewrite E2. cbn [bind].
  rewrite (hi_count _ _ _ HI). cbn [bind]. rewrite F1, stored_end.
  rewrite !zlen_app, L1, L2. cbv zeta. destruct (_ =? _); reflexivity.
Qed.

Lemma zskip_same : forall (l : list byte) c, zlen (zskip c l) = zlen l -> zskip c l = l.
Proof.
  intros l c H. rewrite zlen_zskip in H. pose proof (zlen_nonneg l) as HL.
  destruct (Z_le_dec c 0) as [X|X].
  - unfold zskip. replace (Z.to_nat c) with 0%nat by lia. reflexivity.
  - destruct l as [|x l]; [unfold zskip; destruct (Z.to_nat c); reflexivity|]. rewrite zlen_cons in *. pose proof (zlen_nonneg l). lia.
Qed.

Lemma sinv_weak : forall g s es, sinv ks g s es -> sinv ks false s es.
Proof.
  intros g s es (b & np & sz & f & bl & E & H1 & H2 & H). exists b, np, sz, f, bl. split; [exact E|]. split; [exact H1|].
  split; [discriminate|exact H].
Qed.

Lemma sinv_rewound : forall g s es, sinv ks g s es -> sinv ks g (rewound s) es.
Proof.
  intros g s es (b & np & sz & f & bl & -> & H). exists b, np, sz, (mkFile (f_data f) 0), bl. split; [reflexivity|exact H].
Qed.

Lemma sinv_merge : forall g s es, sinv ks g s es -> exists s', sep_merge s = Ok s' /\ sinv ks g s' es.
Proof.
  intros g s es (b & np & sz & f & bl & -> & H1 & H2 & H3 & H4 & H5).
  destruct (hinv_flatten ks b bl H5) as (b' & E & H6 & _). unfold sep_merge. cbn [s_list l_io s_w s_len]. rewrite E. cbn [bind].
  eexists. split; [reflexivity|]. exists b', np, sz, f, bl. split; [reflexivity|]. auto.
Qed.

Lemma sinv_set : forall s es src sp e, sinv ks true s es -> fills_buffer ks src sp e ->
  size (es ++ [(src, sp, e)]) < 4294967296 - 4 ->
  exists s', sep_set_at ks s (zlen es) src sp = Ok (SOk s') /\ sinv ks true s' (es ++ [(src, sp, e)]).
Proof.
  intros s es src sp e (b & np & sz & f & bl & -> & H1 & H2 & H3 & H4 & H5) FB HM.
  destruct (sep_step ks b bl np es sz f src sp e H5 H4 H1 (H2 eq_refl) H3 FB HM) as (b' & f' & E & HI & FD & GD).
  eexists. split; [exact E|]. set (q := sl_data (b_bytes src)) in *.
  exists b', np, (size (es ++ [(src, sp, e)])), f', (bl ++ [q]).
  assert (LC : zlen (concat (bl ++ [q])) = zlen (concat bl) + (e + V)).
  { rewrite concat_app, zlen_app. cbn [concat]. rewrite app_nil_r. destruct GD as (_ & -> & _). lia. }
  rewrite LC, zlen_app. split; [reflexivity|]. split; [exact H1|]. split; [intros _; right; reflexivity|].
  split; [|split; [|exact HI]].
  - rewrite FD, concat_app. cbn [concat]. rewrite app_nil_r. reflexivity.
  - apply Forall2_both; [exact H4|]. constructor; [exact GD|constructor].
Qed.

Lemma sinv_added : forall g1 g2 d es s fs n s', sinv ks g1 d es -> sinv ks g2 s fs -> size (es ++ fs) < 4294967296 - 4 ->
  sep_add d s = Ok (Added n s') -> sinv ks false n (es ++ fs) /\ sinv ks g2 s' fs.
Proof.
  intros g1 g2 d es s fs n s' Hd Hs HM HA. pose proof Hs as Hs0.
  destruct (join_add g1 g2 d es s fs Hd Hs HM) as (f & g & s0 & nb & bl1 & bl2 & np1 & sz1 & np2 & sz2 & b1 & b2 & Ed & Es & F1 & F2 & E0 & G & HI & E).
  rewrite E in HA. clear E. cbv zeta in HA.
  destruct (zlen (zskip (f_cur g) (f_data g)) =? zlen (concat bl2)) eqn:X; [|discriminate].
  assert (n = mkSep (mkL nb 4 4 (zlen (es ++ fs)) (sz1 + (sz2 - 4)))
     (File (mkFile (concat bl1 ++ zskip (f_cur g) (f_data g)) (zlen (concat bl1) + zlen (zskip (f_cur g) (f_data g)))))
     (zlen (concat bl1) + zlen (concat bl2)) /\ s' = s0) as [-> ->] by (split; congruence). clear HA. subst s0. split.
  - eexists nb, 4, (sz1 + (sz2 - 4)), _, (bl1 ++ bl2). rewrite concat_app, (zlen_app (concat bl1)). split; [reflexivity|].
    split; [lia|]. split; [discriminate|]. split; [|split; [exact G|exact HI]]. cbn [f_data].
    rewrite zskip_same by (rewrite <- F2 in X; lia). rewrite F2. reflexivity.
  - destruct Hs0 as (b & np & sz & f0 & bl & E & H1 & H2 & H3 & H4 & H5). rewrite Es in E.
    assert (E' : b2 = b /\ np2 = np /\ sz2 = sz /\ g = f0 /\ zlen (concat bl2) = zlen (concat bl)) by (repeat split; congruence).
    destruct E' as (-> & -> & -> & -> & EL). rewrite EL.
    eexists b, np, sz, _, bl. split; [reflexivity|]. split; [exact H1|]. split; [exact H2|]. split; [exact H3|]. auto.
Qed.

Lemma sinv_add : forall g1 g2 d es s fs, sinv ks g1 d es -> sinv ks g2 s fs -> size (es ++ fs) < 4294967296 - 4 ->
  exists n s', sep_add d (rewound s) = Ok (Added n s').
Proof.
  intros g1 g2 d es s fs Hd Hs HM. assert (Hr : exists l f ln, rewound s = mkSep l (File f) ln /\ f_cur f = 0).
  { destruct Hs as (b & np & sz & f & bl & -> & _). do 3 eexists. split; reflexivity. }
  apply sinv_rewound in Hs.
  destruct (join_add g1 g2 d es (rewound s) fs Hd Hs HM) as (f & g & s0 & nb & bl1 & bl2 & np1 & sz1 & np2 & sz2 & b1 & b2 & Ed & Es & F1 & F2 & E0 & G & HI & E).
  destruct Hr as (l & f0 & ln & Er & C0). assert (EG : f0 = g) by congruence. subst f0.
  rewrite E. clear E. cbv zeta. rewrite C0, zskip_0, F2, Z.eqb_refl. eauto.
Qed.

Lemma sep_sinv : forall g s es, sep_built ks g s es -> sinv ks g s es.
Proof.
  induction 1 as [l es s HB HW | s es src sp e s' H IH FB HM HS | f s es s' H IH HS | f s es H IH | f g d es s fs n s' H1 IH1 H2 IH2 HM HA].
  - destruct (split_ok ks l es HB) as (s1 & E & I). congruence.
  - change (2 ^ 32) with 4294967296 in HM. destruct (sinv_set s es src sp e IH FB HM) as (s1 & E & I). congruence.
  - destruct (sinv_merge f s es IH) as (s1 & E & I). congruence.
  - apply sinv_rewound. exact IH.
  - change (2 ^ 32) with 4294967296 in HM. apply (sinv_added f g d es s fs n s' IH1 IH2 HM HA).
Qed.
End Join.

(** ** Merged tables fill their buffers *)

Lemma merged_fills : forall ks src s, self_contained ks src (vtable_size ks) s -> gapless ks src (vtable_size ks) s ->
  len_buf src = vtable_size ks + s ->
  exists b, base_flatten src = Ok b /\ fills_buffer ks b (vtable_size ks) s /\
    same_reads src (vtable_size ks) b (vtable_size ks) (- vtable_size ks) s.
Proof.
  intros ks src s SC HG HL. set (V := vtable_size ks) in *. pose proof (V_ge ks) as HV. fold V in HV.
  pose proof (sc_mem _ _ _ _ SC) as M. pose proof (sc_min _ _ _ _ SC) as HS.
  destruct (flatten_spec src M) as (l & E & EL & EG). rewrite HL in EL, EG.
  eexists. split; [exact E|]. set (b := mkBase _ _ _ _ _). assert (F : flat b) by (split; reflexivity).
  assert (SR : same_reads src V b V (- V) s).
  { intros j q Hj Hj2 Hq HR HD. apply flat_gives; auto; [lia|]. intros i Hi. cbn [b b_bytes gs_of sl_data].
    destruct (zget_some q i Hi) as [x Hx]. rewrite EG. unfold img_fill.
    replace ((0 <=? V + j + i) && (V + j + i <? V + s)) with true by lia.
    rewrite <- (delivers_content src (V + j) q M (sc_clean _ _ _ _ SC) ltac:(lia) HD i Hi), Hx. reflexivity. }
  split; [|exact SR].
  assert (MB : in_memory b) by (apply (TableProofs.flat_in_memory _ F)).
  split; [|split; [exact F|split; [reflexivity|exact EL]]].
  constructor; fold V.
  - exact MB.
  - apply clean_nil.
  - lia.
  - apply (cp_vpos ks src V s b V SC SR).
  - pose proof (sc_vlen _ _ _ _ SC) as X. unfold virtual_table_len in *. fold V in X.
    rewrite (sc_vpos _ _ _ _ SC) in X. rewrite (cp_vpos ks src V s b V SC SR). fold V in X |- *. cbn [bind] in *.
    replace (V - V) with (V + - V) in * by lia. apply (cp_rd2 ks src V s b V SC SR); fold V; try lia. exact X.
  - destruct (sc_tlen _ _ _ _ SC) as [tl X]. exists tl. unfold table_len in *.
    rewrite (sc_vpos _ _ _ _ SC) in X. rewrite (cp_vpos ks src V s b V SC SR). fold V in X |- *. cbn [bind] in *.
    replace (V - V + 2) with (V + (- V + 2)) in * by lia. apply (cp_rd2 ks src V s b V SC SR); fold V; try lia. exact X.
  - intros i Hi. destruct (sc_entry _ _ _ _ SC i Hi) as [e He]. exists e. fold V in He.
    assert (VS : V = 4 + 2 * zlen ks) by reflexivity.
    replace (V - V + 4 + 2 * i) with (V + (- V + 4 + 2 * i)) in * by lia.
    apply (cp_rd2 ks src V s b V SC SR); fold V; try lia. exact He.
  - apply (cp_info ks src V s b V SC MB); fold V; auto. lia.
  - exact HS.
  - intros j Hj. destruct (zget_some l j ltac:(lia)) as [x Hx]. apply readable_content; auto; [lia|].
    rewrite flat_content by exact F. cbn [b b_bytes gs_of sl_data]. unfold img_bytes. congruence.
Qed.

Section Made.
Variable ks : list fkind.
Hypothesis sizes_pos : Forall (fun k => forall n, inline_size k = Some n -> 1 <= n) ks.
Hypothesis inline : Forall (fun k => inline_size k <> None) ks.
Hypothesis HS : 4 + 2 * zlen ks < 65536.
Hypothesis HT : 4 + inline_total ks < 65536.

Lemma made_len : forall h src sp s, made_by ks h (src, sp, s) -> sp = vtable_size ks /\ len_buf src = vtable_size ks + s.
Proof.
  intros h src sp s M. destruct (made_inv ks sizes_pos inline HS HT h src sp s M) as (SC & G & vt & tl & I & HB).
  pose proof (i_pos _ _ _ _ _ I) as P. cbn [t_pos] in P. change (tpos ks) with (vtable_size ks) in P. split; [exact P|].
  pose proof (i_mem _ _ _ _ _ I) as Mem. cbn [t_io] in Mem. pose proof (sc_min _ _ _ _ SC) as S4. pose proof (V_ge ks) as HV.
  assert (U : len_buf src <= vtable_size ks + s).
  { rewrite len_buf_mem by auto. apply max_end_le.
    - pose proof (i_len _ _ _ _ _ I) as L. cbn [t_io] in L. rewrite L. change (tpos ks) with (vtable_size ks). lia.
    - intros d Hd. pose proof (i_shape _ _ _ _ _ I) as SH. cbn [t_io] in SH. rewrite Forall_forall in SH.
      destruct (SH d Hd) as [(j & H1 & H2 & H3)|(i & e & k & n & H1 & H2 & H3 & H4 & H5 & H6)].
      + assert (VS : vtable_size ks = 4 + 2 * zlen ks) by reflexivity. lia.
      + rewrite H5, H6. change (tpos ks) with (vtable_size ks). pose proof (HB i e k n H1 H2 H3 H4). lia. }
  assert (L : vtable_size ks + s - 1 < len_buf src).
  { destruct (Z_lt_dec (vtable_size ks + s - 1) (len_buf src)) as [|X]; [auto|]. exfalso.
    pose proof (G (vtable_size ks + s - 1) ltac:(lia)) as R. apply readable_content in R; auto; [|lia].
    apply R. apply content_ge_len; auto; lia. }
  lia.
Qed.

Lemma made_fills : forall h src sp s, made_by ks h (src, sp, s) ->
  exists b, base_flatten src = Ok b /\ fills_buffer ks b sp s /\ same_reads src sp b sp (- vtable_size ks) s.
Proof.
  intros h src sp s M. destruct (made_len h src sp s M) as [-> L].
  destruct (made_inv ks sizes_pos inline HS HT h src _ s M) as (SC & G & _). apply merged_fills; assumption.
Qed.
End Made.
