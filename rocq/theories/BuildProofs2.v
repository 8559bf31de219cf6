(** Lemmas on the builder: adding fields to the grid and data behind it. *)
From Coq Require Import ZArith List Bool Lia.
From Coq Require Import Strings.Byte.
From Verif Require Import GoLib BaseModel GoLemmas BaseSpec BaseProofs BaseProofs2 BaseProofs3.
From Verif Require Import TableModel TableSpec TableProofs TableProofs2 ListProofs4 BuildProofs.
Import ListNotations.
Open Scope Z_scope.

Lemma room_upd : forall l vt i z e, zget l i = Some z -> zget vt i = Some 0 -> e <> 0 ->
  room l (upd vt i e) = room l vt - z.
Proof.
  induction l as [|z0 l IH]; intros vt i z e Hz Hv He.
  - rewrite zget_nil in Hz. discriminate.
  - destruct vt as [|v vt]; [rewrite zget_nil in Hv; discriminate|].
    pose proof (zget_some_range _ _ _ Hv) as R. rewrite zget_cons in Hz. rewrite zget_cons in Hv.
    rewrite !zlen_cons in *.
    destruct (i =? 0) eqn:X.
    + assert (z0 = z) by congruence. assert (v = 0) by congruence. subst z0 v.
      replace i with 0 by lia. unfold upd.
      change (zfirst 0 (0 :: vt)) with (@nil Z). change (zskip (0 + 1) (0 :: vt)) with vt.
      cbn [app room]. replace (e =? 0) with false by lia. cbn [Z.eqb]. lia.
    + specialize (IH vt (i - 1) z e Hz Hv He).
      assert (EU : upd (v :: vt) i e = v :: upd vt (i - 1) e).
      { apply zget_ext. intros j. rewrite zget_upd by (rewrite zlen_cons; lia). rewrite !zget_cons.
        rewrite zget_upd by lia. destruct (j =? 0) eqn:A; destruct (j =? i) eqn:B; destruct (j - 1 =? i - 1) eqn:C; try lia; reflexivity. }
      rewrite EU. cbn [room]. rewrite IH. lia.
Qed.

Lemma room_nonneg : forall l vt, Forall (fun z => 1 <= z) l -> 0 <= room l vt.
Proof.
  induction l as [|k l IH]; intros vt H; cbn [room]; [lia|]. destruct vt as [|v vt]; [lia|].
  inversion H as [|? ? H1 H2]; subst. specialize (IH vt H2). destruct (v =? 0); lia.
Qed.

Lemma room_ge : forall l vt i z, Forall (fun z => 1 <= z) l ->
  zget l i = Some z -> zget vt i = Some 0 -> z <= room l vt.
Proof.
  induction l as [|k0 l IH]; intros vt i z H Hz Hv.
  - rewrite zget_nil in Hz. discriminate.
  - destruct vt as [|v vt]; [rewrite zget_nil in Hv; discriminate|].
    inversion H as [|? ? H1 H2]; subst. rewrite zget_cons in Hz. rewrite zget_cons in Hv. cbn [room].
    pose proof (room_nonneg l vt H2).
    destruct (i =? 0) eqn:X.
    + assert (k0 = z) by congruence. assert (v = 0) by congruence. subst. cbn [Z.eqb]. lia.
    + specialize (IH vt (i - 1) z H2 Hz Hv). destruct (v =? 0); lia.
Qed.

(** The entries appended by a copy start at its target. *)
Lemma copy_loop_behind : forall src srcOff size dst fuel ptr ds ds', srcOff <= ptr ->
  copy_loop fuel src srcOff size dst ptr ds = Ok ds' ->
  exists l, ds' = ds ++ l /\ Forall (fun d => 0 < d_len d /\ dst <= d_off d) l.
Proof.
  intros src srcOff size dst. induction fuel as [|f IH]; intros ptr ds ds' Hp H; cbn [copy_loop] in H.
  - destruct (srcOff + size <=? ptr); [|discriminate]. assert (ds' = ds) by congruence. subst.
    exists nil. rewrite app_nil_r. auto.
  - destruct (srcOff + size <=? ptr) eqn:EE.
    { assert (ds' = ds) by congruence. subst. exists nil. rewrite app_nil_r. auto. }
    destruct (base_r src ptr (size - (ptr - srcOff))) as [[s|]| |] eqn:E; cbn [bind] in H; try discriminate.
    2: { assert (ds' = ds) by congruence. subst. exists nil. rewrite app_nil_r. auto. }
    destruct (gs_len s =? 0) eqn:E0.
    { assert (ds' = ds) by congruence. subst. exists nil. rewrite app_nil_r. auto. }
    pose proof (gs_len_nonneg s).
    match type of H with bind ?x _ = _ => destruct x as [s'| |] eqn:EU; cbn [bind] in H; try discriminate end.
    assert (L : 0 < gs_len s').
    { destruct (size - (ptr - srcOff) <? gs_len s) eqn:E1.
      - unfold gs_upto, gs_range in EU.
        match type of EU with (if ?c then _ else _) = _ => destruct c eqn:EC; [|discriminate EU] end.
        assert (s' = mkSlice (zskip 0 (zfirst (size - (ptr - srcOff)) (sl_data s ++ sl_spare s)))
                             (zskip (size - (ptr - srcOff)) (sl_data s ++ sl_spare s))) by congruence.
        subst s'. unfold gs_len; cbn [sl_data]. rewrite zskip_0, zlen_zfirst, zlen_app.
        pose proof (zlen_nonneg (sl_spare s)). unfold gs_len in *. lia.
      - assert (s' = s) by congruence. subst. lia. }
    destruct (IH (ptr + gs_len s') _ _ ltac:(lia) H) as (l & -> & F).
    exists (mkDiff (ptr - srcOff + dst) s' :: l). rewrite <- app_assoc. split; [reflexivity|].
    constructor; [|exact F]. unfold d_len. cbn [d_sl d_off]. lia.
Qed.

Lemma filter_none : forall A (p : A -> bool) l, (forall x, In x l -> p x = false) -> filter p l = nil.
Proof.
  induction l as [|x l IH]; intros H; [reflexivity|]. cbn [filter].
  rewrite (H x (or_introl eq_refl)). apply IH. intros y Hy. apply H. right. exact Hy.
Qed.

Section Grid.
Variable ks : list fkind.
Variable sizes : list Z.
Hypothesis same_len : zlen sizes = zlen ks.
Hypothesis sizes_pos : Forall (fun z => 1 <= z) sizes.
Hypothesis ref_size : forall i, zget ks i = Some KRef -> zget sizes i = Some 4.

Notation tpos := (TableProofs2.tpos ks).
Notation ginv := (ginv ks sizes).
Hypothesis small : tpos < 65536.

Lemma grid_init : forall b, init_table ks = Ok (b, tpos) -> 4 + room sizes (repeat 0 (length ks)) <= 65535 ->
  ginv b (repeat 0 (length ks)) 4 (fun _ => None).
Proof.
  intros b HI HR. destruct (init_table_ok ks small) as (b' & E & F & CK & L & T & V).
  assert (b' = b) by (unfold TableProofs2.tpos in HI; congruence). subst b'.
  pose proof (zlen_nonneg ks). pose proof T as [T1 T2 T3 T4 T5 T6].
  assert (TP : tpos = 4 + 2 * zlen ks) by reflexivity. rewrite <- TP in *.
  assert (HE : forall c m v, holds_uint (img_bytes (sl_data (b_bytes b))) c m v -> holds_uint (content b) c m v).
  { intros c m v Hc. eapply holds_uint_ext; [|exact Hc]. intros. apply flat_content; auto. }
  constructor; auto.
  - apply TableProofs.flat_in_memory; auto.
  - apply zlen_repeat.
  - lia.
  - destruct F as [_ ->]. constructor.
  - apply HE. rewrite Z.mod_small in T1 by (change (2 ^ 32) with 4294967296; lia). exact T1.
  - apply HE. rewrite Z.sub_diag in T5. exact T5.
  - intros i e Hi. apply HE. specialize (T6 i e Hi). rewrite Z.sub_diag in T6. exact T6.
  - intros i e Hi He. destruct (zget_repeat (length ks) i 0) as [Q|Q]; congruence.
  - intros i j ei ej zi zj _ Hi _ He. destruct (zget_repeat (length ks) i 0) as [Q|Q]; congruence.
Qed.

(** Adding a field that is absent. *)
Lemma grid_insert : forall b vt tl vals i n, ginv b vt tl vals -> beyond ks sizes vt tl vals ->
  zget vt i = Some 0 -> zget sizes i = Some n ->
  exists b', insert_vtable ks (mkT b tpos) i n = Ok (Some (mkT b' tpos, tpos + tl)) /\
    ginv b' (upd vt i tl) (tl + n) (bump ks n i 0 (fmap_set vals i (zeros n))) /\
    forall q, tpos + tl <= q -> content b' (q + n) = content b q.
Proof.
  intros b vt tl vals i n I HB Hi Hn.
  pose proof (size_ge sizes sizes_pos i n Hn) as HP. pose proof (zlen_nonneg ks) as HN.
  pose proof (zget_some_range _ _ _ Hn) as RK. rewrite same_len in RK.
  assert (RV : 0 <= i < zlen vt) by (rewrite (g_vt _ _ _ _ _ _ I); lia).
  destruct (g_tl _ _ _ _ _ _ I) as [TL1 TL2].
  pose proof (room_ge sizes vt i n sizes_pos Hn Hi) as RG.
  assert (TP : tpos = 4 + 2 * zlen ks) by reflexivity.
  unfold insert_vtable. cbn [t_io t_pos].
  rewrite (grid_table_len ks sizes sizes_pos ref_size b vt tl vals I). cbn [bind].
  assert (U1 : u16 tl = tl) by (apply Z.mod_small; change (2 ^ 16) with 65536; lia).
  assert (U2 : u16 n = n) by (apply Z.mod_small; change (2 ^ 16) with 65536; lia).
  assert (U3 : u16 (tl + n) = tl + n) by (apply Z.mod_small; change (2 ^ 16) with 65536; lia).
  rewrite U1, U2, U3. unfold insert_buf. cbn [t_io t_pos].
  pose proof (grid_beside ks sizes ref_size b vt tl vals I) as BS.
  pose proof (g_len _ _ _ _ _ _ I) as GL.
  destruct (insert_space_spec b (tpos + tl) n (g_mem _ _ _ _ _ _ I) ltac:(lia) ltac:(lia)) as (b1 & EI & M1 & C1).
  { rewrite filter_none; [cbn; lia|]. intros d Hd. rewrite Forall_forall in BS. specialize (BS d Hd).
    unfold beside in BS. unfold straddles. lia. }
  rewrite (insert_space_beside b (tpos + tl) n true ltac:(lia) ltac:(lia) BS) in EI.
  assert (EQ1 : b1 = mkBase (b_bytes b) nil (map (ins_shift (tpos + tl) n) (b_diffs b) ++
         [mkDiff (tpos + tl) (gs_of (zeros n))]) (b_check b) 0) by congruence.
  rewrite (insert_space_beside b (tpos + tl) n true ltac:(lia) ltac:(lia) BS). rewrite <- EQ1.
  cbn [bind]. rewrite (grid_in_root ks sizes sizes_pos ref_size b vt tl vals I). cbn [bind].
  destruct (tpos + tl <? tpos) eqn:X; [lia|]. cbn [t_io t_pos].
  set (E := tpos + tl) in *.
  assert (SH : forall d, In d (b_diffs b1) -> 0 < d_len d /\
     (vcell ks d \/ fcell ks sizes vt d \/ (d_off d = E /\ d_len d = n) \/ E + n <= d_off d)).
  { intros d Hd. rewrite EQ1 in Hd. cbn [b_diffs] in Hd. apply in_app_or in Hd. destruct Hd as [Hd|[<-|[]]].
    - apply in_map_iff in Hd as (d0 & <- & Hd0).
      destruct (grid_shape ks sizes b vt tl vals d0 I Hd0) as (D0 & D). unfold d_len in *. rewrite shift_sl.
      split; [exact D0|].
      destruct D as [(k & Hk & E1 & E2)|[(j & e & z & Hj & He & Hz & E1 & E2)|D]].
      + left. exists k. unfold d_len in *. rewrite shift_off, shift_sl. replace (E <=? d_off d0) with false by lia. auto.
      + right. left. exists j, e, z. unfold d_len in *. rewrite shift_off, shift_sl.
        destruct (g_field _ _ _ _ _ _ I j e Hj He) as (z' & p & A1 & A2 & A3 & A4 & A5 & _).
        pose proof (size_ge sizes sizes_pos j z' A1). assert (z' = z) by congruence.
        replace (E <=? d_off d0) with false by lia. auto.
      + right. right. right. rewrite shift_off. replace (E <=? d_off d0) with true by lia. lia.
    - unfold d_len, gs_len; cbn [d_sl d_off gs_of sl_data]. rewrite zlen_zeros. split; [lia|].
      right. right. left. lia. }
  assert (LOW1 : forall q, q < E -> content b1 q = content b q).
  { intros q Hq. rewrite C1. unfold img_insert. replace (q <? E) with true by lia. reflexivity. }
  assert (W1 : forall c m, 1 <= m -> (c = tpos /\ m = 4) -> whole (b_diffs b1) (gs_len (b_bytes b1)) c m).
  { intros c m Hm [-> ->]. apply whole_grid; [|lia|].
    - apply Forall_forall. intros d Hd. right. destruct (SH d Hd) as (D0 & D). unfold misses.
      destruct D as [(k & Hk & E1 & E2)|[(j & e & z & Hj & He & Hz & E1 & E2)|[D|D]]]; try lia.
      destruct (g_field _ _ _ _ _ _ I j e Hj He) as (z' & p & A1 & A2 & A3 & A4 & A5 & _). lia.
    - left. rewrite EQ1. cbn [b_bytes]. unfold gs_len in GL. lia. }
  assert (VP : vtable_pos b1 tpos = Ok 0).
  { unfold vtable_pos. rewrite (rd_whole 4 b1 tpos tpos M1 ltac:(lia) ltac:(lia)).
    - cbn [bind]. f_equal. lia.
    - apply W1; auto. lia.
    - eapply holds_uint_ext; [|exact (g_soff _ _ _ _ _ _ I)]. intros q Hq. apply LOW1. lia. }
  rewrite VP. cbn [bind].
  replace (0 + 4 + i * 2) with (4 + 2 * i) by lia. change (0 + 2) with 2.
  set (ei := le_encode 2 tl). set (et := le_encode 2 (tl + n)).
  assert (LE : zlen ei = 2) by apply zlen_le_encode. assert (LT : zlen et = 2) by apply zlen_le_encode.
  assert (SH1 : forall d, In d (b_diffs b1) -> forall c, 0 <= c <= zlen ks ->
             covers (2 + 2 * c) d = true -> d_off d + d_len d <= 2 + 2 * c + 2).
  { intros d Hd c Hc Hcov. apply covers_iff in Hcov. destruct (SH d Hd) as (D0 & D).
    destruct D as [(k & Hk & E1 & E2)|[(j & e & z & Hj & He & Hz & E1 & E2)|[D|D]]]; try lia.
    destruct (g_field _ _ _ _ _ _ I j e Hj He) as (z' & p & A1 & A2 & A3 & A4 & A5 & _). lia. }
  (* first update *)
  destruct (base_u_cell b1 (4 + 2 * i) ei ltac:(lia) ltac:(lia)) as (l2 & EU2 & FL2).
  { intros d Hd Hcov. rewrite LE. replace (4 + 2 * i) with (2 + 2 * (i + 1)) in * by lia.
    apply (SH1 d Hd); auto; lia. }
  destruct (base_u_spec b1 (4 + 2 * i) 2 ei M1 ltac:(lia) LE) as (b2 & EB2 & M2 & BB2 & _ & _ & C2).
  rewrite LE in EU2. rewrite EB2 in EU2. injection EU2 as EU2. rewrite EB2. cbn [bind].
  assert (D2 : b_diffs b2 = b_diffs b1 ++ l2 ++ [mkDiff (4 + 2 * i) (gs_of ei)]) by (rewrite EU2; reflexivity).
  rewrite LE in FL2.
  (* second update *)
  destruct (base_u_cell b2 2 et ltac:(lia) ltac:(lia)) as (l3 & EU3 & FL3).
  { intros d Hd Hcov. rewrite LT. rewrite D2 in Hd. apply in_app_or in Hd. destruct Hd as [Hd|Hd].
    - apply (SH1 d Hd 0); auto; lia.
    - apply covers_iff in Hcov. apply in_app_or in Hd. destruct Hd as [Hd|[<-|[]]].
      + rewrite Forall_forall in FL2. specialize (FL2 d Hd). lia.
      + cbn [d_off] in Hcov. lia. }
  destruct (base_u_spec b2 2 2 et M2 ltac:(lia) LT) as (b3 & EB3 & M3 & BB3 & _ & _ & C3).
  rewrite LT in EU3. rewrite EB3 in EU3. injection EU3 as EU3. rewrite EB3. cbn [bind].
  assert (D3 : b_diffs b3 = b_diffs b2 ++ l3 ++ [mkDiff 2 (gs_of et)]) by (rewrite EU3; reflexivity).
  rewrite LT in FL3.
  assert (BB : b_bytes b3 = b_bytes b) by (rewrite BB3, BB2, EQ1; reflexivity).
  assert (CC : forall q, content b3 q = img_write (img_write (content b1) (4 + 2 * i) ei) 2 et q).
  { intros q. rewrite C3. apply img_write_ext. apply C2. }
  assert (HIGH : forall q, tpos <= q -> content b3 q = content b1 q).
  { intros q Hq. rewrite CC. unfold img_write. rewrite LE, LT.
    destruct ((2 <=? q) && _) eqn:Y1; [lia|]. destruct ((4 + 2 * i <=? q) && _) eqn:Y2; [lia|reflexivity]. }
  assert (SAME : forall c, c < E ->
            (c < 4 + 2 * i \/ 4 + 2 * i + 2 <= c) -> (c < 2 \/ 4 <= c) -> content b3 c = content b c).
  { intros c A1 A2 A3. rewrite <- LOW1 by auto. rewrite CC. unfold img_write. rewrite LE, LT.
    destruct ((2 <=? c) && _) eqn:Y1; [lia|]. destruct ((4 + 2 * i <=? c) && _) eqn:Y2; [lia|reflexivity]. }
  assert (KEEP : forall c m v, c + Z.of_nat m <= E ->
            (c + Z.of_nat m <= 4 + 2 * i \/ 4 + 2 * i + 2 <= c) -> (c + Z.of_nat m <= 2 \/ 4 <= c) ->
            holds_uint (content b) c m v -> holds_uint (content b3) c m v).
  { intros c m v A1 A2 A3 H1. eapply holds_uint_ext; [|exact H1]. intros q Hq. apply SAME; lia. }
  assert (FC : forall d, fcell ks sizes vt d -> fcell ks sizes (upd vt i tl) d).
  { intros d (j & e & z & Hj & He & S). exists j, e, z. rewrite zget_upd by lia.
    destruct (j =? i) eqn:Y; [|auto]. replace j with i in Hj by lia. congruence. }
  assert (INV : ginv b3 (upd vt i tl) (tl + n) (fmap_set vals i (zeros n))).
  { constructor.
    - exact M3.
    - rewrite BB. apply I.
    - rewrite zlen_upd by lia. apply I.
    - split; [lia|]. rewrite (room_upd sizes vt i n tl Hn Hi ltac:(lia)). lia.
    - rewrite D3, D2. apply Forall_app; split; [apply Forall_app; split; [|apply Forall_app; split]|apply Forall_app; split].
      + apply Forall_forall. intros d Hd. destruct (SH d Hd) as (D0 & D). split; [exact D0|].
        destruct D as [D|[D|[D|D]]]; [auto|right; left; auto| |right; right; unfold E in *; lia].
        right. left. exists i, tl, n. rewrite zget_upd, Z.eqb_refl by lia. unfold E in D. repeat split; auto; lia.
      + eapply Forall_impl; [|exact FL2]. cbv beta. intros d [S1 S2]. split; [lia|]. left. exists (i + 1). lia.
      + constructor; [|constructor]. unfold vcell, d_len, gs_len; cbn [d_off d_sl gs_of sl_data].
        split; [lia|]. left. exists (i + 1). lia.
      + eapply Forall_impl; [|exact FL3]. cbv beta. intros d [S1 S2]. split; [lia|]. left. exists 0. lia.
      + constructor; [|constructor]. unfold vcell, d_len, gs_len; cbn [d_off d_sl gs_of sl_data].
        split; [lia|]. left. exists 0. lia.
    - apply KEEP; [unfold E; lia|lia|lia|apply I].
    - apply KEEP; [unfold E; lia|lia|lia|apply I].
    - apply holds_uint_encode; [|change (256 ^ Z.of_nat 2) with 65536; lia].
      intros q Hq. rewrite CC. unfold img_write at 1. rewrite LT.
      destruct (_ && _) eqn:Y; [f_equal; lia|lia].
    - intros j ej Hj. rewrite zget_upd in Hj by lia. destruct (j =? i) eqn:Y.
      + assert (ej = tl) by congruence. subst ej. replace j with i by lia.
        apply holds_uint_encode; [|change (256 ^ Z.of_nat 2) with 65536; lia].
        intros q Hq. rewrite CC. unfold img_write at 1. rewrite LT.
        destruct (_ && _) eqn:Y1; [lia|]. unfold img_write at 1. rewrite LE.
        destruct ((4 + 2 * i <=? 4 + 2 * i + q) && _) eqn:Y2; [|exfalso; clear - Y2 Hq; lia].
        f_equal. clear. lia.
      + pose proof (zget_some_range _ _ _ Hj) as R. rewrite (g_vt _ _ _ _ _ _ I) in R.
        apply KEEP; try (unfold E; lia). apply I; auto.
    - intros j Hj. unfold fmap_set. destruct (j =? i) eqn:Y.
      + exfalso. replace j with i in Hj by lia. specialize (Hj tl).
        rewrite zget_upd, Z.eqb_refl in Hj by lia. specialize (Hj eq_refl). lia.
      + apply (g_none _ _ _ _ _ _ I). intros e He. apply Hj. rewrite zget_upd by lia. rewrite Y. exact He.
    - intros j ej Hj Hej. rewrite zget_upd in Hj by lia. destruct (j =? i) eqn:Y.
      + assert (ej = tl) by congruence. subst ej. replace j with i by lia. exists n, (zeros n).
        unfold fmap_set. rewrite Z.eqb_refl. rewrite zlen_zeros.
        do 5 (split; [first [assumption|reflexivity|lia]|]).
        intros q Hq. rewrite HIGH by lia. rewrite C1. unfold img_insert. fold E.
        replace (E + q <? E) with false by lia. replace (E + q <? E + n) with true by lia.
        rewrite zget_zeros. replace ((0 <=? q) && (q <? n)) with true by lia. reflexivity.
      + destruct (g_field _ _ _ _ _ _ I j ej Hj Hej) as (z2 & p2 & G1 & G2 & G3 & G4 & G5 & G6).
        exists z2, p2. unfold fmap_set. rewrite Y. do 5 (split; [first [assumption|lia]|]).
        intros q Hq. rewrite SAME by (unfold E; lia). apply G6; auto.
    - intros a c ea ec za zc Hac Ha Hc Hea Hec Hza Hzc.
      rewrite zget_upd in Ha by lia. rewrite zget_upd in Hc by lia.
      destruct (a =? i) eqn:Ya; destruct (c =? i) eqn:Yc; try lia.
      + assert (ea = tl) by congruence. subst ea.
        destruct (g_field _ _ _ _ _ _ I c ec Hc Hec) as (z2 & p2 & G1 & _ & _ & G4 & G5 & _).
        assert (z2 = zc) by congruence. right. lia.
      + assert (ec = tl) by congruence. subst ec.
        destruct (g_field _ _ _ _ _ _ I a ea Ha Hea) as (z2 & p2 & G1 & _ & _ & G4 & G5 & _).
        assert (z2 = za) by congruence. left. lia.
      + apply (g_disj _ _ _ _ _ _ I a c ea ec za zc); auto. }
  destruct (grid_move_refs ks sizes sizes_pos ref_size i E n (E + n) ltac:(lia) ltac:(unfold E; lia) ks 0 b3
    (upd vt i tl) (tl + n) (fmap_set vals i (zeros n))) as (b4 & E4 & I4 & C4).
  - intros q k Hq. exact Hq.
  - lia.
  - lia.
  - exact INV.
  - intros j e Kj Hj _ Hv He. rewrite zget_upd in Hv by lia. replace (j =? i) with false in Hv by lia.
    destruct (HB j e Kj Hv He) as (o & O1 & O2 & O3). exists o. unfold fmap_set.
    replace (j =? i) with false by lia. split; [exact O1|].
    destruct (g_field _ _ _ _ _ _ I j e Hv He) as (z4 & p4 & J1 & _ & _ & _ & J5 & _).
    pose proof (size_ge sizes sizes_pos j z4 J1). unfold E. lia.
  - unfold E. lia.
  - rewrite E4. cbn [bind]. exists b4. split; [reflexivity|]. split; [exact I4|].
    intros q Hq. rewrite C4 by lia. rewrite HIGH by (unfold E in Hq; lia). rewrite C1. unfold img_insert.
    replace (q + n <? E) with false by lia. replace (q + n <? E + n) with false by lia. f_equal. lia.
Qed.

(** Copying data behind the table. *)
Lemma grid_blob : forall b vt tl vals src so len ext, ginv b vt tl vals ->
  in_memory src -> reads_current src -> 0 <= so -> 0 <= len -> 0 <= ext ->
  (forall k, 0 <= k < len -> content src (so + k) <> None) ->
  exists b', base_copy b src so len (tpos + tl) ext = Ok b' /\ ginv b' vt tl vals /\
    forall k, 0 <= k < len -> content b' (tpos + tl + k) = content src (so + k).
Proof.
  intros b vt tl vals src so len ext I HM HC Hso Hlen Hext HD.
  pose proof (g_tl _ _ _ _ _ _ I) as TL. pose proof (zlen_nonneg ks).
  assert (TP : tpos = 4 + 2 * zlen ks) by reflexivity.
  pose proof (grid_beside ks sizes ref_size b vt tl vals I) as BS.
  destruct (base_copy_spec b src so len (tpos + tl) ext (g_mem _ _ _ _ _ _ I) HM HC Hso Hlen ltac:(lia) Hext)
    as (b' & k & EB & M & (R1 & R2 & R3) & C).
  { right. eapply Forall_impl; [|exact BS]. intros d. unfold beside, straddles. lia. }
  assert (k = len).
  { destruct R3 as [R3|R3]; [exact R3|]. destruct (Z.eq_dec k len); auto. exfalso. apply (HD k); auto. lia. }
  subst k. exists b'. split; [exact EB|].
  assert (LOW : forall q, q < tpos + tl -> content b' q = content b q).
  { intros q Hq. rewrite C by lia. replace (tpos + tl <=? q) with false by lia. cbn [andb].
    replace (q <? tpos + tl) with true by lia. reflexivity. }
  assert (KEEP : forall c m v, c + Z.of_nat m <= tpos + tl -> holds_uint (content b) c m v -> holds_uint (content b') c m v).
  { intros c m v Hc H1. eapply holds_uint_ext; [|exact H1]. intros q Hq. apply LOW. lia. }
  split.
  - constructor.
    + exact M.
    + unfold base_copy in EB. destruct (tpos + tl <? gs_len (b_bytes b)) eqn:X; [rewrite (g_len _ _ _ _ _ _ I) in X; lia|].
      cbn [bind] in EB. destruct copy_loop as [ds| |]; cbn [bind] in EB; try discriminate.
      assert (b' = set_diffs b ds) by congruence. subst b'. apply I.
    + apply I.
    + apply I.
    + unfold base_copy in EB. destruct (tpos + tl <? gs_len (b_bytes b)) eqn:X; [rewrite (g_len _ _ _ _ _ _ I) in X; lia|].
      cbn [bind] in EB. destruct copy_loop as [ds| |] eqn:EC; cbn [bind] in EB; try discriminate.
      assert (b' = set_diffs b ds) by congruence. subst b'. cbn [set_diffs b_diffs].
      destruct (copy_loop_behind _ _ _ _ _ _ _ _ (Z.le_refl _) EC) as (l & -> & F).
      apply Forall_app; split.
      * apply Forall_forall. intros d Hd. apply in_map_iff in Hd as (d0 & <- & Hd0).
        destruct (grid_shape ks sizes b vt tl vals d0 I Hd0) as (D0 & D).
        destruct (tpos + tl <=? d_off d0) eqn:Y; [|auto].
        unfold d_len in *. cbn [d_sl d_off]. split; [exact D0|]. right. right. lia.
      * eapply Forall_impl; [|exact F]. cbv beta. intros d [D0 D]. auto.
    + apply KEEP; [lia|apply I].
    + apply KEEP; [lia|apply I].
    + apply KEEP; [lia|apply I].
    + intros i e Hi. pose proof (zget_some_range _ _ _ Hi) as R. rewrite (g_vt _ _ _ _ _ _ I) in R.
      apply KEEP; [lia|apply I; auto].
    + apply I.
    + intros i e Hi He. destruct (g_field _ _ _ _ _ _ I i e Hi He) as (z & p & A1 & A2 & A3 & A4 & A5 & A6).
      exists z, p. do 5 (split; [assumption|]). intros q Hq. rewrite LOW by lia. auto.
    + apply I.
  - intros q Hq. rewrite C by lia.
    replace ((tpos + tl <=? tpos + tl + q) && (tpos + tl + q <? tpos + tl + len)) with true by lia.
    f_equal. lia.
Qed.

(** Making room behind the table (the extra [InsertBuf] of tables). *)
Lemma grid_space : forall b vt tl vals size, ginv b vt tl vals -> 1 <= size ->
  exists b', insert_buf (mkT b tpos) (tpos + tl) size = Ok (Some (mkT b' tpos)) /\ ginv b' vt tl vals.
Proof.
  intros b vt tl vals size I Hs.
  pose proof (g_tl _ _ _ _ _ _ I) as TL. pose proof (zlen_nonneg ks).
  assert (TP : tpos = 4 + 2 * zlen ks) by reflexivity.
  pose proof (grid_beside ks sizes ref_size b vt tl vals I) as BS. pose proof (g_len _ _ _ _ _ _ I) as GL.
  destruct (insert_space_spec b (tpos + tl) size (g_mem _ _ _ _ _ _ I) ltac:(lia) ltac:(lia)) as (b1 & EI & M1 & C1).
  { rewrite filter_none; [cbn; lia|]. intros d Hd. rewrite Forall_forall in BS. specialize (BS d Hd).
    unfold beside in BS. unfold straddles. lia. }
  unfold insert_buf. cbn [t_io t_pos]. rewrite EI. cbn [bind].
  rewrite (grid_in_root ks sizes sizes_pos ref_size b vt tl vals I). cbn [bind].
  replace (tpos + tl <? tpos) with false by lia. exists b1. split; [reflexivity|].
  rewrite (insert_space_beside b (tpos + tl) size true ltac:(lia) ltac:(lia) BS) in EI.
  assert (EQ1 : b1 = mkBase (b_bytes b) nil (map (ins_shift (tpos + tl) size) (b_diffs b) ++
         [mkDiff (tpos + tl) (gs_of (zeros size))]) (b_check b) 0) by congruence.
  assert (LOW : forall q, q < tpos + tl -> content b1 q = content b q).
  { intros q Hq. rewrite C1. unfold img_insert. replace (q <? tpos + tl) with true by lia. reflexivity. }
  assert (KEEP : forall c m v, c + Z.of_nat m <= tpos + tl -> holds_uint (content b) c m v -> holds_uint (content b1) c m v).
  { intros c m v Hc H1. eapply holds_uint_ext; [|exact H1]. intros q Hq. apply LOW. lia. }
  constructor.
  - exact M1.
  - rewrite EQ1. apply I.
  - apply I.
  - apply I.
  - rewrite EQ1. cbn [b_diffs]. apply Forall_app; split.
    + apply Forall_forall. intros d Hd. apply in_map_iff in Hd as (d0 & <- & Hd0).
      destruct (grid_shape ks sizes b vt tl vals d0 I Hd0) as (D0 & D). unfold ins_shift.
      destruct (tpos + tl <=? d_off d0) eqn:Y; [|auto].
      unfold d_len in *. cbn [d_sl d_off]. split; [exact D0|]. right. right. lia.
    + constructor; [|constructor]. unfold d_len, gs_len; cbn [d_sl d_off gs_of sl_data]. rewrite zlen_zeros.
      split; [lia|]. right. right. lia.
  - apply KEEP; [lia|apply I].
  - apply KEEP; [lia|apply I].
  - apply KEEP; [lia|apply I].
  - intros i e Hi. pose proof (zget_some_range _ _ _ Hi) as R. rewrite (g_vt _ _ _ _ _ _ I) in R.
    apply KEEP; [lia|apply I; auto].
  - apply I.
  - intros i e Hi He. destruct (g_field _ _ _ _ _ _ I i e Hi He) as (z & p & A1 & A2 & A3 & A4 & A5 & A6).
    exists z, p. do 5 (split; [assumption|]). intros q Hq. rewrite LOW by lia. auto.
  - apply I.
Qed.

End Grid.
