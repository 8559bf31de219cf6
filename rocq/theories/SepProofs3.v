(** Separating the data of a vector. *)
From Coq Require Import ZArith List Bool Lia.
From Coq Require Import Strings.Byte.
From Verif Require Import GoLib BaseModel GoLemmas BaseSpec BaseProofs BaseProofs2 BaseProofs3.
From Verif Require Import TableModel TableSpec TableProofs TableProofs2 ListModel ListSpec.
From Verif Require Import ListProofs ListProofs2 ListProofs3 ListProofs4 ListProofs5.
From Verif Require Import AddModel AddSpec AddProofs AddProofs2 AddProofs3 AddProofs4 AddProofs5 AddProofs7.
From Verif Require Import SepModel SepSpec SepProofs.
Import ListNotations.
Open Scope Z_scope.

Lemma Forall2_of_zget : forall A B (R : A -> B -> Prop) l l', zlen l = zlen l' ->
  (forall i x y, zget l i = Some x -> zget l' i = Some y -> R x y) -> Forall2 R l l'.
Proof.
  induction l as [|a l IH]; intros l' HL H; destruct l' as [|b l'].
  - constructor.
  - rewrite zlen_nil, zlen_cons in HL. pose proof (zlen_nonneg l'). lia.
  - rewrite zlen_nil, zlen_cons in HL. pose proof (zlen_nonneg l). lia.
  - rewrite !zlen_cons in HL. constructor; [apply (H 0); reflexivity|]. apply IH; [lia|].
    intros i x y Hx Hy. pose proof (zget_some_range _ _ _ Hx). apply (H (i + 1)); rewrite zget_cons;
      replace (i + 1 =? 0) with false by lia; replace (i + 1 - 1) with i by lia; assumption.
Qed.

Lemma Forall2_zfirst : forall A B (R : A -> B -> Prop) l l' i, Forall2 R l l' -> Forall2 R (zfirst i l) (zfirst i l').
Proof.
  intros A B R l l' i H. unfold zfirst. generalize (Z.to_nat i). induction H; intros [|n]; cbn [firstn]; constructor; auto.
Qed.

Section Split.
Variable ks : list fkind.
Notation V := (vtable_size ks).
Notation k := (ETable ks).
Notation size := (appended_size ks).

(** A vector in memory, flattened. *)
Record fine (b : base) (F : list byte) (es : list (base * Z * Z)) (ts : list Z) : Prop := {
  fi_flat : flat b;
  fi_bytes : b_bytes b = gs_of F;
  fi_len : zlen F = 4 + size es;
  fi_ts : zlen ts = zlen es;
  fi_count : rd 4 b 0 = Ok (zlen es);
  fi_slot : forall i t, zget ts i = Some t -> rd 4 b (4 + i * 4) = Ok (t - (4 + i * 4));
  fi_elem : forall i t src sp s, zget ts i = Some t -> zget es i = Some (src, sp, s) ->
    self_contained ks src sp s /\ t = 4 + 4 * zlen es + (size (zfirst i es) - 4 * i) + V /\
    4 + 4 * zlen es + V <= t /\ t + s <= zlen F /\ same_reads src sp b t (- V) s
}.

Lemma core_fine : forall b es ts, tcore ks b es ts -> all_gapless ks es -> es <> nil ->
  exists F, base_flatten b = Ok (mkBase (gs_of F) nil nil (b_check b) (b_seek b)) /\
    fine (mkBase (gs_of F) nil nil (b_check b) (b_seek b)) F es ts.
Proof.
  intros b es ts C HG HN. pose proof (tc_mem _ _ _ _ C) as M.
  pose proof (size_ge ks es (core_all _ _ _ _ C)) as SZ. pose proof (zlen_nonneg es) as HZ.
  assert (H1 : 1 <= zlen es) by (destruct es; [congruence|rewrite zlen_cons; pose proof (zlen_nonneg es); lia]).
  pose proof (tc_shape _ _ _ _ C) as SH. pose proof (V_ge ks) as HV.
  assert (EL : len_buf b = 4 + size es).
  { assert (U : len_buf b <= 4 + size es).
    { rewrite len_buf_mem by auto. apply max_end_le; [rewrite (tc_bytes _ _ _ _ C); lia|].
      intros d Hd. rewrite Forall_forall in SH. destruct (SH d Hd) as [(j1 & k1 & Q1 & Q2 & Q3 & Q4)|Q]; lia. }
    assert (L : 3 + size es < len_buf b).
    { destruct (Z_lt_dec (3 + size es) (len_buf b)) as [|X]; [auto|]. exfalso.
      pose proof (core_solid ks b es ts (3 + size es) C HG ltac:(lia)) as R. apply readable_content in R; auto; [|lia].
      apply R. apply content_ge_len; auto; lia. }
    lia. }
  destruct (flatten_spec b M) as (F & E & LF & EG). rewrite EL in LF, EG. exists F. split; [exact E|].
  set (b' := mkBase _ _ _ _ _). assert (FL : flat b') by (split; reflexivity).
  assert (BY : forall i x, 0 <= i < 4 + size es -> content b i = Some x -> zget F i = Some x).
  { intros i x Hi Hx. rewrite EG. unfold img_fill. replace ((0 <=? i) && (i <? 4 + size es)) with true by lia. rewrite Hx. reflexivity. }
  assert (W : forall j v, 0 <= j <= zlen es -> rd 4 b (4 * j) = Ok v -> rd 4 b' (4 * j) = Ok v).
  { intros j v Hj Hv. destruct (delivers_rd 4 b _ v ltac:(lia) Hv) as [HD HR].
    assert (Z4 : zlen (le_encode 4 v) = 4) by apply zlen_le_encode.
    rewrite (rd_delivers 4 b' (4 * j) v ltac:(lia)); [f_equal; apply Z.mod_small; exact HR|].
    apply flat_gives; auto; try lia. intros i Hi. cbn [b' b_bytes gs_of sl_data].
    destruct (zget_some (le_encode 4 v) i Hi) as [x Hx]. rewrite Hx. apply BY; [lia|].
    rewrite (word_content b _ _ j _ M SH Hj Z4 HD i) by lia. exact Hx. }
  assert (T : forall c q, 4 + 4 * zlen es <= c -> 1 <= zlen q -> c + zlen q <= 4 + size es -> delivers b c q -> delivers b' c q).
  { intros c q Hc Hq HC HD. apply flat_gives; auto; [lia|]. intros i Hi. cbn [b' b_bytes gs_of sl_data].
    destruct (zget_some q i Hi) as [x Hx]. rewrite Hx. apply BY; [lia|].
    rewrite (tail_content b (zlen es) (size es) c q M SH (tc_clean _ _ _ _ C) HZ Hc Hq HD i Hi). exact Hx. }
  constructor; auto.
  - apply (tc_len _ _ _ _ C).
  - apply (W 0); [lia|]. change (4 * 0) with 0. rewrite (rd_delivers 4 b 0 (zlen es) ltac:(lia) (tc_count _ _ _ _ C)).
    f_equal. pose proof (tc_max _ _ _ _ C). apply Z.mod_small. change (256 ^ Z.of_nat 4) with 4294967296. lia.
  - intros i t Ht. pose proof (zget_some_range _ _ _ Ht) as R. rewrite (tc_len _ _ _ _ C) in R.
    replace (4 + i * 4) with (4 * (i + 1)) by lia. apply W; [lia|].
    replace (4 * (i + 1)) with (4 + i * 4) by lia. apply (tc_slot _ _ _ _ C). exact Ht.
  - intros i t src sp s Ht He. destruct (tc_elem _ _ _ _ C _ _ _ _ _ Ht He) as (SC & P1 & P2 & P3 & P0 & SR).
    split; [exact SC|]. split; [exact P0|]. split; [exact P1|]. split; [lia|].
    intros j q Hj Hj2 Hq HR HD. apply T; try lia. apply SR; auto.
Qed.

(** The bytes of the table at [t]. *)
Definition blk (F : list byte) (t s : Z) : list byte := zfirst (V + s) (zskip (t - V) F).
Definition blks (F : list byte) (ts : list Z) (es : list (base * Z * Z)) : list (list byte) :=
  map (fun x => blk F (fst x) (snd (snd x))) (combine ts es).

Lemma read_cut_flat : forall b F c n, flat b -> b_bytes b = gs_of F -> 0 <= c -> 1 <= n -> c + n <= zlen F ->
  read_cut b c n = Ok (zfirst n (zskip c F)).
Proof.
  intros b F c n [FR FD] FB Hc Hn HL. unfold read_cut, base_r, writer_r. rewrite FD, FB.
  cbn [last_index last_index_from]. unfold gs_len. cbn [gs_of sl_data].
  replace (zlen F <? c) with false by lia. unfold gs_from, gs_len. cbn [gs_of sl_data sl_spare].
  replace ((0 <=? c) && (c <=? zlen F)) with true by lia. cbn [bind opt_len]. unfold gs_len. cbn [sl_data].
  rewrite zlen_zskip. replace (_ =? 0) with false by lia. cbn [bind].
  unfold gs_upto. rewrite gs_range_ok; [|lia|].
  2: { unfold gs_cap. cbn [sl_data sl_spare]. rewrite zlen_zskip. change (zlen (@nil byte)) with 0. lia. }
  cbn [bind sl_data sl_spare]. rewrite zskip_0, app_nil_r. reflexivity.
Qed.

Lemma write_elems_ok : forall b F, flat b -> b_bytes b = gs_of F -> forall ts es,
  Forall2 (fun t e => elem_info k b t = Ok (Some (snd e)) /\ V <= t /\ t + snd e <= zlen F /\ 4 <= snd e) ts es ->
  forall f len, f_cur f = zlen (f_data f) ->
  exists f', write_elems ks b ts (File f) len = Ok (Some (File f', len + zlen (concat (blks F ts es)))) /\
    f_data f' = f_data f ++ concat (blks F ts es).
Proof.
  intros b F HF HB ts es H. pose proof (V_ge ks) as HV.
  induction H as [|t [[src sp] s] ts es (H1 & H2 & H3 & H4) HH IH]; intros f len HC.
  - exists f. cbn [write_elems blks combine map concat]. rewrite zlen_nil, Z.add_0_r, app_nil_r. auto.
  - cbn [snd] in *. cbn [write_elems]. rewrite H1. cbn [bind].
    replace (zlen ks * 2 + 4) with V by (unfold vtable_size; lia).
    rewrite (read_cut_flat b F (t - V) (s + V) HF HB) by lia. cbn [bind w_write].
    replace (s + V) with (V + s) by lia. fold (blk F t s). rewrite HC, stored_end.
    assert (LB : zlen (blk F t s) = V + s) by (unfold blk; rewrite zlen_zfirst, zlen_zskip; lia).
    destruct (IH (mkFile (f_data f ++ blk F t s) (zlen (f_data f) + zlen (blk F t s))) (len + (V + s))) as (f' & E & D).
    { cbn [f_cur f_data]. rewrite zlen_app. reflexivity. }
    exists f'. unfold blks in *. cbn [combine map concat fst snd]. split.
    + rewrite E. do 3 f_equal. rewrite zlen_app, LB. lia.
    + rewrite D. cbn [f_data]. rewrite <- app_assoc. reflexivity.
Qed.

Definition sinv (g : bool) (s : sep) (es : list (base * Z * Z)) : Prop :=
  exists b np sz f bl, s = mkSep (mkL b np 4 (zlen es) sz) (File f) (zlen (concat bl)) /\
    np < 8 /\ (g = true -> zlen es = 0 \/ sz = size es) /\
    f_data f = concat bl /\ Forall2 (good ks) es bl /\ hinv ks b bl.

Lemma sinv_separated : forall g s es, sinv g s es -> separated ks s es.
Proof.
  intros g s es (b & np & sz & f & bl & -> & _ & _ & HF & HG & HI). unfold separated, data_of. cbn [s_list s_w s_len l_vlen l_io].
  rewrite HF. split; [reflexivity|]. split; [reflexivity|].
  destruct (hinv_flatten ks b bl HI) as (b' & E & HI' & FL & HL). pose proof (Forall2_zlen _ _ _ _ _ HG) as LZ.
  split; [exists b'; split; [exact E|]; unfold gs_len; rewrite LZ; exact HL|].
  unfold whole, data_of. cbn [s_list s_w l_vlen l_io]. rewrite E. cbn [bind]. eexists. split; [reflexivity|]. rewrite HF.
  apply (hinv_shows ks b' bl es HI' FL HG HL).
Qed.

Lemma split_ok : forall l es, built ks l es ->
  exists s, write_data_all ks (set_writer l empty_file) = Ok (SOk s) /\ sinv true s es.
Proof.
  intros l es HB. apply built_inv in HB as [I HG]. pose proof (ti_vlen _ _ _ I) as EV. pose proof (ti_pos _ _ _ I) as EP.
  destruct (ti_core _ _ _ I) as [ts C]. pose proof (V_ge ks) as HV.
  unfold write_data_all, set_writer, empty_file. cbn [s_list s_w s_len].
  destruct (Z.eq_dec (zlen es) 0) as [H0|H0].
  - rewrite EV, H0. change (0 =? 0) with true. eexists. split; [reflexivity|].
    assert (es = nil) by (destruct es as [|e es]; [reflexivity|]; rewrite zlen_cons in H0; pose proof (zlen_nonneg es); lia).
    subst es. exists (l_io l), (l_npos l), (l_size l), (mkFile nil 0), nil.
    split; [|split; [apply (ti_npos _ _ _ I)|split; [intros _; left; reflexivity|split; [reflexivity|split; [constructor|]]]]].
    + destruct l as [b np p v sz]. cbn in *. subst. reflexivity.
    + constructor.
      * apply (tc_mem _ _ _ _ C).
      * exists 1. rewrite (tc_bytes _ _ _ _ C). change (zlen (@nil (list byte))) with 0. lia.
      * exact (tc_shape _ _ _ _ C).
      * cbn [concat]. change (zlen (@nil (list byte))) with 0. change (zlen (@nil byte)) with 0. lia.
      * rewrite (rd_delivers 4 (l_io l) 0 0 ltac:(lia) (tc_count _ _ _ _ C)). reflexivity.
      * intros i Hi. change (zlen (@nil (list byte))) with 0 in Hi. lia.
  - assert (HN : es <> nil) by (intros ->; apply H0; reflexivity).
    pose proof (zlen_nonneg es) as HZ.
    rewrite EV. replace (zlen es =? 0) with false by lia.
    destruct (core_fine (l_io l) es ts C HG HN) as (F & -> & FI). cbn [bind].
    set (b := mkBase _ _ _ _ _) in *. set (l1 := set_io l b).
    assert (P1 : l_pos l1 = 4) by exact EP.
    assert (CNT : list_vlen l1 = Ok (zlen es)).
    { unfold list_vlen. rewrite P1. apply (fi_count _ _ _ _ FI). }
    assert (AT : forall i t, zget ts i = Some t -> list_at k l1 i = Ok (Some t)).
    { intros i t Ht. pose proof (zget_some_range _ _ _ Ht) as R. rewrite (fi_ts _ _ _ _ FI) in R.
      destruct (zget_some es i R) as [[[src sp] s] He].
      destruct (fi_elem _ _ _ _ FI i t src sp s Ht He) as (SC & Q0 & Q1 & Q2 & SR).
      apply (cp_at ks src sp s b t SC SR l1 i (zlen es)); auto. rewrite P1. apply (fi_slot _ _ _ _ FI). exact Ht. }
    assert (HE : has_elements k l1 ts) by (split; [rewrite (fi_ts _ _ _ _ FI); exact CNT|exact AT]).
    assert (T0 : zget ts 0 = Some (4 + 4 * zlen es + V)) by (apply (core_first ks (l_io l) es ts C HN)).
    rewrite (AT 0 _ T0). cbn [bind].
    assert (V1 : l_vlen l1 = zlen ts) by (rewrite (fi_ts _ _ _ _ FI); exact EV).
    destruct (queries k l1 ts (fun _ => true) HE V1) as (_ & _ & ->). cbn [bind].
    assert (F2 : Forall2 (fun t e => elem_info k b t = Ok (Some (snd e)) /\ V <= t /\ t + snd e <= zlen F /\ 4 <= snd e) ts es).
    { apply Forall2_of_zget; [apply (fi_ts _ _ _ _ FI)|]. intros i t [[src sp] s] Ht He. cbn [snd].
      destruct (fi_elem _ _ _ _ FI i t src sp s Ht He) as (SC & Q0 & Q1 & Q2 & SR).
      split; [|split; [lia|split; [lia|apply (sc_min _ _ _ _ SC)]]].
      apply (cp_info ks src sp s b t SC (TableProofs.flat_in_memory _ (fi_flat _ _ _ _ FI))); auto. lia. }
    destruct (write_elems_ok b F (fi_flat _ _ _ _ FI) (fi_bytes _ _ _ _ FI) ts es F2 (mkFile nil 0) 0 eq_refl) as (f' & -> & FD).
    cbn [bind f_data app] in *. set (bl := blks F ts es) in *.
    replace (4 + 4 * zlen es + V - (zlen ks * 2 + 4)) with (4 + 4 * zlen es) by (unfold vtable_size; lia).
    pose proof (fi_len _ _ _ _ FI) as FLEN.
    assert (LBL : zlen bl = zlen es).
    { unfold bl, blks. rewrite zlen_map. unfold zlen. rewrite combine_length. pose proof (fi_ts _ _ _ _ FI) as X. unfold zlen in X. lia. }
    assert (GOOD : Forall2 (good ks) es bl).
    { apply Forall2_of_zget; [congruence|]. intros i [[src sp] s] y He Hy.
      pose proof (zget_some_range _ _ _ He) as R. destruct (zget_some ts i ltac:(rewrite (fi_ts _ _ _ _ FI); exact R)) as [t Ht].
      destruct (fi_elem _ _ _ _ FI i t src sp s Ht He) as (SC & Q0 & Q1 & Q2 & SR).
      assert (y = blk F t s).
      { assert (GC : forall (a : list Z) (c : list (base * Z * Z)) i t e, zget a i = Some t -> zget c i = Some e -> zget (combine a c) i = Some (t, e)).
        { clear. induction a as [|x a IH]; intros c i t e Ht He; [rewrite zget_nil in Ht; discriminate|].
          destruct c as [|y c]; [rewrite zget_nil in He; discriminate|]. cbn [combine]. rewrite zget_cons in Ht. rewrite zget_cons in He. rewrite zget_cons.
          destruct (i =? 0); [congruence|]. apply IH; assumption. }
        unfold bl, blks in Hy. rewrite zget_map, (GC ts es i t _ Ht He) in Hy. cbn [option_map fst snd] in Hy. congruence. }
      subst y. pose proof (sc_min _ _ _ _ SC).
      assert (LB : zlen (blk F t s) = V + s) by (unfold blk; rewrite zlen_zfirst, zlen_zskip; lia).
      split; [exact SC|]. split; [exact LB|]. intros j q Hj Hj2 Hq HR HD.
      specialize (SR j q Hj Hj2 Hq HR HD).
      apply flat_gives; auto; try (split; reflexivity); try lia. intros x Hx. cbn [new_base b_bytes gs_of sl_data].
      unfold blk. rewrite zget_zfirst, zget_zskip by lia. replace (V + j + x <? V + s) with true by lia.
      replace (V + j + x <? 0) with false by lia.
      replace (t - V + (V + j + x)) with (t + j + x) by lia.
      rewrite <- (flat_given b (t + j) q (fi_flat _ _ _ _ FI) ltac:(lia) Hq SR x Hx), (fi_bytes _ _ _ _ FI). reflexivity. }
    pose proof (good_size ks es bl GOOD) as GS.
    pose proof (zlen_nonneg (concat bl)) as HCB.
    assert (HB0 : base_r b 0 (4 + 4 * zlen es) = Ok (Some (gs_of F))).
    { unfold base_r, writer_r. cbn [b b_diffs b_bytes last_index last_index_from]. unfold gs_len. cbn [gs_of sl_data].
      replace (zlen F <? 0) with false by lia. unfold gs_from, gs_len. cbn [gs_of sl_data sl_spare].
      replace ((0 <=? 0) && (0 <=? zlen F)) with true by lia. cbn [bind opt_len]. unfold gs_len. cbn [sl_data].
      rewrite zskip_0. replace (zlen F =? 0) with false by lia. reflexivity. }
    rewrite HB0. cbn [bind].
    rewrite gs_upto3_ok; [|lia|].
    2: { unfold gs_cap. cbn [gs_of sl_data sl_spare]. change (zlen (@nil byte)) with 0. pose proof (zlen_nonneg (concat bl)). lia. }
    cbn [bind gs_of sl_data sl_spare]. rewrite app_nil_r.
    eexists. split; [reflexivity|].
    set (h := mkSlice _ _). set (hb := mkBase h nil nil (b_check b) 0).
    exists hb, (l_npos l), (l_size l), f', bl.
    split; [|split; [apply (ti_npos _ _ _ I)|split; [intros _; right; destruct (ti_size _ _ _ I) as [X|X]; [lia|exact X]|
      split; [exact FD|split; [exact GOOD|]]]]].
    + unfold l1, set_io. cbn [l_npos l_pos l_vlen l_size]. rewrite EP, EV. reflexivity.
    + assert (LH : zlen (sl_data h) = 4 + 4 * zlen es).
      { cbn [h sl_data]. rewrite zlen_zfirst. pose proof (zlen_nonneg (concat bl)). lia. }
      assert (FH : flat hb) by (split; reflexivity).
      assert (W : forall c v, 0 <= c -> c + 4 <= 4 + 4 * zlen es -> rd 4 b c = Ok v -> rd 4 hb c = Ok v).
      { intros c v Hc1 Hc2 Hv. destruct (delivers_rd 4 b _ v ltac:(lia) Hv) as [HD HR].
        assert (Z4 : zlen (le_encode 4 v) = 4) by apply zlen_le_encode.
        rewrite (rd_delivers 4 hb c v ltac:(lia)); [f_equal; apply Z.mod_small; exact HR|].
        apply flat_gives; auto; try lia. intros i Hi. cbn [hb h b_bytes sl_data]. rewrite zget_zfirst.
        replace (c + i <? 4 + 4 * zlen es) with true by lia.
        rewrite <- (flat_given b c (le_encode 4 v) (fi_flat _ _ _ _ FI) Hc1 ltac:(lia) HD i Hi), (fi_bytes _ _ _ _ FI). reflexivity. }
      constructor; rewrite ?LBL.
      * apply (TableProofs.flat_in_memory _ FH).
      * exists (zlen es + 1). unfold gs_len. cbn [hb b_bytes]. rewrite LH. lia.
      * constructor.
      * rewrite <- GS. apply (tc_max _ _ _ _ C).
      * apply W; [lia|lia|]. apply (fi_count _ _ _ _ FI).
      * intros i Hi. apply W; [lia|lia|].
        destruct (zget_some ts i ltac:(rewrite (fi_ts _ _ _ _ FI); exact Hi)) as [t Ht].
        destruct (zget_some es i Hi) as [[[src sp] s] He].
        destruct (fi_elem _ _ _ _ FI i t src sp s Ht He) as (SC & Q0 & Q1 & Q2 & SR).
        rewrite (fi_slot _ _ _ _ FI i t Ht). f_equal.
        pose proof (good_size ks _ _ (Forall2_zfirst _ _ _ es bl i GOOD)) as G2. rewrite zlen_zfirst in G2.
        unfold starts. lia.
Qed.
End Split.
