(** Parts of a vector of tables, and all ways to build one. *)
From Coq Require Import ZArith List Bool Lia.
From Coq Require Import Strings.Byte.
From Verif Require Import GoLib BaseModel GoLemmas BaseSpec BaseProofs BaseProofs2 BaseProofs3.
From Verif Require Import TableModel TableSpec TableProofs TableProofs2 ListModel ListSpec.
From Verif Require Import ListProofs ListProofs2 ListProofs3 ListProofs4 ListProofs5.
From Verif Require Import AddModel AddSpec AddProofs AddProofs2 AddProofs3 AddProofs4.
Import ListNotations.
Open Scope Z_scope.

Lemma zfirst_zskip : forall A n (l : list A), zfirst n l ++ zskip n l = l.
Proof. intros. unfold zfirst, zskip. apply firstn_skipn. Qed.

Lemma zskip_all : forall A n (l : list A), zlen l <= n -> zskip n l = nil.
Proof. intros A n l H. unfold zskip, zlen in *. apply skipn_all2. lia. Qed.

Lemma Forall_zfirst : forall A (P : A -> Prop) n l, Forall P l -> Forall P (zfirst n l).
Proof. intros A P n l H. rewrite <- (zfirst_zskip A n l) in H. apply Forall_app in H. apply H. Qed.
Lemma Forall_zskip : forall A (P : A -> Prop) n l, Forall P l -> Forall P (zskip n l).
Proof. intros A P n l H. rewrite <- (zfirst_zskip A n l) in H. apply Forall_app in H. apply H. Qed.

Lemma zlen_part : forall A (es : list A) i j, 0 <= i <= j -> j < zlen es -> zlen (part es i j) = j - i + 1.
Proof. intros A es i j H1 H2. unfold part. rewrite zlen_zfirst, zlen_zskip. lia. Qed.

Lemma zget_part : forall A (es : list A) i j y, 0 <= i <= j -> j < zlen es -> 0 <= y < j - i + 1 ->
  zget (part es i j) y = zget es (i + y).
Proof.
  intros A es i j y H1 H2 H3. unfold part. rewrite zget_zfirst. replace (y <? j - i + 1) with true by lia.
  rewrite zget_zskip by lia. replace (y <? 0) with false by lia. reflexivity.
Qed.

Lemma part_split : forall A (es : list A) i j y, 0 <= i <= j -> j < zlen es -> 0 <= y <= j - i + 1 ->
  zfirst (i + y) es = zfirst i es ++ zfirst y (part es i j).
Proof.
  intros A es i j y H1 H2 H3. apply zget_ext. intros x. rewrite zget_zfirst, zget_app, zlen_zfirst, !zget_zfirst.
  replace (Z.max 0 (Z.min i (zlen es))) with i by lia. destruct (x <? i) eqn:X.
  - replace (x <? i + y) with true by lia. reflexivity.
  - destruct (x - i <? y) eqn:Y.
    + replace (x <? i + y) with true by lia. rewrite zget_part by lia. f_equal. lia.
    + replace (x <? i + y) with false by lia. reflexivity.
Qed.

Lemma u_first : forall p, 1 <= zlen p ->
  base_u (l_io init_list) 4 (zlen p) p = Ok (set_diffs (l_io init_list) [mkDiff 4 (gs_of p)]).
Proof.
  intros p Hp. unfold base_u. replace (zlen p <? 0) with false by lia. replace (zlen p <? zlen p) with false by lia.
  rewrite copy_at_full by (rewrite zlen_zeros; lia). reflexivity.
Qed.

Lemma served_poke : forall ds bs bs' c q, zlen bs = zlen bs' -> zlen bs <= c -> 1 <= zlen q ->
  served ds bs c q -> served ds bs' c q.
Proof.
  intros ds bs bs' c q H1 H2 Hq H. unfold served in *. destruct (find_last (covers c) ds); [exact H|].
  destruct H as (_ & H & _). lia.
Qed.

Section Tables.
Variable ks : list fkind.
Let V := vtable_size ks.
Notation k := (ETable ks).
Notation tinv := (tinv ks).
Notation tcore := (tcore ks).
Notation size := (appended_size ks).
Notation contained := (fun e => let '(src, sp, s) := e in self_contained ks src sp s).

Lemma size_nonneg : forall es, Forall contained es -> 0 <= size es.
Proof. intros es H. pose proof (size_ge ks es H). pose proof (zlen_nonneg es). lia. Qed.

Lemma layout_bounds : forall es i src sp s, Forall contained es -> zget es i = Some (src, sp, s) ->
  let t := 4 + 4 * zlen es + (size (zfirst i es) - 4 * i) + V in
  4 + 4 * zlen es + V <= t /\ t + s <= 4 + size es /\ (i = zlen es - 1 -> t + s = 4 + size es).
Proof.
  intros es i src sp s HF He t. pose proof (zget_some_range _ _ _ He) as R.
  pose proof (size_ge ks (zfirst i es) (Forall_zfirst _ _ _ _ HF)) as H1. rewrite zlen_zfirst in H1.
  pose proof (size_ge ks (zskip (i + 1) es) (Forall_zskip _ _ _ _ HF)) as H2. rewrite zlen_zskip in H2.
  pose proof (size_next ks es i src sp s He) as H3. fold V in H3.
  assert (H4 : size es = size (zfirst (i + 1) es) + size (zskip (i + 1) es)) by (rewrite <- size_app, zfirst_zskip; reflexivity).
  unfold t. split; [lia|]. split; [lia|]. intros ->.
  rewrite zskip_all in H4 by lia. cbn [appended_size] in H4. lia.
Qed.

Section Range.
Variables (l : lnode) (es : list (base * Z * Z)) (ts : list Z).
Hypothesis C : tcore (l_io l) es ts.
Hypothesis HP : l_pos l = 4.
Let n := zlen es.
Let P x := 4 + 4 * n + (size (zfirst x es) - 4 * x).

Lemma range_at : forall x src sp s, zget es x = Some (src, sp, s) ->
  zget ts x = Some (P x + V) /\ list_at k l x = Ok (Some (P x + V)) /\
  at_with_begin k l x = Ok (Some (P x + V, P x)) /\ elem_info k (l_io l) (P x + V) = Ok (Some s) /\
  P (x + 1) = P x + V + s /\ 0 <= x < n.
Proof.
  intros x src sp s He. pose proof (zget_some_range _ _ _ He) as R.
  destruct (zget_some ts x ltac:(rewrite (tc_len _ _ _ _ C); lia)) as [t Ht].
  destruct (tc_elem _ _ _ _ C _ _ _ _ _ Ht He) as (SC & P1 & P2 & P3 & P0 & SR). fold n V in P0. fold (P x) in P0.
  subst t. split; [exact Ht|].
  destruct (core_at ks _ es ts l x _ C eq_refl HP Ht) as (HA & _). split; [exact HA|]. split; [|split; [|split]].
  - unfold at_with_begin. rewrite HA. cbn [bind]. rewrite (core_vtl ks _ _ _ _ _ C Ht). cbn [bind]. fold V. do 3 f_equal. lia.
  - apply (cp_info ks src sp s (l_io l) (P x + V) SC (tc_mem _ _ _ _ C)); [|exact SR]. fold V. pose proof (zlen_nonneg es). fold V in P1. lia.
  - unfold P. rewrite (size_next ks es x src sp s He). fold V. lia.
  - exact R.
Qed.

Lemma P_mono : forall x, 0 <= x < n -> P x + V + 4 <= P (x + 1).
Proof.
  intros x Hx. destruct (zget_some es x Hx) as [[[src sp] s] He].
  destruct (range_at x src sp s He) as (Ht & _ & _ & _ & E & _).
  destruct (tc_elem _ _ _ _ C _ _ _ _ _ Ht He) as (SC & _). pose proof (sc_min _ _ _ _ SC). lia.
Qed.

Lemma P_le : forall x (y : nat), 0 <= x -> x + Z.of_nat y <= n -> P x <= P (x + Z.of_nat y).
Proof.
  intros x y Hx. induction y as [|y IH]; intros Hy; [rewrite Z.add_0_r; lia|].
  specialize (IH ltac:(lia)). pose proof (P_mono (x + Z.of_nat y) ltac:(lia)). pose proof (V_ge ks). fold V in H0.
  replace (x + Z.of_nat (S y)) with (x + Z.of_nat y + 1) by lia. lia.
Qed.

Lemma range_later : forall idx (c : nat) x dEnd, 0 <= idx < x -> x + Z.of_nat c <= n -> dEnd = P x ->
  range_loop k l idx (map (fun y => x + y) (zseq (Z.of_nat c))) (P idx) dEnd true =
    Ok (Some (P idx, P (x + Z.of_nat c), true)).
Proof.
  induction c as [|c IH]; intros x dEnd Hx Hc ->.
  - cbn. rewrite Z.add_0_r. reflexivity.
  - assert (E : map (fun y => x + y) (zseq (Z.of_nat (S c))) = x :: map (fun y => x + 1 + y) (zseq (Z.of_nat c))).
    { unfold zseq. rewrite !Nat2Z.id. cbn [seq map]. f_equal; [lia|]. rewrite <- seq_shift, !map_map. apply map_ext. intros; lia. }
    rewrite E. cbn [range_loop].
    destruct (zget_some es x ltac:(fold n; lia)) as [[[src sp] s] He].
    destruct (range_at x src sp s He) as (_ & _ & -> & EI & EP & _). cbn [bind].
    replace (x =? idx) with false by lia. cbn [andb].
    assert (P idx <= P x).
    { replace x with (idx + Z.of_nat (Z.to_nat (x - idx))) by lia. apply P_le; lia. }
    replace (P x <? P idx) with false by lia. rewrite EI. cbn [bind].
    pose proof (P_mono x ltac:(lia)). pose proof (V_ge ks). fold V in H1.
    replace (P x <? P x + V + s) with true by lia.
    rewrite (IH (x + 1) (P x + V + s)); try lia. do 4 f_equal. f_equal. lia.
Qed.

Lemma range_spec : forall i j, 0 <= i <= j -> j < n ->
  range_loop k l i (map (fun y => i + y) (zseq (j - i + 1))) (-1) (-1) true = Ok (Some (P i, P (j + 1), true)).
Proof.
  intros i j Hi Hj. replace (j - i + 1) with (Z.of_nat (S (Z.to_nat (j - i)))) by lia. set (c := Z.to_nat (j - i)).
  assert (E : map (fun y => i + y) (zseq (Z.of_nat (S c))) = i :: map (fun y => i + 1 + y) (zseq (Z.of_nat c))).
  { unfold zseq. rewrite !Nat2Z.id. cbn [seq map]. f_equal; [lia|]. rewrite <- seq_shift, !map_map. apply map_ext. intros; lia. }
  rewrite E. cbn [range_loop].
  destruct (zget_some es i ltac:(fold n; lia)) as [[[src sp] s] He].
  destruct (range_at i src sp s He) as (_ & _ & -> & EI & EP & _). cbn [bind].
  pose proof (V_ge ks) as HV. fold V in HV. pose proof (P_mono i ltac:(lia)).
  replace (i =? i) with true by lia. replace (P i + V =? P i) with false by lia. cbn [andb].
  replace (P i <? P i) with false by lia. rewrite EI. cbn [bind].
  assert (0 <= P i).
  { pose proof (P_le 0 (Z.to_nat i) ltac:(lia) ltac:(lia)) as X. replace (0 + Z.of_nat (Z.to_nat i)) with i in X by lia.
    unfold P at 1 in X. change (zfirst 0 es) with (@nil (base * Z * Z)) in X. cbn [appended_size] in X. pose proof (zlen_nonneg es). unfold n in *. lia. }
  replace (-1 <? P i + V + s) with true by lia.
  rewrite (range_later i c (i + 1) (P i + V + s)); try lia. do 4 f_equal. f_equal. unfold c. lia.
Qed.

Lemma part_step : forall i j, 0 <= i <= j -> j < n -> all_gapless ks es ->
  exists l', new_range k l i j = Ok (LOk l') /\ tinv l' (part es i j).
Proof.
  intros i j Hi Hj HG. pose proof (V_ge ks) as HV. fold V in HV.
  pose proof C as [C1 C2 C3 C4 C5 C6 C7 C8 C9]. pose proof (size_ge ks es (core_all ks _ _ _ C)) as HSZ. fold n in HSZ.
  set (cnt := j - i + 1). assert (LPt : zlen (part es i j) = cnt) by (apply zlen_part; auto).
  assert (CT : Forall contained (part es i j)).
  { apply Forall_zfirst, Forall_zskip. apply (core_all ks _ _ _ C). }
  assert (PP : forall y, 0 <= y <= cnt -> size (zfirst (i + y) es) = size (zfirst i es) + size (zfirst y (part es i j))).
  { intros y Hy. rewrite <- size_app. f_equal. apply (part_split _ es i j y); auto. }
  assert (PE : P (j + 1) = P i + (size (part es i j) - 4 * cnt)).
  { unfold P. replace (j + 1) with (i + cnt) by (unfold cnt; lia). rewrite (PP cnt) by lia.
    rewrite (zfirst_all (part es i j) cnt) by lia. lia. }
  assert (SZ : size (part es i j) <= size es).
  { pose proof (PP cnt ltac:(lia)) as X. rewrite (zfirst_all (part es i j) cnt) in X by lia.
    pose proof (size_nonneg _ (Forall_zfirst _ _ i _ (core_all ks _ _ _ C))).
    pose proof (size_nonneg _ (Forall_zskip _ _ (i + cnt) _ (core_all ks _ _ _ C))).
    assert (Y : size es = size (zfirst (i + cnt) es) + size (zskip (i + cnt) es)) by (rewrite <- size_app, zfirst_zskip; reflexivity).
    lia. }
  pose proof (size_ge ks _ CT) as HSP. rewrite LPt in HSP.
  assert (P0 : 4 + 4 * n <= P i).
  { pose proof (P_le 0 (Z.to_nat i) ltac:(lia) ltac:(lia)) as X. replace (0 + Z.of_nat (Z.to_nat i)) with i in X by lia.
    unfold P at 1 in X. change (zfirst 0 es) with (@nil (base * Z * Z)) in X. cbn [appended_size] in X. lia. }
  unfold new_range. replace ((j <? i) || (i <? 0)) with false by lia. fold cnt.
  rewrite (core_count ks _ _ _ l C eq_refl HP). fold n. cbn [bind]. replace (n <=? i) with false by lia. rewrite HP.
  set (o := fun x => match zget ts x with Some t => t - (4 + x * 4) | None => 0 end).
  rewrite (read_slots_ok (l_io l) 4 o).
  2: { intros x Hx. apply in_map_iff in Hx as (y & <- & Hy). apply zseq_in in Hy.
       destruct (zget_some ts (i + y) ltac:(rewrite C3; fold n; unfold cnt in Hy; lia)) as [t Ht]. unfold o. rewrite Ht. apply C7. exact Ht. }
  cbn [bind]. pose proof (range_spec i j Hi Hj) as RS. fold cnt in RS. rewrite RS. clear RS. cbn [bind].
  set (skip := (n - i - cnt) * 4 + (P i - (4 + n * 4))).
  set (p := write_slots _). assert (LP : zlen p = cnt * 4).
  { unfold p. rewrite zlen_write_slots, !zlen_map, zlen_zseq; unfold cnt; lia. }
  rewrite <- LP. rewrite u_first by (unfold cnt in *; lia). cbn [bind]. rewrite LP.
  set (b1 := set_diffs _ _).
  pose proof (core_dup ks _ _ _ C) as CD.
  pose proof CD as [K1 K2 K3 K4 K5 K6 K7 K8 K9]. fold n in K6, K9.
  replace (4 + cnt * 4) with (4 + 4 * cnt) by lia.
  assert (BS : Forall (beside (4 + 4 * n)) (b_diffs (base_dup (l_io l)))).
  { eapply Forall_impl; [|exact K6]. intros d. apply shp_beside. }
  assert (Hc : 1 <= cnt) by (unfold cnt; lia).
  destruct (copy_cells_behind b1 (base_dup (l_io l)) (4 + 4 * n) (P i) (P (j + 1) - P i) (4 + 4 * cnt)
              K1 ltac:(lia) BS K9 ltac:(lia) ltac:(lia) ltac:(change (gs_len (b_bytes b1)) with 4; lia))
    as (chunks & E4 & F4 & CK & R4).
  rewrite E4. cbn [bind].
  assert (UC : u32 cnt = cnt) by (unfold u32; change (2 ^ 32) with 4294967296; apply Z.mod_small; unfold cnt; lia).
  rewrite UC. set (b2 := set_diffs b1 _).
  set (bp := poke_head b2 cnt).
  assert (BP : sl_data (b_bytes bp) = le_encode 4 cnt).
  { unfold bp, poke_head. cbn [b_bytes gs_of sl_data]. apply copy_at_full. reflexivity. }
  assert (DP : b_diffs bp = [mkDiff 4 (gs_of p)] ++ chunks) by reflexivity.
  assert (LD : d_len (mkDiff 4 (gs_of p)) = 4 * cnt) by (unfold d_len, gs_len; cbn [d_sl gs_of sl_data]; lia).
  assert (SIZE : 4 + 4 * cnt + (P (j + 1) - P i) = 4 + size (part es i j)) by lia.
  rewrite SIZE in F4.
  assert (MP : in_memory bp).
  { split; [reflexivity|]. rewrite DP. constructor; [cbn [d_off]; lia|].
    eapply Forall_impl; [|exact F4]. cbv beta. intros d Hd. lia. }
  assert (SL : forall x t, 0 <= x < cnt -> zget ts (i + x) = Some t ->
    rd 4 bp (4 + x * 4) = Ok (t - P i + 4 + 4 * cnt - (4 + x * 4))).
  { intros x t Hx Ht.
    destruct (zget_some es (i + x) ltac:(fold n; unfold cnt in Hx; lia)) as [[[src sp] s] He].
    destruct (C8 _ _ _ _ _ Ht He) as (SC & Q1 & Q2 & Q3 & Q0 & Q4). fold n V in Q0. fold (P (i + x)) in Q0.
    pose proof (P_le i (Z.to_nat x) ltac:(lia) ltac:(unfold cnt in Hx; lia)) as X.
    replace (i + Z.of_nat (Z.to_nat x)) with (i + x) in X by lia. pose proof (sc_min _ _ _ _ SC).
    assert (B0 : 0 <= t - P i + 4 + 4 * cnt - (4 + x * 4) < 4294967296) by (unfold cnt in *; lia).
    rewrite (rd_delivers 4 bp _ (t - P i + 4 + 4 * cnt - (4 + x * 4)) ltac:(lia)); [f_equal; apply Z.mod_small; exact B0|].
    apply delivers_served; rewrite ?zlen_le_encode; auto; try lia. rewrite DP. apply served_apps; rewrite ?zlen_le_encode; try lia.
    { eapply Forall_impl; [|exact F4]. cbv beta. intros d Hd. right. change (Z.of_nat 4) with 4. lia. }
    unfold served. cbn [find_last]. replace (covers (4 + x * 4) (mkDiff 4 (gs_of p))) with true.
    2: { symmetry. apply covers_iff. rewrite LD. cbn [d_off]. lia. }
    rewrite LD. cbn [d_off]. rewrite zlen_le_encode. change (Z.of_nat 4) with 4. split; [lia|].
    replace (4 + x * 4 - 4) with (4 * x) by lia. unfold d_data. cbn [d_sl gs_of sl_data]. unfold p.
    rewrite (write_slots_get _ x (t - (4 + (i + x) * 4) - skip)).
    - unfold u32. change (2 ^ 32) with 4294967296. f_equal.
      replace (t - (4 + (i + x) * 4) - skip) with (t - P i + 4 + 4 * cnt - (4 + x * 4)) by (unfold skip; lia).
      apply Z.mod_small. exact B0.
    - rewrite !map_map, zget_map, zget_zseq by lia. cbn [option_map]. unfold o. rewrite Ht. reflexivity. }
  assert (CORE : tcore bp (part es i j) (map (fun t => t - P i + 4 + 4 * cnt) (part ts i j))).
  { assert (GT : forall y t', zget (map (fun t => t - P i + 4 + 4 * cnt) (part ts i j)) y = Some t' ->
      exists t, 0 <= y < cnt /\ zget ts (i + y) = Some t /\ t' = t - P i + 4 + 4 * cnt).
    { intros y t' Hy. pose proof (zget_some_range _ _ _ Hy) as R. rewrite zlen_map, zlen_part in R by (rewrite ?C3; auto).
      fold cnt in R. rewrite zget_map, zget_part in Hy by (rewrite ?C3; auto).
      destruct (zget ts (i + y)) as [t|]; [|discriminate]. exists t. cbn [option_map] in Hy. split; [exact R|]. split; [reflexivity|]. congruence. }
    constructor.
    - exact MP.
    - unfold gs_len. rewrite BP. apply zlen_le_encode.
    - rewrite zlen_map, zlen_part by (rewrite ?C3; auto). rewrite LPt. reflexivity.
    - lia.
    - rewrite LPt. apply delivers_served; rewrite ?zlen_le_encode; auto; try lia. rewrite DP, BP. unfold served.
      assert (NC : find_last (covers 0) ([mkDiff 4 (gs_of p)] ++ chunks) = None).
      { apply find_last_none_iff. intros d [<-|Hd].
        - unfold covers. cbn [d_off]. reflexivity.
        - rewrite Forall_forall in F4. specialize (F4 d Hd). unfold covers. lia. }
      rewrite NC. rewrite zlen_le_encode. change (Z.of_nat 4) with 4. split; [|split; [lia|]].
      + intros d [<-|Hd]; [right; cbn [d_off]; lia|]. rewrite Forall_forall in F4. specialize (F4 d Hd). lia.
      + rewrite zskip_0. apply zfirst_all. rewrite zlen_le_encode. lia.
    - rewrite LPt, DP. constructor.
      + left. exists 1, (cnt + 1). rewrite LD. cbn [d_off]. lia.
      + eapply Forall_impl; [|exact F4]. cbv beta. intros d Hd. right. lia.
    - intros y t' Hy. destruct (GT y t' Hy) as (t & HR & Ht & ->). apply SL; auto.
    - intros y t' src sp s Hy He. destruct (GT y t' Hy) as (t & HR & Ht & ->).
      pose proof He as He'. rewrite zget_part in He' by auto.
      destruct (K8 _ _ _ _ _ Ht He') as (SC & Q1 & Q2 & Q3 & Q0 & Q4). fold n V in Q0, Q1, Q4.
      assert (LAY : t - P i + 4 + 4 * cnt = 4 + 4 * zlen (part es i j) + (size (zfirst y (part es i j)) - 4 * y) + V).
      { rewrite LPt, Q0. rewrite (PP y) by lia. unfold P. lia. }
      destruct (layout_bounds (part es i j) y src sp s CT He) as (B1 & B2 & B3). rewrite <- LAY in B1, B2, B3.
      split; [exact SC|]. split; [exact B1|]. split; [exact B2|]. split; [exact B3|]. split; [exact LAY|].
      intros c q Hc1 Hc2 Hq HRd HD. fold V in Hc1.
      pose proof (P_le i (Z.to_nat y) ltac:(lia) ltac:(unfold cnt in HR; lia)) as X.
      replace (i + Z.of_nat (Z.to_nat y)) with (i + y) in X by lia. fold (P (i + y)) in Q0.
      apply delivers_served; auto; [lia|]. rewrite DP, BP.
      apply (served_poke _ (sl_data (b_bytes b1))); [rewrite zlen_le_encode; reflexivity|change (zlen (sl_data (b_bytes b1))) with 4; lia|exact Hq|].
      replace (t - P i + 4 + 4 * cnt + c) with (4 + 4 * cnt + (t + c - P i)) by lia.
      apply R4; try lia.
      + apply Q4; auto.
      + intros z Hz. apply (core_solid ks _ _ _ z CD HG). fold n. split; [lia|].
        destruct (layout_bounds es (i + y) src sp s (core_all ks _ _ _ C) He') as (_ & B5 & _). fold n in B5. unfold P in Q0. lia.
    - rewrite LPt, DP, tail_app, (tail_none cnt [_]) by (repeat constructor; cbn [d_off]; lia).
      cbn [app]. rewrite tail_all; [exact CK|]. eapply Forall_impl; [|exact F4]. cbv beta. intros d Hd. lia. }
  fold bp. rewrite (core_refresh ks (set_io init_list bp) _ _ CORE eq_refl).
  2: { intros _. reflexivity. }
  eexists. split; [reflexivity|]. apply (core_node ks _ _ _ _ CORE). reflexivity.
Qed.
End Range.

(** ** Every way to build a vector of tables *)

Lemma tinv_part : forall l es i j, tinv l es -> all_gapless ks es -> 0 <= i <= j -> j < zlen es ->
  exists l', new_range k l i j = Ok (LOk l') /\ tinv l' (part es i j).
Proof.
  intros l es i j I G Hi Hj. destruct (ti_core _ _ _ I) as [ts C].
  apply (part_step l es ts C (ti_pos _ _ _ I) i j Hi Hj G).
Qed.

Lemma tinv_add : forall l a A B, tinv l A -> tinv a B -> B <> nil -> all_gapless ks B -> size (A ++ B) < 4294967296 - 4 ->
  exists l' a', list_add k false l a = Ok (AOk l' a') /\ tinv l' (A ++ B) /\ shows_tables ks a' B.
Proof.
  intros l a A B IA IB NB GB HM. destruct (ti_core _ _ _ IA) as [ta CA]. destruct (ti_core _ _ _ IB) as [tb CB].
  unfold list_add. rewrite (core_root ks _ _ _ _ CA (ti_npos _ _ _ IA)). cbn [bind].
  unfold list_first. pose proof (core_first ks _ _ _ CB NB) as H0.
  destruct (core_at ks _ _ _ a 0 _ CB eq_refl (ti_pos _ _ _ IB) H0) as [-> _]. cbn [bind].
  destruct A as [|e A].
  - cbn [app]. unfold add_table_list. pose proof (nonempty_len ks B NB).
    rewrite (core_count ks _ _ _ a CB eq_refl (ti_pos _ _ _ IB)). cbn [bind]. replace (zlen B =? 0) with false by lia.
    rewrite (core_count ks _ _ _ l CA eq_refl (ti_pos _ _ _ IA)). cbn [bind]. change (zlen [] =? 0) with true. cbv iota.
    rewrite (tinv_dup ks a B IB). cbn [bind l_io l_pos].
    pose proof (core_dup ks _ _ _ CB) as C1. pose proof (core_dup ks _ _ _ C1) as C2.
    match goal with |- context [refresh k ?x] => rewrite (core_refresh ks x B _ C2 eq_refl) end.
    2: { lia. }
    cbn [bind l_io l_npos]. do 2 eexists. split; [reflexivity|]. split.
    + apply (core_node ks _ _ _ _ C2). apply (ti_npos _ _ _ IA).
    + apply tinv_shows. apply (core_node ks _ _ _ _ C1). apply (ti_npos _ _ _ IB).
  - apply join_step; auto. discriminate.
Qed.

Lemma add_empty : forall l a A, tinv l A -> tinv a nil -> list_add k false l a = Ok AErr.
Proof.
  intros l a A IA IB. destruct (ti_core _ _ _ IA) as [ta CA]. destruct (ti_core _ _ _ IB) as [tb CB].
  unfold list_add. rewrite (core_root ks _ _ _ _ CA (ti_npos _ _ _ IA)). cbn [bind]. unfold list_first.
  pose proof (core_count ks _ _ _ a CB eq_refl (ti_pos _ _ _ IB)) as HV.
  rewrite (at_outside k a _ 0 HV) by (change (zlen []) with 0; lia). reflexivity.
Qed.

Lemma built_inv : forall l es, built ks l es -> tinv l es /\ all_gapless ks es.
Proof.
  induction 1 as [|l es src sp s l' _ [I G] SC GS HM E|l es a fs l' a' _ [I1 G1] _ [I2 G2] HM E|l es i j l' _ [I G] Hi Hj E].
  - split; [apply tinv_init|constructor].
  - destruct (tinv_step ks l es src sp s I SC HM) as (l2 & E2 & I2). rewrite E in E2.
    assert (l2 = l') by congruence. subst l2. split; [exact I2|]. apply Forall_app; split; [exact G|].
    constructor; [exact GS|constructor].
  - destruct fs as [|f fs].
    + rewrite (add_empty l a es I1 I2) in E. discriminate.
    + destruct (tinv_add l a es (f :: fs) I1 I2 ltac:(discriminate) G2 HM) as (l2 & a2 & E2 & I3 & _).
      rewrite E in E2. assert (l2 = l') by congruence. subst l2. split; [exact I3|]. apply Forall_app; split; auto.
  - destruct (tinv_part l es i j I G Hi Hj) as (l2 & E2 & I2). rewrite E in E2.
    assert (l2 = l') by congruence. subst l2. split; [exact I2|]. apply Forall_zfirst, Forall_zskip. exact G.
Qed.

Lemma built_shows : forall l es, built ks l es -> shows_tables ks l es.
Proof. intros l es H. apply tinv_shows. apply built_inv. exact H. Qed.

Lemma built_add : forall l a es fs, built ks l es -> built ks a fs -> fs <> nil -> size (es ++ fs) < 2 ^ 32 - 4 ->
  exists l' a', list_add k false l a = Ok (AOk l' a') /\ built ks l' (es ++ fs) /\
    shows_tables ks l' (es ++ fs) /\ shows_tables ks a' fs.
Proof.
  intros l a es fs H1 H2 HN HM. destruct (built_inv _ _ H1) as [I1 G1], (built_inv _ _ H2) as [I2 G2].
  destruct (tinv_add l a es fs I1 I2 HN G2 HM) as (l' & a' & E & I & S). exists l', a'.
  split; [exact E|]. split; [eapply B_add; eauto|]. split; [apply tinv_shows; exact I|exact S].
Qed.

Lemma built_part : forall l es i j, built ks l es -> 0 <= i <= j -> j < zlen es ->
  exists l', new_range k l i j = Ok (LOk l') /\ built ks l' (part es i j) /\ shows_tables ks l' (part es i j).
Proof.
  intros l es i j H Hi Hj. destruct (built_inv _ _ H) as [I G].
  destruct (tinv_part l es i j I G Hi Hj) as (l' & E & I'). exists l'.
  split; [exact E|]. split; [eapply B_part; eauto|]. apply tinv_shows; exact I'.
Qed.

Lemma built_append : forall l es src sp s, built ks l es -> self_contained ks src sp s -> gapless ks src sp s ->
  size (es ++ [(src, sp, s)]) < 2 ^ 32 - 4 ->
  exists l', set_at k l (zlen es) src sp (-1) = Ok (LOk l') /\ built ks l' (es ++ [(src, sp, s)]).
Proof.
  intros l es src sp s H SC GS HM. destruct (built_inv _ _ H) as [I G].
  destruct (tinv_step ks l es src sp s I SC HM) as (l' & E & _). exists l'. split; [exact E|]. eapply B_append; eauto.
Qed.
End Tables.
