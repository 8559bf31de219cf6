(** Parts of vectors whose tables lie in any order. *)
From Coq Require Import ZArith List Bool Lia.
From Coq Require Import Strings.Byte.
From Verif Require Import GoLib BaseModel GoLemmas BaseSpec BaseProofs BaseProofs2 BaseProofs3.
From Verif Require Import TableModel TableSpec TableProofs TableProofs2 ListModel ListSpec.
From Verif Require Import ListProofs ListProofs2 ListProofs3 ListProofs4 ListProofs5.
From Verif Require Import AddModel AddSpec AddProofs AddProofs2 AddProofs3 AddProofs4 AddProofs5 AddProofs7 AddProofs9.
Import ListNotations.
Open Scope Z_scope.

(** ** Refreshing a node of which every element can be read *)

Section Refresh.
Variables (ks : list fkind) (l : lnode) (ts : list (Z * Z)).
Hypothesis HV : list_vlen l = Ok (zlen ts).
Hypothesis HA : forall x t s, zget ts x = Some (t, s) -> list_at (ETable ks) l x = Ok (Some t) /\
  elem_info (ETable ks) (l_io l) t = Ok (Some s).

Lemma any_at : forall x, list_at (ETable ks) l x = Ok None \/
  exists t s, list_at (ETable ks) l x = Ok (Some t) /\ elem_info (ETable ks) (l_io l) t = Ok (Some s).
Proof.
  intros x. destruct (zget ts x) as [[t s]|] eqn:E.
  - right. exists t, s. apply (HA x). exact E.
  - left. apply zget_none_range in E. apply (at_outside _ l (zlen ts)); auto; lia.
Qed.

Lemma any_select : forall is, exists ps, select_loop (ETable ks) l (fun _ => true) is = Ok ps /\
  forall p, In p ps -> exists s, elem_info (ETable ks) (l_io l) p = Ok (Some s).
Proof.
  induction is as [|x is (ps & E & H)]; [exists nil; split; [reflexivity|intros ? []]|]. cbn [select_loop].
  destruct (any_at x) as [->|(t & s & -> & EI)]; cbn [bind]; rewrite E; cbn [bind].
  - eauto.
  - eexists. split; [reflexivity|]. intros p [<-|Hp]; eauto.
Qed.

Lemma any_max : forall ps i best pos, (forall p, In p ps -> exists s, elem_info (ETable ks) (l_io l) p = Ok (Some s)) ->
  exists r, max_pos_loop (ETable ks) (l_io l) ps i best pos = Ok (Some r).
Proof.
  induction ps as [|p ps IH]; intros i best pos H; cbn [max_pos_loop]; [eauto|].
  destruct (H p (or_introl eq_refl)) as [s ->]. cbn [bind].
  destruct (_ || _); apply IH; intros q Hq; apply H; right; exact Hq.
Qed.

Lemma any_refresh : exists z, refresh (ETable ks) l = Ok (LOk (mkL (l_io l) (l_npos l) (l_pos l) (zlen ts) z)).
Proof.
  unfold refresh, info_slice, list_last, index_on_max_pos, list_all, list_select. rewrite HV. cbn [bind].
  destruct (any_select (zseq (l_vlen l))) as (ps & -> & HP). cbn [bind].
  destruct (any_max ps 0 (-1) 0 HP) as [r Er].
  destruct (any_at (zlen ts - 1)) as [->|(t & s & -> & EI)]; cbn [bind]; rewrite ?EI; cbn [bind option_map];
    rewrite Er; cbn [bind];
    (destruct (any_at r) as [->|(t2 & s2 & -> & EI2)]; cbn [bind]; rewrite ?EI2; cbn [bind]; eexists; reflexivity).
Qed.
End Refresh.

(** ** The part *)

Section Any.
Variables (ks : list fkind) (l : lnode) (es : list (Z * Z)).
Notation k := (ETable ks).
Let V := vtable_size ks.
Let n := zlen es.
Let L := gs_len (b_bytes (l_io l)).
Hypothesis LF : lies_flat ks l es.

Lemma any_elem : forall x p s, zget es x = Some (p, s) ->
  list_at k l x = Ok (Some p) /\ at_with_begin k l x = Ok (Some (p, p - V)) /\
  elem_info k (l_io l) p = Ok (Some s) /\ l_pos l + 4 * n <= p - V /\ p + s <= L /\ 4 <= s /\
  self_contained ks (l_io l) p s /\ rd 4 (l_io l) (l_pos l + x * 4) = Ok (p - (l_pos l + x * 4)).
Proof.
  intros x p s E. destruct LF as (F & HP & HV & HL & HE). destruct (HE x p s E) as (HR & SC & H1 & H2).
  pose proof (zget_some_range _ _ _ E) as R.
  assert (HA : list_at k l x = Ok (Some p)).
  { apply (cp_at ks (l_io l) p s (l_io l) p SC) with (n := zlen es); auto.
    intros j q _ _ _ _ D. exact D. }
  split; [exact HA|]. split.
  - unfold at_with_begin. rewrite HA. cbn [bind]. rewrite (sc_vlen _ _ _ _ SC). reflexivity.
  - split; [apply (sc_size _ _ _ _ SC)|]. fold V in H1. fold n in H1. fold L in H2.
    split; [exact H1|]. split; [exact H2|]. split; [apply (sc_min _ _ _ _ SC)|]. split; assumption.
Qed.

Lemma any_loop : forall idx (c : nat) x dS dE, 0 <= idx < x -> x + Z.of_nat c <= n ->
  exists dS' dE', range_loop k l idx (map (fun y => x + y) (zseq (Z.of_nat c))) dS dE true = Ok (Some (dS', dE', true)) /\
    dS' <= dS /\ dE <= dE' /\ (l_pos l + 4 * n <= dS -> l_pos l + 4 * n <= dS') /\ (dE <= L -> dE' <= L) /\
    forall y p s, x <= y < x + Z.of_nat c -> zget es y = Some (p, s) -> dS' <= p - V /\ p + s <= dE'.
Proof.
  induction c as [|c IH]; intros x dS dE Hx Hc.
  - exists dS, dE. cbn. repeat split; auto; lia.
  - assert (E : map (fun y => x + y) (zseq (Z.of_nat (S c))) = x :: map (fun y => x + 1 + y) (zseq (Z.of_nat c))).
    { unfold zseq. rewrite !Nat2Z.id. cbn [seq map]. f_equal; [lia|]. rewrite <- seq_shift, !map_map. apply map_ext. intros; lia. }
    rewrite E. cbn [range_loop].
    destruct (zget_some es x ltac:(fold n; lia)) as [[p s] He].
    destruct (any_elem x p s He) as (_ & -> & EI & H1 & H2 & H3 & _). cbn [bind].
    replace (x =? idx) with false by lia. cbn [andb]. rewrite EI. cbn [bind].
    destruct (IH (x + 1) (if p - V <? dS then p - V else dS) (if dE <? p + s then p + s else dE) ltac:(lia) ltac:(lia))
      as (dS' & dE' & -> & A1 & A2 & A3 & A4 & A5).
    exists dS', dE'. split; [reflexivity|].
    destruct (p - V <? dS) eqn:B1; destruct (dE <? p + s) eqn:B2; repeat split; try lia;
      (destruct (Z.eq_dec y x) as [->|NE]; [assert (p0 = p /\ s0 = s) as [-> ->] by (split; congruence); lia|
        apply (A5 y p0 s0); [lia|assumption]]).
Qed.

Lemma any_range : forall i j, 0 <= i <= j -> j < n ->
  exists dS dE, range_loop k l i (map (fun y => i + y) (zseq (j - i + 1))) (-1) (-1) true = Ok (Some (dS, dE, true)) /\
    l_pos l + 4 * n <= dS /\ dS <= dE /\ dE <= L /\
    forall y p s, i <= y <= j -> zget es y = Some (p, s) -> dS <= p - V /\ p + s <= dE.
Proof.
  intros i j Hi Hj. replace (j - i + 1) with (Z.of_nat (S (Z.to_nat (j - i)))) by lia. set (c := Z.to_nat (j - i)).
  assert (E : map (fun y => i + y) (zseq (Z.of_nat (S c))) = i :: map (fun y => i + 1 + y) (zseq (Z.of_nat c))).
  { unfold zseq. rewrite !Nat2Z.id. cbn [seq map]. f_equal; [lia|]. rewrite <- seq_shift, !map_map. apply map_ext. intros; lia. }
  rewrite E. cbn [range_loop].
  destruct (zget_some es i ltac:(fold n; lia)) as [[p s] He].
  destruct (any_elem i p s He) as (_ & -> & EI & H1 & H2 & H3 & SC & _). cbn [bind].
  pose proof (V_ge ks) as HV. fold V in HV. destruct LF as (_ & HP & _).
  replace (i =? i) with true by lia. replace (p =? p - V) with false by lia. cbn [andb].
  replace (p - V <? p - V) with false by lia. rewrite EI. cbn [bind].
  replace (-1 <? p + s) with true by lia.
  destruct (any_loop i c (i + 1) (p - V) (p + s) ltac:(lia) ltac:(lia)) as (dS & dE & -> & A1 & A2 & A3 & A4 & A5).
  exists dS, dE. split; [reflexivity|]. split; [auto|]. split; [lia|]. split; [auto|].
  intros y p0 s0 Hy E0. destruct (Z.eq_dec y i) as [->|NE].
  - assert (p0 = p /\ s0 = s) as [-> ->] by (split; congruence). lia.
  - apply (A5 y p0 s0); [lia|assumption].
Qed.

Lemma any_part : forall i j, 0 <= i <= j -> j < n ->
  exists l', new_range k l i j = Ok (LOk l') /\
    shows_tables ks l' (map (fun e => (l_io l, fst e, snd e)) (part es i j)).
Proof.
  intros i j Hi Hj. pose proof LF as (F & HP & HVL & HL & _). fold n in HVL. change (2 ^ 32) with 4294967296 in HL. fold L in HL.
  pose proof (V_ge ks) as HV. fold V in HV. set (cnt := j - i + 1).
  unfold new_range. replace ((j <? i) || (i <? 0)) with false by lia. fold cnt.
  rewrite HVL. cbn [bind]. replace (n <=? i) with false by lia.
  set (o := fun x => match zget es x with Some (p, _) => p - (l_pos l + x * 4) | None => 0 end).
  rewrite (read_slots_ok (l_io l) (l_pos l) o).
  2: { intros x Hx. apply in_map_iff in Hx as (y & <- & Hy). apply zseq_in in Hy.
       destruct (zget_some es (i + y) ltac:(fold n; unfold cnt in Hy; lia)) as [[p s] E]. unfold o. rewrite E.
       apply (any_elem (i + y) p s E). }
  cbn [bind]. destruct (any_range i j Hi Hj) as (dS & dE & RS & B1 & B2 & B3 & B4). fold cnt in RS. rewrite RS. clear RS. cbn [bind].
  assert (Hc : 1 <= cnt) by (unfold cnt; lia).
  set (skip := (n - i - cnt) * 4 + (dS - (l_pos l + n * 4))).
  set (p := write_slots _). assert (LP : zlen p = cnt * 4).
  { unfold p. rewrite zlen_write_slots, !zlen_map, zlen_zseq; lia. }
  rewrite <- LP. rewrite u_first by lia. cbn [bind]. rewrite LP.
  set (b1 := set_diffs _ _).
  assert (FD : flat (base_dup (l_io l))).
  { destruct F as [_ E]. split; [reflexivity|]. cbn [base_dup b_diffs]. rewrite E. reflexivity. }
  assert (CE : no_inner_start (b_diffs (base_dup (l_io l)))) by (destruct FD as [_ ->]; apply clean_nil).
  replace (4 + cnt * 4) with (4 + 4 * cnt) by lia.
  destruct (copy_cells b1 (base_dup (l_io l)) dS (dE - dS) (4 + 4 * cnt) (flat_in_memory _ FD) CE
              ltac:(lia) ltac:(lia) ltac:(change (gs_len (b_bytes b1)) with 4; lia)) as (chunks & E4 & F4 & R4).
  rewrite E4. cbn [bind].
  assert (UC : u32 cnt = cnt).
  { unfold u32. change (2 ^ 32) with 4294967296. apply Z.mod_small. destruct (zget_some es i ltac:(fold n; lia)) as [[p0 s0] E].
    destruct (any_elem i p0 s0 E) as (_ & _ & _ & X1 & X2 & X3 & _). unfold cnt. lia. }
  rewrite UC. set (bp := poke_head _ cnt).
  assert (BP : sl_data (b_bytes bp) = le_encode 4 cnt).
  { unfold bp, poke_head. cbn [b_bytes gs_of sl_data]. apply copy_at_full. reflexivity. }
  assert (DP : b_diffs bp = [mkDiff 4 (gs_of p)] ++ chunks) by reflexivity.
  assert (LD : d_len (mkDiff 4 (gs_of p)) = 4 * cnt) by (unfold d_len, gs_len; cbn [d_sl gs_of sl_data]; lia).
  assert (MP : in_memory bp).
  { split; [reflexivity|]. rewrite DP. constructor; [cbn [d_off]; lia|].
    eapply Forall_impl; [|exact F4]. cbv beta. intros d Hd. lia. }
  assert (LN : cnt < 4294967296 /\ 4 * n <= L).
  { destruct (zget_some es i ltac:(fold n; lia)) as [[p0 s0] E].
    destruct (any_elem i p0 s0 E) as (_ & _ & _ & X1 & X2 & X3 & _). unfold cnt. lia. }
  assert (CNT : delivers bp 0 (le_encode 4 cnt)).
  { apply delivers_served; rewrite ?zlen_le_encode; auto; try lia. rewrite DP, BP. unfold served.
    assert (NC : find_last (covers 0) ([mkDiff 4 (gs_of p)] ++ chunks) = None).
    { apply find_last_none_iff. intros d [<-|Hd]; [reflexivity|].
      rewrite Forall_forall in F4. specialize (F4 d Hd). unfold covers. lia. }
    rewrite NC. rewrite zlen_le_encode. change (Z.of_nat 4) with 4. split; [|split; [lia|]].
    - intros d [<-|Hd]; [right; cbn [d_off]; lia|]. rewrite Forall_forall in F4. specialize (F4 d Hd). lia.
    - rewrite zskip_0. apply zfirst_all. rewrite zlen_le_encode. lia. }
  assert (HV2 : forall np z v, list_vlen (mkL bp np 4 v z) = Ok cnt).
  { intros. unfold list_vlen. cbn [l_io l_pos]. change (4 - 4) with 0. rewrite (rd_delivers 4 bp 0 cnt ltac:(lia) CNT).
    f_equal. apply Z.mod_small. change (256 ^ Z.of_nat 4) with 4294967296. lia. }
  assert (SL : forall y p0 s0, 0 <= y < cnt -> zget es (i + y) = Some (p0, s0) ->
    rd 4 bp (4 + y * 4) = Ok (p0 - dS + 4 + 4 * cnt - (4 + y * 4))).
  { intros y p0 s0 Hy He. destruct (any_elem (i + y) p0 s0 He) as (_ & _ & _ & X1 & X2 & X3 & _).
    destruct (B4 (i + y) p0 s0 ltac:(unfold cnt in Hy; lia) He) as [X4 X5].
    assert (B0 : 0 <= p0 - dS + 4 + 4 * cnt - (4 + y * 4) < 4294967296) by (unfold cnt in *; lia).
    rewrite (rd_delivers 4 bp _ (p0 - dS + 4 + 4 * cnt - (4 + y * 4)) ltac:(lia)); [f_equal; apply Z.mod_small; exact B0|].
    apply delivers_served; rewrite ?zlen_le_encode; auto; try lia. rewrite DP. apply served_apps; rewrite ?zlen_le_encode; try lia.
    { eapply Forall_impl; [|exact F4]. cbv beta. intros d Hd. right. change (Z.of_nat 4) with 4. lia. }
    unfold served. cbn [find_last]. replace (covers (4 + y * 4) (mkDiff 4 (gs_of p))) with true.
    2: { symmetry. apply covers_iff. rewrite LD. cbn [d_off]. lia. }
    rewrite LD. cbn [d_off]. rewrite zlen_le_encode. change (Z.of_nat 4) with 4. split; [lia|].
    replace (4 + y * 4 - 4) with (4 * y) by lia. unfold d_data. cbn [d_sl gs_of sl_data]. unfold p.
    rewrite (write_slots_get _ y (p0 - (l_pos l + (i + y) * 4) - skip)).
    - unfold u32. change (2 ^ 32) with 4294967296. f_equal.
      replace (p0 - (l_pos l + (i + y) * 4) - skip) with (p0 - dS + 4 + 4 * cnt - (4 + y * 4)) by (unfold skip; lia).
      apply Z.mod_small. exact B0.
    - rewrite !map_map, zget_map, zget_zseq by lia. cbn [option_map]. unfold o. rewrite He. reflexivity. }
  assert (SR : forall y p0 s0, 0 <= y < cnt -> zget es (i + y) = Some (p0, s0) ->
    same_reads (l_io l) p0 bp (p0 - dS + 4 + 4 * cnt) (- V) s0).
  { intros y p0 s0 Hy He c q Hc1 Hc2 Hq _ HD.
    destruct (any_elem (i + y) p0 s0 He) as (_ & _ & _ & X1 & X2 & X3 & _).
    destruct (B4 (i + y) p0 s0 ltac:(unfold cnt in Hy; lia) He) as [X4 X5].
    apply delivers_served; auto; [lia|]. rewrite DP, BP.
    apply (served_poke _ (sl_data (b_bytes b1))); [rewrite zlen_le_encode; reflexivity|change (zlen (sl_data (b_bytes b1))) with 4; lia|exact Hq|].
    replace (p0 - dS + 4 + 4 * cnt + c) with (4 + 4 * cnt + (p0 + c - dS)) by lia.
    apply R4; try lia.
    - apply dup_delivers; auto using flat_in_memory. lia.
    - intros z Hz. rewrite flat_content by exact FD. unfold img_bytes. cbn [base_dup b_bytes gs_of sl_data].
      destruct (zget_some (sl_data (b_bytes (l_io l))) z) as [v ->]; [|discriminate].
      unfold L, gs_len in *. lia. }
  set (ts := map (fun e => (fst e - dS + 4 + 4 * cnt, snd e)) (part es i j)).
  assert (LT : zlen ts = cnt) by (unfold ts; rewrite zlen_map; apply zlen_part; auto).
  assert (AT : forall np z v y p0 s0, 0 <= y < cnt -> zget es (i + y) = Some (p0, s0) ->
    list_at k (mkL bp np 4 v z) y = Ok (Some (p0 - dS + 4 + 4 * cnt)) /\
    elem_info k bp (p0 - dS + 4 + 4 * cnt) = Ok (Some s0)).
  { intros np z v y p0 s0 Hy He.
    destruct (any_elem (i + y) p0 s0 He) as (_ & _ & _ & X1 & X2 & X3 & SC & _).
    destruct (B4 (i + y) p0 s0 ltac:(unfold cnt in Hy; lia) He) as [X4 X5]. pose proof (SR y p0 s0 Hy He) as S.
    split.
    - apply (cp_at ks (l_io l) p0 s0 bp _ SC) with (n := cnt); auto.
      cbn [l_pos]. apply (SL y p0 s0 Hy He).
    - apply (cp_info ks (l_io l) p0 s0 bp _ SC MP); [fold V; lia|exact S]. }
  assert (GT : forall y t s, zget ts y = Some (t, s) -> exists p0, 0 <= y < cnt /\ zget es (i + y) = Some (p0, s) /\
     t = p0 - dS + 4 + 4 * cnt).
  { intros y t s E. pose proof (zget_some_range _ _ _ E) as R. rewrite LT in R. unfold ts in E.
    rewrite zget_map, zget_part in E by auto. destruct (zget es (i + y)) as [[p0 s0]|]; [|discriminate].
    cbn [option_map fst snd] in E. exists p0. split; [exact R|]. split; congruence. }
  destruct (any_refresh ks (set_io init_list bp) ts) as [z EZ].
  { rewrite LT. apply HV2. }
  { intros y t s E. destruct (GT y t s E) as (p0 & Hy & He & ->). apply (AT (l_npos init_list) (l_size init_list) (l_vlen init_list) y p0 s Hy He). }
  rewrite EZ. eexists. split; [reflexivity|]. cbn [set_io l_io l_npos l_pos init_list]. rewrite LT.
  split.
  - rewrite HV2, zlen_map, zlen_part by auto. reflexivity.
  - intros y src sp s E. pose proof (zget_some_range _ _ _ E) as R. rewrite zlen_map, zlen_part in R by auto. fold cnt in R.
    rewrite zget_map, zget_part in E by auto. destruct (zget es (i + y)) as [[p0 s0]|] eqn:He; [|discriminate].
    cbn [option_map fst snd] in E. assert (src = l_io l /\ sp = p0 /\ s = s0) as (-> & -> & ->) by (repeat split; congruence).
    exists (p0 - dS + 4 + 4 * cnt).
    destruct (any_elem (i + y) p0 s0 He) as (_ & _ & _ & X1 & X2 & X3 & SC & _).
    destruct (B4 (i + y) p0 s0 ltac:(unfold cnt in R; lia) He) as [X4 X5].
    split; [apply (AT _ _ _ y p0 s0 R He)|]. split; [apply (SR y p0 s0 R He)|].
    intros f Hf. apply (cp_entry ks (l_io l) p0 s0 bp _ SC MP); [fold V; lia|apply (SR y p0 s0 R He)|exact Hf].
Qed.
End Any.

(** ** A vector whose second table is stored before the first *)

Definition descending_bytes : list byte :=
  [x02; x00; x00; x00;  x20; x00; x00; x00;  x0c; x00; x00; x00;
   x08; x00; x08; x00; x04; x00; x00; x00;  x08; x00; x00; x00; x09; x00; x00; x00;
   x08; x00; x08; x00; x04; x00; x00; x00;  x08; x00; x00; x00; x07; x00; x00; x00].
Definition descending : lnode := mkL (new_base (gs_of descending_bytes)) 0 4 2 40.

Lemma descending_table : forall p, p = 20 \/ p = 36 -> self_contained slim (l_io descending) p 8.
Proof.
  intros p Hp. constructor.
  - split; [reflexivity|constructor].
  - apply clean_nil.
  - change (vtable_size slim) with 8. lia.
  - destruct Hp as [->| ->]; vm_compute; reflexivity.
  - destruct Hp as [->| ->]; vm_compute; reflexivity.
  - exists 8. destruct Hp as [->| ->]; vm_compute; reflexivity.
  - change (zlen slim) with 2. change (vtable_size slim) with 8. intros i Hi. assert (i = 0 \/ i = 1) as Hi2 by lia.
    destruct Hp as [->| ->], Hi2 as [->| ->]; eexists; vm_compute; reflexivity.
  - destruct Hp as [->| ->]; vm_compute; reflexivity.
  - lia.
  - change (vtable_size slim) with 8. intros j Hj.
    assert (K : forallb (fun z => match peek (l_io descending) z with Ok (Some _) => true | _ => false end) (zseq 44) = true)
      by (vm_compute; reflexivity).
    rewrite forallb_forall in K. specialize (K j). rewrite zseq_in in K. specialize (K ltac:(lia)). unfold readable.
    destruct (peek _ j) as [[x|]| |]; try discriminate. exists x. reflexivity.
Qed.

Lemma descending_part : lies_flat slim descending [(36, 8); (20, 8)] /\ exists l,
  new_range (ETable slim) descending 0 1 = Ok (LOk l) /\
  map (first_of slim 4 l) (zseq 2) = map (fun v => Ok (Some [v; x00; x00; x00])) [x07; x09].
Proof.
  split.
  - split; [split; reflexivity|]. split; [cbn; lia|]. split; [vm_compute; reflexivity|]. split; [vm_compute; reflexivity|].
    intros x p s E. pose proof (zget_some_range _ _ _ E) as R. change (zlen [(36, 8); (20, 8)]) with 2 in R.
    assert (x = 0 \/ x = 1) as [->| ->] by lia;
      [assert (p = 36 /\ s = 8) as [-> ->] by (split; vm_compute in E; congruence)
      |assert (p = 20 /\ s = 8) as [-> ->] by (split; vm_compute in E; congruence)];
      (split; [vm_compute; reflexivity|]; split; [apply descending_table; lia|]; split; vm_compute; discriminate).
  - match eval vm_compute in (new_range (ETable slim) descending 0 1) with Ok (LOk ?l) => exists l end.
    split; [vm_compute; reflexivity|vm_compute; reflexivity].
Qed.
