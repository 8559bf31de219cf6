(** Parts of vectors whose elements are stored inline, and counterexamples. *)
From Coq Require Import ZArith List Bool Lia.
From Coq Require Import Strings.Byte.
From Verif Require Import GoLib BaseModel GoLemmas BaseSpec BaseProofs BaseProofs2 BaseProofs3.
From Verif Require Import TableModel TableSpec TableProofs TableProofs2 ListModel ListSpec.
From Verif Require Import ListProofs ListProofs2 ListProofs3 ListProofs4 ListProofs5.
From Verif Require Import AddModel AddSpec AddProofs AddProofs2 AddProofs3 AddProofs4 AddProofs5.
Import ListNotations.
Open Scope Z_scope.

Lemma flat_delivers : forall b c q, flat b -> 0 <= c -> 1 <= zlen q -> c + zlen q <= gs_len (b_bytes b) ->
  q = zfirst (zlen q) (zskip c (sl_data (b_bytes b))) -> delivers b c q.
Proof.
  intros b c q F Hc Hq HL HE. apply delivers_served; auto using flat_in_memory.
  destruct F as [_ ->]. unfold served. cbn [find_last]. split; [intros ? []|]. unfold gs_len in HL. split; [exact HL|auto].
Qed.

Lemma u_zero : forall n, 1 <= n ->
  base_u (l_io init_list) 4 n nil = Ok (set_diffs (l_io init_list) [mkDiff 4 (gs_of (zeros n))]).
Proof.
  intros n Hn. unfold base_u. replace (n <? 0) with false by lia. change (zlen []) with 0. replace (n <? 0) with false by lia.
  assert (E : copy_at (zeros n) 0 [] = zeros n).
  { unfold copy_at. change (zlen []) with 0. rewrite Z.add_0_l, zskip_0. unfold zfirst. rewrite firstn_nil. reflexivity. }
  rewrite E. reflexivity.
Qed.

Section Fixed.
Variables (k : ekind) (size : Z) (l : lnode) (n : Z).
Hypothesis HS : fixed_size k = Some size.
Hypothesis Hsize : 4 <= size.
Hypothesis F : flat (l_io l).
Hypothesis HP : 4 <= l_pos l.
Hypothesis HV : list_vlen l = Ok n.
Hypothesis HL : l_pos l + n * size <= gs_len (b_bytes (l_io l)).

Lemma fixed_begin : forall x, 0 <= x < n ->
  at_with_begin k l x = Ok (Some (l_pos l + x * size, l_pos l + x * size)).
Proof.
  intros x Hx. unfold at_with_begin. rewrite (at_fixed k l n size x HV HS Hx). cbn [bind].
  destruct k; [reflexivity|reflexivity|discriminate].
Qed.

Lemma fixed_info : forall p, elem_info k (l_io l) p = Ok (Some size).
Proof. intros p. destruct k; cbn in *; try discriminate; congruence. Qed.

Lemma fixed_later : forall idx (c : nat) x, 0 <= idx < x -> x + Z.of_nat c <= n ->
  range_loop k l idx (map (fun y => x + y) (zseq (Z.of_nat c))) (l_pos l + idx * size) (l_pos l + x * size) false =
    Ok (Some (l_pos l + idx * size, l_pos l + (x + Z.of_nat c) * size, false)).
Proof.
  induction c as [|c IH]; intros x Hx Hc.
  - cbn. rewrite Z.add_0_r. reflexivity.
  - assert (E : map (fun y => x + y) (zseq (Z.of_nat (S c))) = x :: map (fun y => x + 1 + y) (zseq (Z.of_nat c))).
    { unfold zseq. rewrite !Nat2Z.id. cbn [seq map]. f_equal; [lia|]. rewrite <- seq_shift, !map_map. apply map_ext. intros; lia. }
    rewrite E. cbn [range_loop]. rewrite (fixed_begin x ltac:(lia)). cbn [bind].
    replace (x =? idx) with false by lia. cbn [andb].
    replace (l_pos l + x * size <? l_pos l + idx * size) with false by nia.
    rewrite fixed_info. cbn [bind]. replace (l_pos l + x * size <? l_pos l + x * size + size) with true by lia.
    replace (l_pos l + x * size + size) with (l_pos l + (x + 1) * size) by lia.
    rewrite (IH (x + 1)) by lia. do 4 f_equal. f_equal. f_equal. lia.
Qed.

Lemma fixed_range : forall i j, 0 <= i <= j -> j < n ->
  range_loop k l i (map (fun y => i + y) (zseq (j - i + 1))) (-1) (-1) true =
    Ok (Some (l_pos l + i * size, l_pos l + (j + 1) * size, false)).
Proof.
  intros i j Hi Hj. replace (j - i + 1) with (Z.of_nat (S (Z.to_nat (j - i)))) by lia. set (c := Z.to_nat (j - i)).
  assert (E : map (fun y => i + y) (zseq (Z.of_nat (S c))) = i :: map (fun y => i + 1 + y) (zseq (Z.of_nat c))).
  { unfold zseq. rewrite !Nat2Z.id. cbn [seq map]. f_equal; [lia|]. rewrite <- seq_shift, !map_map. apply map_ext. intros; lia. }
  rewrite E. cbn [range_loop]. rewrite (fixed_begin i ltac:(lia)). cbn [bind].
  replace (i =? i) with true by lia. replace (l_pos l + i * size =? l_pos l + i * size) with true by lia. cbn [andb].
  replace (l_pos l + i * size <? l_pos l + i * size) with false by lia. rewrite fixed_info. cbn [bind].
  replace (-1 <? l_pos l + i * size + size) with true by nia.
  replace (l_pos l + i * size + size) with (l_pos l + (i + 1) * size) by lia.
  rewrite (fixed_later i c (i + 1)) by lia. do 4 f_equal. f_equal. f_equal. unfold c. lia.
Qed.

Lemma fixed_part : forall i j, 0 <= i <= j -> j < n -> j - i + 1 < 2 ^ 32 ->
  exists l', new_range k l i j = Ok (LOk l') /\ list_vlen l' = Ok (j - i + 1) /\
    forall y, 0 <= y < j - i + 1 -> read_elem k l' y size = read_elem k l (i + y) size /\
      read_elem k l' y size <> Ok None.
Proof.
  intros i j Hi Hj HM. change (2 ^ 32) with 4294967296 in HM. set (cnt := j - i + 1).
  unfold new_range. replace ((j <? i) || (i <? 0)) with false by lia. fold cnt.
  rewrite HV. cbn [bind]. replace (n <=? i) with false by lia.
  assert (RS : exists os, read_slots (l_io l) (l_pos l) (map (fun y => i + y) (zseq cnt)) = Ok os).
  { assert (H : forall is, (forall x, In x is -> 0 <= x < n) -> exists os, read_slots (l_io l) (l_pos l) is = Ok os).
    { induction is as [|x is IH]; intros H; [eexists; reflexivity|]. cbn [read_slots].
      destruct (IH (fun y Hy => H y (or_intror Hy))) as [os ->]. specialize (H x (or_introl eq_refl)).
      set (q := zfirst 4 (zskip (l_pos l + x * 4) (sl_data (b_bytes (l_io l))))).
      assert (LQ : zlen q = 4) by (unfold q; rewrite zlen_zfirst, zlen_zskip; unfold gs_len in HL; nia).
      assert (D : delivers (l_io l) (l_pos l + x * 4) q).
      { apply flat_delivers; auto; try lia; [unfold gs_len in *; nia|]. rewrite LQ. reflexivity. }
      unfold rd. destruct D as (s & ER & HG & HF). rewrite LQ in ER, HF. change (Z.of_nat 4) with 4. rewrite ER. cbn [bind opt_data].
      unfold get_le. destruct (length (sl_data s) <? 4)%nat eqn:X.
      - apply Nat.ltb_lt in X. unfold gs_len, zlen in HG, LQ. rewrite LQ in HG. lia.
      - cbn [bind]. eexists; reflexivity. }
    apply H. intros x Hx. apply in_map_iff in Hx as (y & <- & Hy). apply zseq_in in Hy. unfold cnt in Hy. lia. }
  destruct RS as [os ->]. cbn [bind]. pose proof (fixed_range i j Hi Hj) as R. fold cnt in R. rewrite R. clear R. cbn [bind].
  assert (Hc : 1 <= cnt) by (unfold cnt; lia).
  rewrite u_zero by lia. cbn [bind]. set (b1 := set_diffs _ _).
  assert (FD : flat (base_dup (l_io l))).
  { destruct F as [_ E]. split; [reflexivity|]. cbn [base_dup b_diffs]. rewrite E. reflexivity. }
  assert (CE : no_inner_start (b_diffs (base_dup (l_io l)))) by (destruct FD as [_ ->]; apply clean_nil).
  assert (SZ : l_pos l + (j + 1) * size - (l_pos l + i * size) = cnt * size) by (unfold cnt; lia). rewrite SZ.
  destruct (copy_cells b1 (base_dup (l_io l)) (l_pos l + i * size) (cnt * size) 4 (flat_in_memory _ FD) CE
              ltac:(nia) ltac:(nia) ltac:(change (gs_len (b_bytes b1)) with 4; lia)) as (chunks & E4 & F4 & R4).
  rewrite E4. cbn [bind].
  assert (UC : u32 cnt = cnt) by (unfold u32; change (2 ^ 32) with 4294967296; apply Z.mod_small; lia). rewrite UC.
  set (bp := poke_head _ cnt).
  assert (BP : sl_data (b_bytes bp) = le_encode 4 cnt).
  { unfold bp, poke_head. cbn [b_bytes gs_of sl_data]. apply copy_at_full. reflexivity. }
  assert (DP : b_diffs bp = b_diffs b1 ++ chunks) by reflexivity.
  assert (MP : in_memory bp).
  { split; [reflexivity|]. rewrite DP. constructor; [cbn [d_off]; lia|].
    eapply Forall_impl; [|exact F4]. cbv beta. intros d Hd. lia. }
  assert (CNT : delivers bp 0 (le_encode 4 cnt)).
  { apply delivers_served; rewrite ?zlen_le_encode; auto; try lia. rewrite DP, BP. unfold served.
    assert (NC : find_last (covers 0) (b_diffs b1 ++ chunks) = None).
    { apply find_last_none_iff. intros d [<-|Hd]; [reflexivity|].
      rewrite Forall_forall in F4. specialize (F4 d Hd). unfold covers. lia. }
    rewrite NC. rewrite zlen_le_encode. change (Z.of_nat 4) with 4. split; [|split; [lia|]].
    - intros d [<-|Hd]; [right; cbn [d_off]; lia|]. rewrite Forall_forall in F4. specialize (F4 d Hd). lia.
    - rewrite zskip_0. apply zfirst_all. rewrite zlen_le_encode. lia. }
  assert (HV2 : list_vlen (set_io init_list bp) = Ok cnt).
  { unfold list_vlen. cbn [set_io l_io l_pos init_list]. change (4 - 4) with 0. rewrite (rd_delivers 4 bp 0 cnt ltac:(lia) CNT).
    f_equal. apply Z.mod_small. change (256 ^ Z.of_nat 4) with 4294967296. lia. }
  destruct (refresh_fixed k size HS _ _ HV2) as [z ->]. cbn [set_io l_io l_npos l_pos init_list].
  eexists. split; [reflexivity|]. split; [exact HV2|]. intros y Hy.
  set (q := zfirst size (zskip (l_pos l + (i + y) * size) (sl_data (b_bytes (l_io l))))).
  assert (LQ : zlen q = size) by (unfold q; rewrite zlen_zfirst, zlen_zskip; unfold gs_len in HL; unfold cnt in Hy; nia).
  assert (D0 : delivers (l_io l) (l_pos l + (i + y) * size) q).
  { apply flat_delivers; auto; try (unfold cnt in Hy; nia). rewrite LQ. reflexivity. }
  assert (D1 : delivers bp (4 + y * size) q).
  { apply delivers_served; auto; [nia|lia|]. rewrite DP, BP.
    apply (served_poke _ (sl_data (b_bytes b1))); [rewrite zlen_le_encode; reflexivity|change (zlen (sl_data (b_bytes b1))) with 4; nia|lia|].
    replace (4 + y * size) with (4 + (l_pos l + (i + y) * size - (l_pos l + i * size))) by lia.
    apply R4; try nia.
    - apply dup_delivers; auto using flat_in_memory; [unfold cnt in Hy; nia|lia].
    - intros c Hc2. destruct FD as [X Y]. rewrite flat_content by (split; auto). unfold img_bytes. cbn [base_dup b_bytes gs_of sl_data].
      destruct (zget_some (sl_data (b_bytes (l_io l))) c) as [v ->]; [|discriminate].
      unfold gs_len in HL. unfold cnt in Hy. nia. }
  assert (RE : forall l0 m x, list_vlen l0 = Ok m -> 0 <= x < m -> delivers (l_io l0) (l_pos l0 + x * size) q ->
    read_elem k l0 x size = Ok (Some q)).
  { intros l0 m x HV0 Hx (s & ER & _ & HF). unfold read_elem. rewrite (at_fixed k l0 m size x HV0 HS Hx). cbn [bind].
    rewrite LQ in ER, HF. rewrite ER. cbn [bind opt_data]. rewrite HF. reflexivity. }
  match goal with |- read_elem _ ?L _ _ = _ /\ _ => rewrite (RE L cnt y HV2 Hy D1) end. rewrite (RE l n (i + y) HV ltac:(unfold cnt in Hy; lia) D0). split; [reflexivity|discriminate].
Qed.
End Fixed.
