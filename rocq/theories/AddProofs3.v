(** What a vector of tables answers while it is joined with another. *)
From Coq Require Import ZArith List Bool Lia.
From Coq Require Import Strings.Byte.
From Verif Require Import GoLib BaseModel GoLemmas BaseSpec BaseProofs BaseProofs2 BaseProofs3.
From Verif Require Import TableModel TableSpec TableProofs TableProofs2 ListModel ListSpec.
From Verif Require Import ListProofs ListProofs2 ListProofs3 ListProofs4 ListProofs5 AddModel AddSpec AddProofs AddProofs2.
Import ListNotations.
Open Scope Z_scope.

Lemma tail_gap : forall n g l, 0 <= g ->
  tail n (map (ins_shift (4 + 4 * n) g) l) = map (ins_shift (4 + 4 * n) g) (tail n l).
Proof.
  intros n g l Hg. induction l as [|d l IH]; [reflexivity|]. unfold tail in *. cbn [map filter].
  rewrite shift_off. destruct (4 + 4 * n <=? d_off d) eqn:E.
  - replace (4 + 4 * n <=? d_off d + g) with true by lia. cbn [map]. f_equal. exact IH.
  - rewrite E. exact IH.
Qed.

Lemma shp_gap : forall n g s d, 0 <= g -> shp n s d -> shp n (s + g) (ins_shift (4 + 4 * n) g d).
Proof.
  intros n g s d Hg H. unfold shp, d_len in *. rewrite shift_off, shift_sl. destruct H as [(j & k & H1 & H2 & H3 & H4)|H].
  - left. exists j, k. replace (4 + 4 * n <=? d_off d) with false by lia. lia.
  - right. replace (4 + 4 * n <=? d_off d) with true by lia. lia.
Qed.

Lemma tail_behind : forall n l, Forall (fun d => 4 + 4 * n <= d_off d) (tail n l).
Proof. intros n l. apply Forall_forall. intros d Hd. apply filter_In in Hd as [_ Hd]. lia. Qed.

Lemma delivers_cell : forall b i x, in_memory b -> 0 <= i -> delivers b i [x] -> readable b i.
Proof.
  intros b i x Hb Hi H. apply readable_content; auto.
  apply (delivers_readable b i [x]); auto. change (zlen [x]) with 1. lia.
Qed.

Lemma cell_delivers : forall b i, readable b i -> exists x, delivers b i [x].
Proof.
  intros b i [x Hx]. unfold peek in Hx. destruct (base_r b i 1) as [[s|]| |] eqn:E; cbn [bind opt_data] in Hx; try discriminate.
  destruct (sl_data s) as [|y l] eqn:D; [discriminate|]. exists y, s. change (zlen [y]) with 1.
  split; [exact E|]. split; [unfold gs_len; rewrite D, zlen_cons; pose proof (zlen_nonneg l); lia|].
  rewrite D. reflexivity.
Qed.

(** ** Copies of buffers *)

Lemma served_dup : forall ds bs c q,
  served ds bs c q -> served (map (fun d => mkDiff (d_off d) (gs_make_copy (d_sl d))) ds) bs c q.
Proof.
  intros ds bs c q H. unfold served in *. rewrite find_last_map.
  rewrite (find_last_ext _ (fun x => covers c (mkDiff (d_off x) (gs_make_copy (d_sl x)))) (covers c) ds).
  2: { intros d _. reflexivity. }
  destruct (find_last (covers c) ds) as [d|]; cbn [option_map]; [exact H|].
  destruct H as (H1 & H2). split; [|exact H2]. intros d Hd. apply in_map_iff in Hd as (e & <- & He). apply (H1 e He).
Qed.

Lemma dup_memory : forall b, in_memory b -> in_memory (base_dup b).
Proof.
  intros b [_ H]. split; [reflexivity|]. cbn [base_dup b_diffs]. apply Forall_forall. intros d Hd.
  apply in_map_iff in Hd as (e & <- & He). rewrite Forall_forall in H. exact (H e He).
Qed.

Lemma dup_delivers : forall b c q, in_memory b -> 0 <= c -> 1 <= zlen q -> delivers b c q -> delivers (base_dup b) c q.
Proof.
  intros b c q Hb Hc Hq H. apply delivers_served; auto; [apply dup_memory; auto|].
  apply delivers_served in H; auto. apply served_dup. exact H.
Qed.

Lemma dup_rd : forall n b c v, in_memory b -> 0 <= c -> (1 <= n)%nat -> rd n b c = Ok v -> rd n (base_dup b) c = Ok v.
Proof.
  intros n b c v Hb Hc Hn H. destruct (delivers_rd n b c v Hn H) as [D R].
  rewrite (rd_delivers n (base_dup b) c v Hn); [f_equal; apply Z.mod_small; exact R|].
  apply dup_delivers; auto. rewrite zlen_le_encode. lia.
Qed.

Lemma clean_map_same : forall f l, (forall d, d_off (f d) = d_off d /\ d_len (f d) = d_len d) ->
  no_inner_start l -> no_inner_start (map f l).
Proof.
  intros f l Hf. induction l as [|x l IH]; intros H; [exact clean_nil|]. cbn [map]. apply clean_cons.
  - apply IH. intros l1 d l2 e l3 E. apply (H (x :: l1) d l2 e l3). rewrite E. reflexivity.
  - intros e He. apply in_map_iff in He as (y & <- & Hy). destruct (Hf x) as [-> ->], (Hf y) as [-> _].
    apply in_split in Hy as (a & c & ->). exact (H nil x a y c eq_refl).
Qed.

Section Tables.
Variable ks : list fkind.
Let V := vtable_size ks.
Let k := ETable ks.

Lemma size_app : forall A B, appended_size ks (A ++ B) = appended_size ks A + appended_size ks B.
Proof. induction A as [|[[s p] e] A IH]; intros B; cbn [app appended_size]; [lia|]. rewrite IH. lia. Qed.

Lemma size_next : forall es i src sp s, zget es i = Some (src, sp, s) ->
  appended_size ks (zfirst (i + 1) es) = appended_size ks (zfirst i es) + 4 + V + s.
Proof.
  intros es i src sp s H. pose proof (zget_some_range _ _ _ H) as R.
  assert (E : zfirst (i + 1) es = zfirst i es ++ [(src, sp, s)]).
  { apply zget_ext. intros j. rewrite zget_zfirst, zget_app, zlen_zfirst, zget_zfirst.
    replace (Z.max 0 (Z.min i (zlen es))) with i by lia.
    destruct (j <? i) eqn:J.
    - replace (j <? i + 1) with true by lia. reflexivity.
    - destruct (j <? i + 1) eqn:J1.
      + assert (j = i) by lia. subst j. rewrite Z.sub_diag, H. reflexivity.
      + symmetry. apply zget_ge. change (zlen [(src, sp, s)]) with 1. lia. }
  rewrite E, size_app. cbn [appended_size]. fold V. lia.
Qed.

Lemma core_dup : forall b es ts, tcore ks b es ts -> tcore ks (base_dup b) es ts.
Proof.
  intros b es ts [C1 C2 C3 C4 C5 C6 C7 C8 C9]. pose proof (zlen_nonneg es).
  assert (Hf : forall d, d_off (mkDiff (d_off d) (gs_make_copy (d_sl d))) = d_off d /\
                         d_len (mkDiff (d_off d) (gs_make_copy (d_sl d))) = d_len d) by (intros; split; reflexivity).
  constructor; auto.
  - apply dup_memory; auto.
  - apply dup_delivers; auto; [lia|rewrite zlen_le_encode; lia].
  - cbn [base_dup b_diffs]. apply Forall_forall. intros d Hd. apply in_map_iff in Hd as (e & <- & He).
    rewrite Forall_forall in C6. exact (C6 e He).
  - intros i t Ht. pose proof (zget_some_range _ _ _ Ht). apply dup_rd; auto; lia.
  - intros i t src sp s Ht He. destruct (C8 i t src sp s Ht He) as (Q1 & Q2 & Q3 & Q4 & Q5 & Q6).
    repeat (split; [assumption|]). intros c q Hc Hc2 Hq HR HD. apply dup_delivers; auto. pose proof (V_ge ks). lia.
  - cbn [base_dup b_diffs]. assert (E : forall l, tail (zlen es) (map (fun d => mkDiff (d_off d) (gs_make_copy (d_sl d))) l) =
      map (fun d => mkDiff (d_off d) (gs_make_copy (d_sl d))) (tail (zlen es) l)).
    { induction l as [|d l IH]; [reflexivity|]. unfold tail in *. cbn [map filter d_off].
      destruct (4 + 4 * zlen es <=? d_off d); cbn [map]; [f_equal|]; exact IH. }
    rewrite E. apply clean_map_same; auto.
Qed.

Lemma core_has : forall b es ts l, tcore ks b es ts -> l_io l = b -> l_pos l = 4 -> has_elements k l ts.
Proof.
  intros b es ts l C E1 E2. split.
  - rewrite (tc_len _ _ _ _ C). eapply core_count; eauto.
  - intros i t Ht. eapply core_at; eauto.
Qed.

Lemma core_vtl : forall b es ts i t, tcore ks b es ts -> zget ts i = Some t -> virtual_table_len b t = Ok V.
Proof.
  intros b es ts i t C Ht. pose proof (zget_some_range _ _ _ Ht) as R. rewrite (tc_len _ _ _ _ C) in R.
  destruct (zget_some es i R) as [[[src sp] s] He].
  destruct (tc_elem _ _ _ _ C _ _ _ _ _ Ht He) as (SC & P1 & P2 & P3 & P0 & SR).
  pose proof (V_ge ks). pose proof (sc_vlen _ _ _ _ SC) as H1.
  unfold virtual_table_len in *. rewrite (sc_vpos _ _ _ _ SC) in H1. cbn [bind] in H1.
  rewrite (cp_vpos ks src sp s b t SC SR). cbn [bind].
  fold V. fold V in H1. replace (t - V) with (t + - V) by lia.
  apply (cp_rd2 ks src sp s b t SC SR); fold V; try lia. rewrite <- H1. f_equal; lia.
Qed.

Lemma core_first : forall b es ts, tcore ks b es ts -> es <> nil -> zget ts 0 = Some (4 + 4 * zlen es + V).
Proof.
  intros b es ts C HN. destruct es as [|[[src sp] s] es]; [congruence|].
  pose proof (tc_len _ _ _ _ C) as L. rewrite zlen_cons in L. pose proof (zlen_nonneg es).
  destruct (zget_some ts 0 ltac:(lia)) as [t Ht]. rewrite Ht.
  destruct (tc_elem _ _ _ _ C 0 t src sp s Ht eq_refl) as (_ & _ & _ & _ & P0 & _).
  change (zfirst 0 ((src, sp, s) :: es)) with (@nil (base * Z * Z)) in P0. cbn [appended_size] in P0. f_equal. fold V in P0. lia.
Qed.

Lemma core_min : forall b es ts l, tcore ks b es ts -> l_io l = b -> l_pos l = 4 -> l_vlen l = zlen es -> es <> nil ->
  exists i, index_on_min_pos k l = Ok i /\ list_at k l i = Ok (Some (4 + 4 * zlen es + V)) /\
    virtual_table_len b (4 + 4 * zlen es + V) = Ok V.
Proof.
  intros b es ts l C E1 E2 E3 HN. pose proof (core_first b es ts C HN) as H0.
  pose proof (core_has b es ts l C E1 E2) as HE.
  destruct (index_min k l ts HE ltac:(rewrite (tc_len _ _ _ _ C); exact E3)) as (i & EI & e & G1 & G2 & G3).
  { intros ->. rewrite zget_nil in H0. discriminate. }
  exists i. split; [exact EI|]. assert (e = 4 + 4 * zlen es + V).
  { pose proof (G2 0 _ H0). pose proof (zget_some_range _ _ _ G1) as R. rewrite (tc_len _ _ _ _ C) in R.
    destruct (zget_some es i R) as [[[src sp] s] He].
    destruct (tc_elem _ _ _ _ C _ _ _ _ _ G1 He) as (_ & P1 & _). fold V in P1. lia. }
  subst e. split; [apply HE; exact G1|]. eapply core_vtl; eauto.
Qed.

Lemma core_max : forall b es ts l, tcore ks b es ts -> l_io l = b -> l_pos l = 4 -> l_vlen l = zlen es -> es <> nil ->
  exists i t s, index_on_max_pos k l = Ok (Some i) /\ list_at k l i = Ok (Some t) /\ elem_info k b t = Ok (Some s).
Proof.
  intros b es ts l C E1 E2 E3 HN. pose proof (core_first b es ts C HN) as H0.
  pose proof (core_has b es ts l C E1 E2) as HE.
  destruct (index_max k l ts (fun p => match elem_info k (l_io l) p with Ok (Some s) => s | _ => 0 end) HE
              ltac:(rewrite (tc_len _ _ _ _ C); exact E3)) as (i & EI & t & G1 & _).
  { intros ->. rewrite zget_nil in H0. discriminate. }
  { intros p Hp. apply In_nth_error in Hp as [j Hj]. rewrite <- zget_nth_error in Hj.
    destruct (core_at ks b es ts l _ p C E1 E2 Hj) as (_ & s & H & _). fold k in H. rewrite E1, H. reflexivity. }
  destruct (core_at ks b es ts l _ t C E1 E2 G1) as (HA & s & H & _). exists i, t, s. auto.
Qed.

Definition all_gapless (es : list (base * Z * Z)) : Prop :=
  Forall (fun e => let '(src, sp, s) := e in gapless ks src sp s) es.

(** The data of a vector of tables without gaps has none. *)
Lemma core_solid : forall b es ts j, tcore ks b es ts -> all_gapless es ->
  4 + 4 * zlen es <= j < 4 + appended_size ks es -> readable b j.
Proof.
  intros b es ts j C HG Hj.
  assert (F : forall n : nat, Z.of_nat n <= zlen es ->
    j < 4 + 4 * zlen es + (appended_size ks (zfirst (Z.of_nat n) es) - 4 * Z.of_nat n) ->
    exists i src sp s, zget es i = Some (src, sp, s) /\
      4 + 4 * zlen es + (appended_size ks (zfirst i es) - 4 * i) <= j /\
      j < 4 + 4 * zlen es + (appended_size ks (zfirst i es) - 4 * i) + V + s).
  { induction n as [|n IH]; intros Hn Hl.
    - change (zfirst (Z.of_nat 0) es) with (@nil (base * Z * Z)) in Hl. cbn [appended_size] in Hl. lia.
    - destruct (Z_lt_dec j (4 + 4 * zlen es + (appended_size ks (zfirst (Z.of_nat n) es) - 4 * Z.of_nat n))) as [X|X].
      { apply IH; [lia|exact X]. }
      destruct (zget_some es (Z.of_nat n) ltac:(lia)) as [[[src sp] s] He].
      exists (Z.of_nat n), src, sp, s. split; [exact He|].
      rewrite Nat2Z.inj_succ, <- Z.add_1_r, (size_next es _ src sp s He) in Hl. lia. }
  destruct (F (length es)) as (i & src & sp & s & He & H1 & H2).
  { unfold zlen. lia. }
  { change (Z.of_nat (length es)) with (zlen es). rewrite zfirst_all by lia. lia. }
  pose proof (zget_some_range _ _ _ He) as R. rewrite <- (tc_len _ _ _ _ C) in R.
  destruct (zget_some ts i R) as [t Ht].
  destruct (tc_elem _ _ _ _ C _ _ _ _ _ Ht He) as (SC & P1 & P2 & P3 & P0 & SR). fold V in P0.
  assert (G : gapless ks src sp s).
  { unfold all_gapless in HG. rewrite Forall_forall in HG. rewrite <- (Z2Nat.id i), zget_nth_error in He by lia.
    apply nth_error_In in He. exact (HG _ He). }
  destruct (cell_delivers src (sp + (j - t)) (G (sp + (j - t)) ltac:(fold V; lia))) as [x Hx].
  apply (delivers_cell b j x (tc_mem _ _ _ _ C)); [pose proof (zlen_nonneg es); lia|].
  replace j with (t + (j - t)) by lia. apply SR; change (zlen [x]) with 1; fold V; try lia; [|exact Hx].
  intros c Hc. apply G. fold V. lia.
Qed.
End Tables.
