(** Vectors of tables built by appending. *)
From Coq Require Import ZArith List Bool Lia.
From Coq Require Import Strings.Byte.
From Verif Require Import GoLib BaseModel GoLemmas BaseSpec BaseProofs BaseProofs2 BaseProofs3.
From Verif Require Import TableModel TableSpec TableProofs TableProofs2 ListModel ListSpec.
From Verif Require Import ListProofs ListProofs2 ListProofs3 ListProofs4.
Import ListNotations.
Open Scope Z_scope.

Lemma readable_content : forall b i, in_memory b -> 0 <= i -> readable b i <-> content b i <> None.
Proof.
  intros b i Hb Hi. unfold readable. rewrite peek_content by auto. split.
  - intros [x H]. congruence.
  - destruct (content b i) as [x|]; [eauto|congruence].
Qed.

Lemma delivers_readable : forall b c q, in_memory b -> 0 <= c -> 1 <= zlen q -> delivers b c q ->
  content b c <> None.
Proof.
  intros b c q Hb Hc Hq (s & E & HL & _). apply readable_content; auto. unfold readable, peek.
  destruct (base_r_req b c (zlen q) 1 Hb Hc ltac:(lia) ltac:(lia)) as (s1 & s2 & E1 & E2 & ED).
  rewrite E in E1. injection E1 as <-. rewrite E2. cbn [bind]. rewrite <- ED. cbn [opt_data].
  unfold gs_len in HL. destruct (sl_data s) as [|x l]; [rewrite zlen_nil in HL; lia|]. cbn. eauto.
Qed.

Lemma delivers_len : forall b c q, in_memory b -> 0 <= c -> 1 <= zlen q -> delivers b c q -> c < len_buf b.
Proof.
  intros b c q Hb Hc Hq H. destruct (Z_lt_dec c (len_buf b)); [auto|].
  exfalso. apply (delivers_readable b c q Hb Hc Hq H). apply content_ge_len; auto; lia.
Qed.

Lemma vt_entry : forall b t v i e, in_memory b -> vtable_pos b t = Ok v -> 0 <= v + 4 + i * 2 ->
  rd 2 b (v + 4 + i * 2) = Ok e -> virtual_table b t i = Ok (t + e).
Proof.
  intros b t v i e Hb HV Hp HR. unfold virtual_table. rewrite HV. cbn [bind].
  destruct (delivers_rd 2 b _ e ltac:(lia) HR) as [HD _].
  assert (HL : 1 <= zlen (le_encode 2 e)) by (rewrite zlen_le_encode; lia).
  pose proof (delivers_len b _ _ Hb Hp HL HD).
  replace (len_buf b <=? v + 4 + i * 2) with false by lia. rewrite andb_false_r, HR. reflexivity.
Qed.

Lemma in_root_outside : forall b q npos, in_memory b -> 2 <= zlen q -> delivers b 0 q -> npos < 8 ->
  in_root b npos = Ok false.
Proof.
  intros b q npos Hb Hq (s & E & HL & _) Hn. unfold in_root, rd.
  destruct (base_r_req b 0 (zlen q) (Z.of_nat 2) Hb ltac:(lia) ltac:(lia) ltac:(lia)) as (s1 & s2 & E1 & E2 & ED).
  rewrite E in E1. injection E1 as <-. rewrite E2. cbn [bind opt_data] in *. rewrite <- ED.
  unfold get_le. unfold gs_len, zlen in *.
  destruct (length (sl_data s) <? 2)%nat eqn:X; [apply Nat.ltb_lt in X; lia|]. cbn [bind].
  pose proof (le_decode_range (firstn 2 (sl_data s))) as R.
  destruct (base_r_spec b (le_decode (firstn 2 (sl_data s))) 4 Hb ltac:(lia) ltac:(lia)) as (s3 & -> & _).
  cbn [bind]. destruct (opt_len s3 <? 4); [reflexivity|]. replace (npos <? 8) with true by lia. reflexivity.
Qed.

(** ** The journal of a vector under construction *)

(** Header words, or data after the [n] slots, up to [4 + s]. *)
Definition shp (n s : Z) (d : diff) : Prop :=
  (exists j k, 0 <= j < k /\ k <= n + 1 /\ d_off d = 4 * j /\ d_len d = 4 * (k - j)) \/
  (4 + 4 * n <= d_off d /\ d_off d < d_off d + d_len d <= 4 + s).

(** The entries behind the [n] slots. *)
Definition tail (n : Z) (ds : list diff) : list diff := filter (fun d => 4 + 4 * n <=? d_off d) ds.

Lemma tail_app : forall n l l', tail n (l ++ l') = tail n l ++ tail n l'.
Proof. intros. unfold tail. apply filter_app. Qed.

Lemma tail_none : forall n l, Forall (fun d => d_off d < 4 + 4 * n) l -> tail n l = nil.
Proof.
  intros n l. induction 1 as [|d l H HF IH]; [reflexivity|]. unfold tail in *. cbn [filter].
  replace (4 + 4 * n <=? d_off d) with false by lia. exact IH.
Qed.

Lemma tail_all : forall n l, Forall (fun d => 4 + 4 * n <= d_off d) l -> tail n l = l.
Proof.
  intros n l. induction 1 as [|d l H HF IH]; [reflexivity|]. unfold tail in *. cbn [filter].
  replace (4 + 4 * n <=? d_off d) with true by lia. f_equal. exact IH.
Qed.

Lemma tail_shift : forall n m l, 0 <= m ->
  tail (n + m) (map (ins_shift (4 + 4 * n) (4 * m)) l) = map (ins_shift (4 + 4 * n) (4 * m)) (tail n l).
Proof.
  intros n m l Hm. induction l as [|d l IH]; [reflexivity|]. unfold tail in *. cbn [map filter].
  rewrite shift_off. destruct (4 + 4 * n <=? d_off d) eqn:E.
  - replace (4 + 4 * (n + m) <=? d_off d + 4 * m) with true by lia. cbn [map]. f_equal. exact IH.
  - replace (4 + 4 * (n + m) <=? d_off d) with false by lia. exact IH.
Qed.

Lemma clean_map_shift : forall pos size l, no_inner_start l -> Forall (fun d => pos <= d_off d) l ->
  no_inner_start (map (ins_shift pos size) l).
Proof.
  intros pos size l H HF. assert (E : map (ins_shift pos size) l = map (fun d => mkDiff (d_off d + size) (d_sl d)) l).
  { apply map_ext_in. intros d Hd. rewrite Forall_forall in HF. specialize (HF d Hd). unfold ins_shift.
    replace (pos <=? d_off d) with true by lia. reflexivity. }
  rewrite E. clear E HF. induction l as [|x l IH]; [exact clean_nil|]. cbn [map]. apply clean_cons.
  - apply IH. intros l1 d l2 e l3 E. apply (H (x :: l1) d l2 e l3). rewrite E. reflexivity.
  - intros e He. apply in_map_iff in He as (y & <- & Hy). unfold d_len. cbn [d_off d_sl].
    apply in_split in Hy as (a & c & ->). pose proof (H nil x a y c eq_refl). unfold d_len in *. lia.
Qed.

Ltac okinj H := match type of H with Ok ?x = Ok ?y => assert (y = x) by congruence; subst y; clear H end.

Lemma u_shape : forall b n s j k p b', Forall (shp n s) (b_diffs b) -> 0 <= j < k -> k <= n + 1 ->
  zlen p = 4 * (k - j) -> base_u b (4 * j) (4 * (k - j)) p = Ok b' ->
  Forall (shp n s) (b_diffs b') /\ tail n (b_diffs b') = tail n (b_diffs b) /\
  exists ds, b_diffs b' = ds ++ [mkDiff (4 * j) (gs_of p)].
Proof.
  intros b n s j k p b' HF Hj Hk Hp HU. unfold base_u in HU.
  replace (4 * (k - j) <? 0) with false in HU by lia. replace (4 * (k - j) <? zlen p) with false in HU by lia.
  rewrite copy_at_full in HU by (rewrite zlen_zeros; lia).
  assert (NEW : forall d, d_off d = 4 * j -> d_len d = 4 * (k - j) -> shp n s d).
  { intros d H1 H2. left. exists j, k. lia. }
  assert (LN : d_len (mkDiff (4 * j) (gs_of p)) = 4 * (k - j)) by exact Hp.
  assert (TN : forall l, Forall (fun d => d_off d = 4 * j) l -> tail n l = nil).
  { intros l Hl. apply tail_none. eapply Forall_impl; [|exact Hl]. cbv beta. intros d Hd. lia. }
  unfold base_d in HU. destruct (last_index (covers (4 * j)) (b_diffs b)) as [sn|] eqn:E.
  - destruct (last_index_some _ _ _ _ E) as (l1 & d & l2 & ED & EL & C & F).
    rewrite ED, <- EL, nth_error_mid in HU. rewrite <- ED in HU.
    destruct (d_off d + d_len d <=? 4 * j + 4 * (k - j)) eqn:X.
    + okinj HU. cbn [set_diffs b_diffs]. split; [|split].
      * apply Forall_app; split; [exact HF|]. constructor; [|constructor]. apply NEW; [reflexivity|exact LN].
      * rewrite tail_app, (TN [_]) by (repeat constructor). apply app_nil_r.
      * eexists; reflexivity.
    + assert (HD : shp n s d) by (rewrite Forall_forall in HF; apply HF; rewrite ED; apply in_elt).
      apply covers_iff in C. destruct HD as [(j' & k' & Q1 & Q2 & Q3 & Q4)|HD]; [|lia].
      unfold gs_from, gs_upto in HU. pose proof (gs_cap_ge (d_sl d)) as GC. unfold d_len in *.
      rewrite gs_range_ok in HU by lia.
      replace ((0 <=? 4 * j - d_off d + 4 * (k - j)) && (4 * j - d_off d + 4 * (k - j) <=? gs_len (d_sl d))) with true in HU by lia.
      cbn [bind] in HU. rewrite ED in HU.
      rewrite firstn_app, Nat.sub_diag, firstn_all, firstn_O, app_nil_r in HU.
      rewrite (skipn_app (S (length l1))), (skipn_all2 l1) in HU by lia.
      replace (S (length l1) - length l1)%nat with 1%nat in HU by lia. cbn [skipn app] in HU.
      match type of HU with context [diffs_insert (l1 ++ ?x :: l2) _ [?y]] => set (d1 := x) in *; set (d2 := y) in * end.
      replace (diffs_insert (l1 ++ d1 :: l2) (S (length l1)) [d2]) with (l1 ++ d1 :: d2 :: l2) in HU.
      2: { unfold diffs_insert. rewrite app_length. cbn [length].
           destruct (_ <? _)%nat eqn:Y; [apply Nat.ltb_lt in Y; lia|].
           rewrite (firstn_app (S (length l1))), (firstn_all2 l1) by lia.
           rewrite (skipn_app (S (length l1))), (skipn_all2 l1) by lia.
           replace (S (length l1) - length l1)%nat with 1%nat by lia. cbn [firstn skipn app].
           rewrite <- app_assoc. reflexivity. }
      okinj HU. cbn [set_diffs b_diffs].
      assert (O1 : d_off d1 = 4 * j') by (cbn [d1 d_off]; lia).
      assert (L1 : gs_len (d_sl d1) = 4 * (k - j')).
      { unfold d1, gs_len; cbn [d_sl sl_data]. rewrite zskip_0, zlen_zfirst, zlen_app.
        unfold gs_len in *. pose proof (zlen_nonneg (sl_spare (d_sl d))). lia. }
      assert (O2 : d_off d2 = 4 * k) by (cbn [d2 d_off]; lia).
      assert (L2 : gs_len (d_sl d2) = 4 * (k' - k)).
      { unfold d2, gs_len; cbn [d_sl sl_data]. rewrite zlen_zskip.
        unfold gs_len in *. lia. }
      split; [|split].
      * rewrite ED in HF. apply Forall_app in HF as [F1 F2]. inversion F2; subst.
        apply Forall_app; split; [|constructor; [apply NEW; [reflexivity|exact LN]|constructor]].
        apply Forall_app; split; [exact F1|]. constructor; [left; exists j', k; unfold d_len; lia|].
        constructor; [left; exists k, k'; unfold d_len; lia|assumption].
      * rewrite tail_app, (TN [_]) by (repeat constructor). rewrite app_nil_r.
        rewrite ED, !tail_app. f_equal. change (d1 :: d2 :: l2) with ([d1; d2] ++ l2). change (d :: l2) with ([d] ++ l2).
        rewrite !tail_app. rewrite (tail_none n [d1; d2]), (tail_none n [d]); [reflexivity| |].
        -- repeat constructor; lia.
        -- repeat constructor; lia.
      * eexists; reflexivity.
  - destruct ((4 * j <? gs_len (b_bytes b)) && (4 * j + 4 * (k - j) <? gs_cap (b_bytes b))) eqn:X.
    + rewrite gs_range_ok in HU by lia. cbn [bind] in HU. okinj HU. cbn [set_diffs b_diffs].
      match goal with |- context [[?x; _]] => set (d1 := x) in * end.
      assert (L1 : d_len d1 = 4 * (k - j)).
      { unfold d1, d_len, gs_len; cbn [d_sl sl_data]. rewrite zlen_zskip, zlen_zfirst, zlen_app.
        unfold gs_cap in X. lia. }
      split; [|split].
      * apply Forall_app; split; [exact HF|]. constructor; [apply NEW; [reflexivity|exact L1]|].
        constructor; [apply NEW; [reflexivity|exact LN]|constructor].
      * rewrite tail_app, (TN [_; _]) by (repeat constructor). apply app_nil_r.
      * exists (b_diffs b ++ [d1]). rewrite <- app_assoc. reflexivity.
    + okinj HU. cbn [set_diffs b_diffs]. split; [|split].
      * apply Forall_app; split; [exact HF|]. constructor; [apply NEW; [reflexivity|exact LN]|constructor].
      * rewrite tail_app, (TN [_]) by (repeat constructor). apply app_nil_r.
      * eexists; reflexivity.
Qed.

Lemma u_word : forall b n s j v b', Forall (shp n s) (b_diffs b) -> 0 <= j <= n ->
  base_u b (4 * j) 4 (le_encode 4 v) = Ok b' ->
  Forall (shp n s) (b_diffs b') /\ tail n (b_diffs b') = tail n (b_diffs b).
Proof.
  intros b n s j v b' HF Hj HU.
  destruct (u_shape b n s j (j + 1) (le_encode 4 v) b' HF ltac:(lia) ltac:(lia)) as (H1 & H2 & _); auto.
  - rewrite zlen_le_encode. lia.
  - rewrite <- HU. f_equal. lia.
Qed.

Lemma shp_beside : forall n s d, shp n s d -> beside (4 + 4 * n) d.
Proof. intros n s d [(j & k & H)|H]; unfold beside; lia. Qed.

Lemma shp_shift : forall n m s d, 0 <= m -> shp n s d -> shp (n + m) (s + 4 * m) (ins_shift (4 + 4 * n) (4 * m) d).
Proof.
  intros n m s d Hm H. unfold shp, d_len in *. rewrite shift_off, shift_sl. destruct H as [(j & k & H1 & H2 & H3 & H4)|H].
  - left. exists j, k. replace (4 + 4 * n <=? d_off d) with false by lia. lia.
  - right. replace (4 + 4 * n <=? d_off d) with true by lia. lia.
Qed.

Lemma bump_spec : forall n s d o is b, in_memory b ->
  Forall (shp n s) (b_diffs b) -> NoDup is ->
  (forall i, In i is -> 0 <= i < n /\ rd 4 b (4 + i * 4) = Ok (o i) /\ 0 <= o i + d < 4294967296) ->
  exists b', bump_offsets b 4 d is = Ok b' /\ in_memory b' /\ b_bytes b' = b_bytes b /\
    Forall (shp n s) (b_diffs b') /\ tail n (b_diffs b') = tail n (b_diffs b) /\
    (forall i, In i is -> rd 4 b' (4 + i * 4) = Ok (o i + d)) /\
    (forall i x, 0 <= i < n -> ~ In i is -> rd 4 b (4 + i * 4) = Ok x -> rd 4 b' (4 + i * 4) = Ok x) /\
    (forall c q, 0 <= c -> 1 <= zlen q -> (c + zlen q <= 4 \/ 4 + 4 * n <= c) -> delivers b c q -> delivers b' c q).
Proof.
  intros n s d o. induction is as [|i is IH]; intros b Hb HF ND H; cbn [bump_offsets].
  - exists b. split; [reflexivity|]. split; [exact Hb|]. split; [reflexivity|]. split; [exact HF|].
    split; [reflexivity|]. split; [intros ? []|]. split; auto.
  - inversion ND as [|? ? NI ND']; subst.
    destruct (H i (or_introl eq_refl)) as (Hi & HR & HO). rewrite HR. cbn [bind].
    assert (HU : u32 (o i + d) = o i + d) by (unfold u32; apply Z.mod_small; exact HO). rewrite HU.
    destruct (u_rd b (4 + i * 4) 4 (o i + d) Hb ltac:(lia) ltac:(lia)) as (b1 & E1 & M1 & B1 & _ & R1 & F1 & D1).
    change (Z.of_nat 4) with 4 in *. rewrite E1. cbn [bind].
    destruct (u_word b n s (1 + i) (o i + d) b1 HF ltac:(lia) ltac:(rewrite <- E1; f_equal; lia)) as [S1 T1].
    destruct (IH b1 M1 S1 ND') as (b2 & E2 & M2 & B2 & S2 & T2 & R2 & O2 & D2).
    { intros j Hj. destruct (H j (or_intror Hj)) as (Hj1 & Hj2 & Hj3).
      split; [exact Hj1|]. split; [|exact Hj3].
      assert (j <> i) by (intros ->; contradiction).
      apply F1; [lia|lia|change (Z.of_nat 4) with 4; lia|exact Hj2]. }
    exists b2. split; [exact E2|]. split; [exact M2|]. split; [congruence|]. split; [exact S2|].
    split; [congruence|]. split; [|split].
    + intros j [<-|Hj]; [|apply R2; auto]. apply O2; [lia|exact NI|]. rewrite R1. f_equal.
      change (256 ^ 4) with 4294967296. apply Z.mod_small. lia.
    + intros j x Hj Hn HX. apply O2; [lia|intros C; apply Hn; right; auto|].
      assert (j <> i) by (intros ->; apply Hn; left; auto).
      apply F1; [lia|lia|change (Z.of_nat 4) with 4; lia|exact HX].
    + intros c q Hc Hq HC HD. apply D2; auto. apply D1; auto. change (Z.of_nat 4) with 4. lia.
Qed.

Lemma zseq_in : forall n i, In i (zseq n) <-> 0 <= i < n.
Proof.
  intros n i. unfold zseq. rewrite in_map_iff. split.
  - intros (k & <- & Hk). apply in_seq in Hk. lia.
  - intros H. exists (Z.to_nat i). split; [lia|]. apply in_seq. lia.
Qed.

Lemma zseq_nodup : forall n, NoDup (zseq n).
Proof.
  intros n. unfold zseq. apply FinFun.Injective_map_NoDup; [intros a b; lia|apply seq_NoDup].
Qed.

Section Tables.
Variable ks : list fkind.
Let V := vtable_size ks.

Lemma V_ge : 4 <= V.
Proof. unfold V, vtable_size. pose proof (zlen_nonneg ks). lia. Qed.

(** ** What a faithful copy of a table gives *)

Lemma same_rd : forall src sp b t es n k v, same_reads src sp b t (- V) es -> (1 <= n)%nat ->
  - V <= k -> k + Z.of_nat n <= es -> (forall j, - V <= j < k -> readable src (sp + j)) ->
  rd n src (sp + k) = Ok v -> rd n b (t + k) = Ok v.
Proof.
  intros src sp b t es n k v H Hn Hk He HR E. destruct (delivers_rd n src (sp + k) v Hn E) as [D R].
  apply H in D; auto; rewrite ?zlen_le_encode; try lia.
  rewrite (rd_delivers n b (t + k) v Hn D). f_equal. apply Z.mod_small. exact R.
Qed.

Section Copy.
Variables (src : base) (sp es : Z) (b : base) (t : Z).
Hypothesis SC : self_contained ks src sp es.
Hypothesis Hb : in_memory b.
Hypothesis Ht : V <= t.
Hypothesis SR : same_reads src sp b t (- V) es.

Lemma cp_head : forall j, - V <= j < 0 -> readable src (sp + j).
Proof. intros j Hj. apply (sc_head _ _ _ _ SC). fold V. lia. Qed.

Lemma cp_soff : rd 4 src sp = Ok V.
Proof.
  pose proof (sc_vpos _ _ _ _ SC) as H. unfold vtable_pos in H.
  destruct (rd 4 src sp) as [v| |]; cbn [bind] in H; try discriminate. injection H as H. f_equal. fold V in H. lia.
Qed.

Lemma cp_vpos : vtable_pos b t = Ok (t - V).
Proof.
  pose proof (sc_min _ _ _ _ SC). pose proof V_ge. unfold vtable_pos.
  replace t with (t + 0) at 1 by lia.
  rewrite (same_rd src sp b t es 4 0 V SR); try lia; [reflexivity| |].
  - intros j Hj. apply cp_head. lia.
  - rewrite Z.add_0_r. apply cp_soff.
Qed.

Lemma cp_rd2 : forall k v, - V <= k -> k + 2 <= 0 -> rd 2 src (sp + k) = Ok v -> rd 2 b (t + k) = Ok v.
Proof.
  intros k v H1 H2 E. pose proof (sc_min _ _ _ _ SC).
  apply (same_rd src sp b t es 2 k v SR); auto; try lia. intros j Hj. apply cp_head. lia.
Qed.

Lemma cp_entry : forall i, 0 <= i < zlen ks -> exists e,
  virtual_table src sp i = Ok (sp + e) /\ virtual_table b t i = Ok (t + e).
Proof.
  intros i Hi. destruct (sc_entry _ _ _ _ SC i Hi) as [e He]. fold V in He. exists e.
  pose proof (sc_pos _ _ _ _ SC). fold V in H.
  assert (VS : V = 4 + 2 * zlen ks) by reflexivity. split.
  - apply (vt_entry src sp (sp - V)); try apply (sc_mem _ _ _ _ SC); [apply (sc_vpos _ _ _ _ SC)|lia|].
    rewrite <- He. f_equal; lia.
  - apply (vt_entry b t (t - V)); auto; [apply cp_vpos|lia|].
    replace (t - V + 4 + i * 2) with (t + (- V + 4 + 2 * i)) by lia. apply cp_rd2; try lia.
    rewrite <- He. f_equal; lia.
Qed.

Lemma cp_info_from : forall ks' i acc r, 0 <= i -> i + zlen ks' <= zlen ks ->
  table_info src sp ks' i acc = Ok (Some r) -> table_info b t ks' i acc = Ok (Some r).
Proof.
  induction ks' as [|k ks' IH]; intros i acc r Hi HL H; cbn [table_info] in *; [exact H|].
  rewrite zlen_cons in HL. pose proof (zlen_nonneg ks').
  destruct (cp_entry i ltac:(lia)) as (e & E1 & E2). rewrite E1 in H. rewrite E2. cbn [bind] in *.
  destruct k as [n|n|]; [| |discriminate].
  - replace (t + e + n - t) with (sp + e + n - sp) by lia. apply IH; auto; lia.
  - replace (t + e =? t) with (sp + e =? sp) by lia.
    replace (t + e + (if sp + e =? sp then 0 else n) - t) with (sp + e + (if sp + e =? sp then 0 else n) - sp) by lia.
    apply IH; auto; lia.
Qed.

Lemma cp_info : elem_info (ETable ks) b t = Ok (Some es).
Proof.
  pose proof (sc_size _ _ _ _ SC) as H. cbn [elem_info] in *. apply cp_info_from; auto; lia.
Qed.

Lemma cp_preload : exists tl, preload_vtable b t = Ok tl.
Proof.
  assert (VS : V = 4 + 2 * zlen ks) by reflexivity. pose proof (zlen_nonneg ks).
  unfold preload_vtable. rewrite cp_vpos. cbn [bind].
  pose proof (sc_vlen _ _ _ _ SC) as H1. destruct (sc_tlen _ _ _ _ SC) as [tl H2].
  unfold virtual_table_len in H1. unfold table_len in H2. rewrite (sc_vpos _ _ _ _ SC) in H1, H2.
  cbn [bind] in H1, H2. fold V in H1, H2.
  replace (t - V) with (t + - V) by lia. rewrite (cp_rd2 (- V) V); try lia.
  2: { rewrite <- H1. f_equal; lia. }
  cbn [bind]. replace (t + - V + 2) with (t + (- V + 2)) by lia. rewrite (cp_rd2 (- V + 2) tl); try lia.
  2: { rewrite <- H2. f_equal; lia. }
  cbn [bind]. rewrite preload_loop_ok; [cbn [bind]; eauto| |lia].
  intros j Hj Hl. destruct (sc_entry _ _ _ _ SC j ltac:(lia)) as [e He]. fold V in He. exists e.
  replace (t + - V + 4 + 2 * j) with (t + (- V + 4 + 2 * j)) by lia. apply cp_rd2; try lia.
  rewrite <- He. f_equal; lia.
Qed.

Lemma cp_first : exists s, base_r b t 4 = Ok (Some s).
Proof.
  pose proof (sc_min _ _ _ _ SC). pose proof V_ge.
  pose proof (same_rd src sp b t es 4 0 V SR ltac:(lia) ltac:(lia) ltac:(lia)) as R.
  rewrite !Z.add_0_r in R. specialize (R ltac:(intros; apply cp_head; lia) cp_soff).
  destruct (delivers_rd 4 b t V ltac:(lia) R) as [(s & E & _) _]. rewrite zlen_le_encode in E. eauto.
Qed.

Lemma cp_at : forall l i n, l_io l = b -> list_vlen l = Ok n -> 0 <= i < n ->
  rd 4 b (l_pos l + i * 4) = Ok (t - (l_pos l + i * 4)) -> list_at (ETable ks) l i = Ok (Some t).
Proof.
  intros l i n El HV Hi HR. unfold list_at. rewrite HV. cbn [bind].
  replace ((n <=? i) || (i <? 0)) with false by lia. cbn [fixed_size]. rewrite El, HR. cbn [bind].
  replace (l_pos l + i * 4 + (t - (l_pos l + i * 4))) with t by lia.
  destruct cp_first as [s ->]. cbn [bind]. destruct cp_preload as [tl ->]. reflexivity.
Qed.

End Copy.

(** ** The invariant *)

Record tcore (b : base) (elems : list (base * Z * Z)) (ts : list Z) : Prop := {
  tc_mem : in_memory b;
  tc_bytes : gs_len (b_bytes b) = 4;
  tc_len : zlen ts = zlen elems;
  tc_max : appended_size ks elems < 4294967296 - 4;
  tc_count : delivers b 0 (le_encode 4 (zlen elems));
  tc_shape : Forall (shp (zlen elems) (appended_size ks elems)) (b_diffs b);
  tc_slot : forall i t, zget ts i = Some t -> rd 4 b (4 + i * 4) = Ok (t - (4 + i * 4));
  tc_elem : forall i t src sp es, zget ts i = Some t -> zget elems i = Some (src, sp, es) ->
    self_contained ks src sp es /\
    4 + 4 * zlen elems + V <= t /\ t + es <= 4 + appended_size ks elems /\
    (i = zlen elems - 1 -> t + es = 4 + appended_size ks elems) /\
    t = 4 + 4 * zlen elems + (appended_size ks (zfirst i elems) - 4 * i) + V /\
    same_reads src sp b t (- V) es;
  tc_clean : no_inner_start (tail (zlen elems) (b_diffs b))
}.

Lemma size_ge : forall elems, Forall (fun e => let '(src, sp, es) := e in self_contained ks src sp es) elems ->
  12 * zlen elems <= appended_size ks elems.
Proof.
  induction 1 as [|[[src sp] es] elems H HF IH]; cbn [appended_size]; [reflexivity|].
  rewrite zlen_cons. pose proof (sc_min _ _ _ _ H). pose proof V_ge. fold V. lia.
Qed.

Lemma size_snoc : forall elems src sp es,
  appended_size ks (elems ++ [(src, sp, es)]) = appended_size ks elems + 4 + V + es.
Proof.
  induction elems as [|[[s p] e] elems IH]; intros src sp es; cbn [app appended_size]; fold V; [lia|].
  rewrite IH. lia.
Qed.

Lemma core_all : forall b elems ts, tcore b elems ts ->
  Forall (fun e => let '(src, sp, es) := e in self_contained ks src sp es) elems.
Proof.
  intros b elems ts I. apply Forall_forall. intros [[src sp] es] H.
  apply In_nth_error in H as [k Hk]. rewrite <- zget_nth_error in Hk.
  pose proof (zget_some_range _ _ _ Hk) as R.
  destruct (zget_some ts (Z.of_nat k) ltac:(rewrite (tc_len _ _ _ I); lia)) as [t Ht].
  apply (tc_elem _ _ _ I _ _ _ _ _ Ht Hk).
Qed.

Lemma core_count : forall b elems ts l, tcore b elems ts -> l_io l = b -> l_pos l = 4 ->
  list_vlen l = Ok (zlen elems).
Proof.
  intros b elems ts l I E1 E2. unfold list_vlen. rewrite E1, E2. replace (4 - 4) with 0 by lia.
  rewrite (rd_delivers 4 b 0 (zlen elems) ltac:(lia) (tc_count _ _ _ I)).
  f_equal. pose proof (size_ge elems (core_all _ _ _ I)). pose proof (tc_max _ _ _ I).
  pose proof (zlen_nonneg elems). change (256 ^ Z.of_nat 4) with 4294967296. apply Z.mod_small. lia.
Qed.

Lemma core_at : forall b elems ts l i t, tcore b elems ts -> l_io l = b -> l_pos l = 4 ->
  zget ts i = Some t -> list_at (ETable ks) l i = Ok (Some t) /\
  exists es, elem_info (ETable ks) b t = Ok (Some es) /\ t + es <= 4 + appended_size ks elems /\
    (i = zlen elems - 1 -> t + es = 4 + appended_size ks elems).
Proof.
  intros b elems ts l i t I E1 E2 Ht. pose proof (zget_some_range _ _ _ Ht) as R.
  rewrite (tc_len _ _ _ I) in R. destruct (zget_some elems i R) as [[[src sp] es] He].
  destruct (tc_elem _ _ _ I _ _ _ _ _ Ht He) as (SC & P1 & P2 & P3 & P0 & SR).
  pose proof V_ge. split.
  - apply (cp_at src sp es b t SC SR l i (zlen elems)); auto.
    + eapply core_count; eauto.
    + rewrite E2. apply (tc_slot _ _ _ I); auto.
  - exists es. split; [|auto]. apply (cp_info src sp es b t SC (tc_mem _ _ _ I) ltac:(lia) SR).
Qed.

Lemma core_select : forall b elems ts l is, tcore b elems ts -> l_io l = b -> l_pos l = 4 ->
  exists ps, select_loop (ETable ks) l (fun _ => true) is = Ok ps /\
    forall p, In p ps -> exists i, zget ts i = Some p.
Proof.
  intros b elems ts l is I E1 E2. pose proof (core_count b elems ts l I E1 E2) as HV.
  induction is as [|i is IH]; cbn [select_loop].
  - exists nil. split; [reflexivity|]. intros p [].
  - destruct IH as (ps & -> & HP). destruct (zget ts i) as [t|] eqn:E.
    + destruct (core_at b elems ts l i t I E1 E2 E) as [-> _]. cbn [bind]. exists (t :: ps).
      split; [reflexivity|]. intros p [<-|Hp]; eauto.
    + apply zget_none_range in E. rewrite (tc_len _ _ _ I) in E.
      rewrite (at_outside (ETable ks) l (zlen elems) i HV) by lia. cbn [bind]. eauto.
Qed.

Lemma core_max_pos : forall b elems ts l ps i best pos, tcore b elems ts -> l_io l = b -> l_pos l = 4 ->
  (forall p, In p ps -> exists i, zget ts i = Some p) ->
  exists r, max_pos_loop (ETable ks) b ps i best pos = Ok (Some r).
Proof.
  intros b elems ts l ps i best pos I E1 E2. revert i best pos.
  induction ps as [|p ps IH]; intros i best pos HP; cbn [max_pos_loop]; [eauto|].
  destruct (HP p (or_introl eq_refl)) as [j Hj].
  destruct (core_at b elems ts l j p I E1 E2 Hj) as (_ & es & -> & _). cbn [bind].
  assert (HP' : forall x, In x ps -> exists i, zget ts i = Some x) by (intros; apply HP; right; auto).
  destruct (_ || _); apply IH; auto.
Qed.

Lemma core_info : forall b elems ts l, tcore b elems ts -> l_io l = b -> l_pos l = 4 ->
  (zlen elems = 0 -> l_vlen l = 0) ->
  info_slice (ETable ks) l = Ok (Some (4, zlen elems, appended_size ks elems)).
Proof.
  intros b elems ts l I E1 E2 Ez. pose proof (core_count b elems ts l I E1 E2) as HV.
  pose proof (zlen_nonneg elems) as HN.
  unfold info_slice, list_last, index_on_max_pos, list_all, list_select. rewrite HV. cbn [bind].
  destruct (core_select b elems ts l (zseq (l_vlen l)) I E1 E2) as (ps & -> & HP). cbn [bind].
  destruct (core_max_pos b elems ts l ps 0 (-1) 0 I E1 E2 HP) as [r Er].
  assert (HR : exists e2, list_at (ETable ks) l r = Ok e2 /\
     exists x, match e2 with Some p => elem_info (ETable ks) (l_io l) p | None => Ok None end = Ok x).
  { destruct (zget ts r) as [t|] eqn:E.
    - destruct (core_at b elems ts l r t I E1 E2 E) as (-> & es & H & _). eexists; split; [reflexivity|].
      rewrite E1, H. eauto.
    - apply zget_none_range in E. rewrite (tc_len _ _ _ I) in E.
      rewrite (at_outside (ETable ks) l (zlen elems) r HV) by lia. eauto. }
  destruct HR as (e2 & HR1 & x & HR2).
  destruct (Z.eq_dec (zlen elems) 0) as [H0|H0].
  - rewrite (at_outside (ETable ks) l (zlen elems) (zlen elems - 1) HV) by lia. cbn [bind].
    rewrite E1, Er. cbn [bind]. rewrite HR1. cbn [bind]. rewrite <- E1, HR2. cbn [bind].
    replace (zlen elems =? 0) with true by lia. rewrite E2. change (4 + 0 <? 0 + 0) with false. cbv iota.
    destruct elems as [|e elems]; [reflexivity|]. rewrite zlen_cons in H0. pose proof (zlen_nonneg elems). lia.
  - destruct (zget_some ts (zlen elems - 1) ltac:(rewrite (tc_len _ _ _ I); lia)) as [t Ht].
    destruct (core_at b elems ts l _ t I E1 E2 Ht) as (-> & es & EI & _ & EE). cbn [bind].
    specialize (EE eq_refl).
    rewrite E1, EI. cbn [bind option_map]. rewrite Er. cbn [bind]. rewrite HR1. cbn [bind].
    rewrite <- E1, HR2. cbn [bind]. rewrite E2.
    replace (zlen elems =? 0) with false by lia.
    pose proof (size_ge elems (core_all _ _ _ I)).
    replace (4 + -1 <? t + es) with true by lia. do 3 f_equal. lia.
Qed.

Record tinv (l : lnode) (elems : list (base * Z * Z)) : Prop := {
  ti_npos : l_npos l < 8;
  ti_pos : l_pos l = 4;
  ti_vlen : l_vlen l = zlen elems;
  ti_size : zlen elems = 0 \/ l_size l = appended_size ks elems;
  ti_core : exists ts, tcore (l_io l) elems ts
}.

Lemma tinv_init : tinv init_list nil.
Proof.
  constructor; try reflexivity; [left; reflexivity|]. exists nil.
  constructor; try reflexivity.
  - split; [reflexivity|constructor].
  - exists (gs_of (zeros 4)). vm_compute. repeat split; congruence.
  - constructor.
  - intros i t H. rewrite zget_nil in H. discriminate.
  - intros i t src sp es H. rewrite zget_nil in H. discriminate.
  - apply clean_nil.
Qed.

Lemma vlen_total_tables : forall l elems, tinv l elems ->
  vlen_total (ETable ks) l =
    Ok (Some (mkL (l_io l) (l_npos l) 4 (zlen elems) (appended_size ks elems))).
Proof.
  intros l elems I. destruct (ti_core _ _ I) as [ts C]. pose proof (zlen_nonneg elems) as HN.
  unfold vlen_total. rewrite (ti_vlen _ _ I), (ti_pos _ _ I). change (4 =? 0) with false. cbn [orb].
  destruct (Z.eq_dec (zlen elems) 0) as [H0|H0].
  - replace (zlen elems =? 0) with true by lia. cbn [orb].
    rewrite (core_info (l_io l) elems ts l C eq_refl (ti_pos _ _ I) ltac:(intros; rewrite (ti_vlen _ _ I); auto)).
    cbn [bind option_map set_info l_vlen]. replace (zlen elems =? 0) with true by lia. cbn [l_io l_npos l_pos].
    destruct elems as [|e elems]; [reflexivity|]. rewrite zlen_cons in H0. pose proof (zlen_nonneg elems). lia.
  - replace (zlen elems =? 0) with false by lia. cbn [orb].
    destruct (ti_size _ _ I) as [|HS]; [lia|].
    pose proof (size_ge elems (core_all _ _ _ C)). rewrite HS.
    replace (appended_size ks elems =? 0) with false by lia. cbn [bind].
    rewrite (ti_vlen _ _ I). replace (zlen elems =? 0) with false by lia.
    do 2 f_equal. destruct l as [b np p v s]. pose proof (ti_pos _ _ I). pose proof (ti_vlen _ _ I).
    cbn in *. congruence.
Qed.

Lemma zget_snoc : forall A (l : list A) x i y, zget (l ++ [x]) i = Some y ->
  (i = zlen l /\ y = x) \/ (0 <= i < zlen l /\ zget l i = Some y).
Proof.
  intros A l x i y H. pose proof (zget_some_range _ _ _ H) as R. rewrite zlen_app in R. change (zlen [x]) with 1 in R.
  rewrite zget_app in H. destruct (i <? zlen l) eqn:E.
  - right. split; [lia|exact H].
  - left. assert (i = zlen l) by lia. split; [auto|]. subst i. rewrite zget_cons, Z.sub_diag in H. cbn in H. congruence.
Qed.

(** One append. *)
Lemma tinv_step : forall l elems src sp es, tinv l elems -> self_contained ks src sp es ->
  appended_size ks (elems ++ [(src, sp, es)]) < 4294967296 - 4 ->
  exists l', set_at (ETable ks) l (zlen elems) src sp (-1) = Ok (LOk l') /\
    tinv l' (elems ++ [(src, sp, es)]).
Proof.
  intros l elems src sp es I SC HM. destruct (ti_core _ _ I) as [ts C].
  pose proof C as [C1 C2 C3 C4 C5 C6 C7 C8 C9]. pose proof V_ge as HV4.
  pose proof (size_ge elems (core_all _ _ _ C)) as HSZ. pose proof (zlen_nonneg elems) as HN.
  pose proof (sc_min _ _ _ _ SC) as HES. rewrite size_snoc in HM.
  assert (HSUM : 4 + appended_size ks elems + 4 + V + es < 4294967296) by lia.
  set (n := zlen elems) in *. set (S := appended_size ks elems) in *.
  unfold set_at, set_table_at. rewrite (ti_vlen _ _ I). fold n.
  replace (n <? n) with false by lia. rewrite (vlen_total_tables l elems I). fold n S. cbn [bind l_vlen l_pos l_size l_io].
  replace (n <? n) with false by lia. cbn [bind].
  change (-1 <=? 0) with true. cbv iota. rewrite (sc_size _ _ _ _ SC). cbn [bind].
  replace (n =? n) with true by lia. cbv iota.
  replace (zlen ks * 2 + 4) with V by (unfold V, vtable_size; lia).
  replace (Z.max 0 (es + V)) with (es + V) by lia.
  replace (4 + n * 4) with (4 + 4 * n) by lia.
  set (b0 := l_io l) in *.
  (* make room for the slot *)
  unfold list_insert_space. cbn [l_io l_npos l_pos l_vlen l_size].
  assert (BS0 : Forall (beside (4 + 4 * n)) (b_diffs b0)).
  { eapply Forall_impl; [|exact C6]. intros d. apply shp_beside. }
  rewrite (insert_space_beside b0 (4 + 4 * n) 4 true ltac:(lia) ltac:(lia) BS0). cbn [bind].
  set (b1 := mkBase _ _ _ _ _).
  assert (Zc : forall v, zlen (le_encode 4 v) = 4) by (intros; apply zlen_le_encode).
  rewrite (in_root_outside b0 _ (l_npos l) C1 ltac:(rewrite Zc; lia) C5 (ti_npos _ _ I)). cbn [bind l_vlen].
  replace (4 + 4 * n <? 4) with false by lia.
  assert (M1 : in_memory b1).
  { split; [reflexivity|]. unfold b1; cbn [b_diffs]. apply Forall_app; split.
    - apply Forall_forall. intros d Hd. apply in_map_iff in Hd as (e & <- & He).
      destruct C1 as [_ X]. rewrite Forall_forall in X. specialize (X e He). rewrite shift_off.
      destruct (4 + 4 * n <=? d_off e); lia.
    - constructor; [cbn [d_off]; lia|constructor]. }
  assert (Z1 : zlen (zeros 4) = 4) by reflexivity.
  assert (S1 : Forall (shp (n + 1) (S + 4)) (b_diffs b1)).
  { unfold b1; cbn [b_diffs]. apply Forall_app; split.
    - apply Forall_forall. intros d Hd. apply in_map_iff in Hd as (e & <- & He).
      rewrite Forall_forall in C6. apply (shp_shift n 1 S e ltac:(lia)). auto.
    - constructor; [|constructor]. left. exists (n + 1), (n + 2). split; [lia|]. split; [lia|].
      split; [cbn [d_off]; lia|]. unfold d_len, gs_len. cbn [d_sl gs_of sl_data]. rewrite Z1. lia. }
  assert (T1 : tail (n + 1) (b_diffs b1) = map (ins_shift (4 + 4 * n) 4) (tail n (b_diffs b0))).
  { unfold b1; cbn [b_diffs]. rewrite tail_app, (tail_none (n + 1) [_]), app_nil_r.
    - apply (tail_shift n 1). lia.
    - repeat constructor. cbn [d_off]. lia. }
  assert (CL1 : no_inner_start (tail (n + 1) (b_diffs b1))).
  { rewrite T1. apply clean_map_shift; [exact C9|]. apply Forall_forall. intros d Hd.
    apply filter_In in Hd as [_ Hd]. lia. }
  assert (LOW1 : forall c q, 0 <= c -> 1 <= zlen q -> c + zlen q <= 4 + 4 * n -> delivers b0 c q -> delivers b1 c q).
  { intros c q Hc Hq HC HD. apply delivers_served in HD; auto. apply delivers_served; auto.
    unfold b1; cbn [b_diffs b_bytes]. apply served_app; auto.
    - right. cbn [d_off]. lia.
    - apply served_shift_low; auto; lia. }
  assert (HIGH1 : forall c q, 1 <= zlen q -> 4 + 4 * n <= c -> delivers b0 c q -> delivers b1 (c + 4) q).
  { intros c q Hq HC HD. apply delivers_served in HD; auto; [|lia]. apply delivers_served; auto; [lia|].
    unfold b1; cbn [b_diffs b_bytes]. apply served_app; auto.
    - left. unfold d_len, gs_len. cbn [d_off d_sl gs_of sl_data]. rewrite Z1. lia.
    - apply served_shift_high; auto; try lia. unfold gs_len in C2. lia. }
  assert (B1 : gs_len (b_bytes b1) = 4) by exact C2.
  clear T1. clearbody b1.
  (* the offsets *)
  unfold update_offsets. cbn [l_io l_pos].
  set (o := fun i => match zget ts i with Some t => t - (4 + i * 4) | None => 0 end).
  destruct (bump_spec (n + 1) (S + 4) 4 o (zseq n) b1 M1 S1 (zseq_nodup n))
    as (b2 & E2 & M2 & B2 & S2 & T2 & R2 & _ & D2).
  { intros i Hi. apply zseq_in in Hi. destruct (zget_some ts i ltac:(lia)) as [t Ht].
    unfold o. rewrite Ht. split; [lia|].
    pose proof (C7 i t Ht) as HR. destruct (zget_some elems i Hi) as [[[s1 p1] e1] He].
    destruct (C8 i t s1 p1 e1 Ht He) as (SC1 & Q1 & Q2 & _). pose proof (sc_min _ _ _ _ SC1).
    split; [|lia].
    destruct (delivers_rd 4 b0 _ _ ltac:(lia) HR) as [HD HRg].
    rewrite (rd_delivers 4 b1 _ (t - (4 + i * 4)) ltac:(lia)); [f_equal; apply Z.mod_small; exact HRg|].
    apply LOW1; try lia; [rewrite Zc; lia|rewrite Zc; lia|exact HD]. }
  rewrite E2. cbn [bind].
  set (toData := 4 + S + 4).
  assert (UO : u32 (toData + V - (4 + 4 * n)) = toData + V - (4 + 4 * n)).
  { unfold u32. change (2 ^ 32) with 4294967296. apply Z.mod_small. unfold toData. lia. }
  replace (4 + n * 4) with (4 + 4 * n) by lia. rewrite UO.
  destruct (u_rd b2 (4 + 4 * n) 4 (toData + V - (4 + 4 * n)) M2 ltac:(lia) ltac:(lia))
    as (b3 & E3 & M3 & B3 & _ & R3 & F3 & D3).
  change (Z.of_nat 4) with 4 in *. rewrite E3. cbn [bind].
  destruct (u_word b2 (n + 1) (S + 4) (n + 1) (toData + V - (4 + 4 * n)) b3 S2 ltac:(lia)
              ltac:(rewrite <- E3; f_equal; lia)) as [S3 T3].
  replace (0 <? es + V) with true by lia. unfold set_io. cbn [l_io l_npos l_pos l_vlen l_size].
  (* space for the table: nothing moves *)
  assert (BS3 : Forall (beside toData) (b_diffs b3)).
  { eapply Forall_impl; [|exact S3]. intros d [(j & j2 & H1 & H2 & H3 & H4)|H]; left; unfold toData; lia. }
  assert (LB3 : gs_len (b_bytes b3) = 4) by congruence.
  rewrite (insert_space_beside b3 toData (es + V) false ltac:(unfold toData; lia) ltac:(lia) BS3). cbn [bind].
  assert (EMAP : map (ins_shift toData (es + V)) (b_diffs b3) = b_diffs b3).
  { rewrite <- (map_id (b_diffs b3)) at 2. apply map_ext_in. intros d Hd. rewrite Forall_forall in S3.
    specialize (S3 d Hd). unfold ins_shift. replace (toData <=? d_off d) with false; [reflexivity|].
    symmetry. apply Z.leb_gt. unfold toData. destruct S3 as [(j & j2 & H1 & H2 & H3 & H4)|H]; lia. }
  rewrite EMAP, app_nil_r.
  set (b4 := mkBase (b_bytes b3) nil (b_diffs b3) (b_check b3) 0).
  assert (CNT3 : delivers b3 0 (le_encode 4 n)).
  { apply D3; rewrite ?Zc; try lia. apply D2; rewrite ?Zc; try lia. apply LOW1; rewrite ?Zc; try lia. exact C5. }
  rewrite (in_root_outside b3 _ (l_npos l) M3 ltac:(rewrite Zc; lia) CNT3 (ti_npos _ _ I)). cbn [bind].
  replace (toData <? 4) with false by (unfold toData; lia). cbn [l_io l_npos l_pos l_vlen l_size].
  assert (M4 : in_memory b4) by (split; [reflexivity|apply M3]).
  assert (D4 : forall c q, 0 <= c -> 1 <= zlen q -> delivers b3 c q -> delivers b4 c q).
  { intros c q Hc Hq HD. apply delivers_served; auto. apply delivers_served in HD; auto. }
  (* the new count *)
  replace (4 - 4) with 0 by lia.
  assert (UN : u32 (n + 1) = n + 1).
  { unfold u32. change (2 ^ 32) with 4294967296. apply Z.mod_small. lia. }
  rewrite UN.
  destruct (u_delivers b4 0 (le_encode 4 (n + 1)) M4 ltac:(lia) ltac:(rewrite Zc; lia))
    as (b5 & E5 & M5 & B5 & _ & CNT5 & D5).
  rewrite Zc in E5, D5. rewrite E5. cbn [bind].
  assert (LB4 : gs_len (b_bytes b4) <= 4) by (cbn [b4 b_bytes]; lia).
  destruct (u_word b4 (n + 1) (S + 4) 0 (n + 1) b5 S3 ltac:(lia) ltac:(rewrite <- E5; reflexivity)) as [S5 T5].
  assert (CL5 : no_inner_start (tail (n + 1) (b_diffs b5))).
  { rewrite T5. unfold b4; cbn [b_diffs]. rewrite T3, T2. exact CL1. }
  assert (LB5 : gs_len (b_bytes b5) = 4) by (rewrite B5; exact LB3).
  (* the table itself *)
  pose proof (sc_pos _ _ _ _ SC) as HSP. fold V in HSP.
  destruct (copy_cells b5 src (sp - V) (es + V) toData (sc_mem _ _ _ _ SC) (sc_clean _ _ _ _ SC)
              ltac:(lia) ltac:(lia) ltac:(unfold toData; lia)) as (chunks & E6 & F6 & R6).
  assert (CK : no_inner_start chunks).
  { pose proof E6 as X. unfold base_copy in X. destruct (toData <? gs_len (b_bytes b5)) eqn:Y; [unfold toData in Y; lia|].
    cbn [bind] in X. rewrite map_extend_0 in X.
    destruct (copy_loop _ _ _ _ _ _ _) as [ds'| |] eqn:Z; cbn [bind] in X; try discriminate.
    apply copy_loop_clean in Z as (c2 & -> & _ & CC). assert (W : b_diffs b5 ++ c2 = b_diffs b5 ++ chunks).
    { assert (U : set_diffs b5 (b_diffs b5 ++ c2) = set_diffs b5 (b_diffs b5 ++ chunks)) by congruence.
      apply (f_equal b_diffs) in U. exact U. }
    apply app_inv_head in W. subst c2. exact CC. }
  rewrite E6. cbn [bind].
  set (b6 := set_diffs b5 (b_diffs b5 ++ chunks)) in *.
  assert (M6 : in_memory b6).
  { destruct M5 as [X Y]. split; [exact X|]. unfold b6; cbn [set_diffs b_diffs].
    apply Forall_app; split; [exact Y|]. eapply Forall_impl; [|exact F6]. cbv beta. intros d Hd. unfold toData in Hd. lia. }
  assert (D6 : forall c q, 0 <= c -> 1 <= zlen q -> c + zlen q <= toData -> delivers b5 c q -> delivers b6 c q).
  { intros c q Hc Hq HC HD. apply delivers_served; auto. apply delivers_served in HD; auto.
    unfold b6; cbn [set_diffs b_diffs b_bytes]. apply served_apps; auto.
    eapply Forall_impl; [|exact F6]. cbv beta. intros d Hd. right. lia. }
  (* cells beyond the slots, from b0 to b6 *)
  assert (MOVE : forall c q, 1 <= zlen q -> 4 + 4 * n <= c -> c + 4 + zlen q <= toData -> delivers b0 c q -> delivers b6 (c + 4) q).
  { intros c q Hq HC HE HD. apply D6; try lia. apply D5; try lia. apply D4; try lia. apply D3; try lia.
    apply D2; try lia. apply HIGH1; auto. }
  assert (SLOT : forall i x, 0 <= i < n + 1 -> rd 4 b3 (4 + i * 4) = Ok x -> rd 4 b6 (4 + i * 4) = Ok x).
  { intros i x Hi HR. destruct (delivers_rd 4 b3 _ x ltac:(lia) HR) as [HD HRg].
    rewrite (rd_delivers 4 b6 _ x ltac:(lia)); [f_equal; apply Z.mod_small; exact HRg|].
    apply D6; rewrite ?Zc; unfold toData; try lia. apply D5; rewrite ?Zc; try lia. apply D4; rewrite ?Zc; try lia. exact HD. }
  assert (CORE : tcore b6 (elems ++ [(src, sp, es)]) (map (fun t => t + 4) ts ++ [toData + V])).
  { assert (LE : zlen (elems ++ [(src, sp, es)]) = n + 1) by (rewrite zlen_app; reflexivity).
    constructor; auto.
    - rewrite zlen_app, zlen_map, LE, C3. reflexivity.
    - rewrite size_snoc. exact HM.
    - rewrite LE. apply D6; rewrite ?Zc; unfold toData; try lia. exact CNT5.
    - rewrite LE, size_snoc. unfold b6; cbn [set_diffs b_diffs]. apply Forall_app; split.
      + eapply Forall_impl; [|exact S5]. intros d [H|H]; [left; exact H|right; fold S; lia].
      + eapply Forall_impl; [|exact F6]. cbv beta. intros d Hd. right. fold S. unfold toData in Hd. lia.
    - intros i t Ht. apply zget_snoc in Ht. rewrite zlen_map in Ht. destruct Ht as [[Hi ->]|[Hi Ht]].
      + rewrite C3 in Hi. subst i. apply SLOT; [lia|]. replace (4 + n * 4) with (4 + 4 * n) by lia. rewrite R3.
        f_equal. change (256 ^ 4) with 4294967296. apply Z.mod_small. unfold toData. lia.
      + rewrite zget_map in Ht. destruct (zget ts i) as [t0|] eqn:E0; [|discriminate]. injection Ht as <-.
        apply SLOT; [lia|]. apply F3; [lia|lia|change (Z.of_nat 4) with 4; lia|].
        rewrite R2 by (apply zseq_in; lia). unfold o. rewrite E0. f_equal. lia.
    - intros i t s1 p1 e1 Ht He. rewrite LE, size_snoc. fold S.
      apply zget_snoc in Ht. rewrite zlen_map in Ht. apply zget_snoc in He. fold n in He.
      destruct Ht as [[Hi ->]|[Hi Ht]], He as [[Hi2 He]|[Hi2 He]]; try lia.
      + injection He as -> -> ->. split; [exact SC|]. unfold toData. split; [lia|]. split; [lia|]. split; [lia|].
        split. { rewrite Hi2, zfirst_app_le, zfirst_all by (unfold n; lia). fold S. lia. }
        intros k q Hk Hk2 Hq HR HD.
        apply delivers_served; auto; [lia|]. unfold b6; cbn [set_diffs b_diffs b_bytes].
        replace (4 + S + 4 + V + k) with (toData + (sp + k - (sp - V))) by (unfold toData; lia).
        apply R6; auto; try lia. intros j Hj. apply readable_content; [apply (sc_mem _ _ _ _ SC)|lia|].
        replace j with (sp + (j - sp)) by lia. apply HR. lia.
      + rewrite zget_map in Ht. destruct (zget ts i) as [t0|] eqn:E0; [|discriminate]. injection Ht as <-.
        destruct (C8 i t0 s1 p1 e1 E0 He) as (SC1 & Q1 & Q2 & Q3 & Q0 & Q4).
        split; [exact SC1|]. split; [lia|]. split; [lia|]. split; [lia|].
        split; [rewrite zfirst_app_le by (fold n; lia); lia|].
        intros k q Hk Hk2 Hq HR HD. replace (t0 + 4 + k) with (t0 + k + 4) by lia.
        apply MOVE; auto; try (unfold toData; lia).
    - rewrite LE. unfold b6; cbn [set_diffs b_diffs]. rewrite tail_app.
      rewrite (tail_all (n + 1) chunks).
      2: { eapply Forall_impl; [|exact F6]. cbv beta. intros d Hd. unfold toData in Hd. lia. }
      apply clean_app; [exact CL5|exact CK|]. intros d e Hd He. right.
      apply filter_In in Hd as [Hd _]. rewrite Forall_forall in S5, F6. specialize (S5 d Hd). specialize (F6 e He).
      unfold toData in F6. destruct S5 as [(j & j2 & H1 & H2 & H3 & H4)|H]; lia. }
  unfold refresh. unfold set_io. cbn [l_io l_npos l_pos l_vlen l_size].
  rewrite (core_info b6 _ _ (mkL b6 (l_npos l) 4 n S) CORE eq_refl eq_refl).
  2: { intros H. rewrite zlen_app in H. change (zlen [(src, sp, es)]) with 1 in H. fold n in H. lia. }
  cbn [bind set_info l_io l_npos]. eexists; split; [reflexivity|].
  constructor; cbn [l_io l_npos l_pos l_vlen l_size]; auto.
  - apply (ti_npos _ _ I).
  - eauto.
Qed.

Lemma tinv_run : forall es l elems, tinv l elems ->
  Forall (fun e => let '(src, sp, s) := e in self_contained ks src sp s) es ->
  appended_size ks (elems ++ es) < 4294967296 - 4 ->
  exists l', run_sets (ETable ks) l (append_ops (zlen elems) es) = Ok (LOk l') /\ tinv l' (elems ++ es).
Proof.
  induction es as [|[[src sp] s] es IH]; intros l elems I HF HM; cbn [append_ops run_sets].
  - exists l. rewrite app_nil_r. auto.
  - inversion HF as [|? ? SC HF']; subst.
    replace (elems ++ (src, sp, s) :: es) with ((elems ++ [(src, sp, s)]) ++ es) in * by (rewrite <- app_assoc; reflexivity).
    assert (HLE : appended_size ks (elems ++ [(src, sp, s)]) <= appended_size ks ((elems ++ [(src, sp, s)]) ++ es)).
    { generalize (elems ++ [(src, sp, s)]). intros xs. pose proof (size_ge es HF') as G. pose proof (zlen_nonneg es).
      induction xs as [|[[a b] c] xs IHx]; cbn [app appended_size]; lia. }
    destruct (tinv_step l elems src sp s I SC ltac:(lia)) as (l1 & -> & I1). cbn [bind].
    destruct (IH l1 _ I1 HF' HM) as (l2 & E2 & I2).
    rewrite zlen_app in E2. change (zlen [(src, sp, s)]) with 1 in E2. eauto.
Qed.

Lemma appended_tables : forall es, 
  Forall (fun e => let '(src, sp, s) := e in self_contained ks src sp s) es ->
  appended_size ks es < 2 ^ 32 - 4 ->
  exists l, run_sets (ETable ks) init_list (append_ops 0 es) = Ok (LOk l) /\
    list_vlen l = Ok (zlen es) /\
    forall i src sp s, zget es i = Some (src, sp, s) ->
      exists t, list_at (ETable ks) l i = Ok (Some t) /\
        same_reads src sp (l_io l) t (- vtable_size ks) s /\
        forall j, 0 <= j < zlen ks -> exists e,
          virtual_table src sp j = Ok (sp + e) /\ virtual_table (l_io l) t j = Ok (t + e).
Proof.
  intros es HF HM. change (2 ^ 32) with 4294967296 in HM.
  destruct (tinv_run es init_list nil tinv_init HF HM) as (l & E & I). cbn [app] in I.
  rewrite zlen_nil in E. exists l. split; [exact E|].
  destruct (ti_core _ _ I) as [ts C]. split.
  { apply (core_count (l_io l) es ts l C eq_refl (ti_pos _ _ I)). }
  intros i src sp s He. pose proof (zget_some_range _ _ _ He) as R.
  destruct (zget_some ts i ltac:(rewrite (tc_len _ _ _ C); lia)) as [t Ht].
  exists t. destruct (core_at (l_io l) es ts l i t C eq_refl (ti_pos _ _ I) Ht) as [HA _].
  split; [exact HA|].
  destruct (tc_elem _ _ _ C _ _ _ _ _ Ht He) as (SC & P1 & P2 & P3 & P0 & SR). split; [exact SR|].
  intros j Hj. pose proof (zlen_nonneg es).
  apply (cp_entry src sp s (l_io l) t SC (tc_mem _ _ _ C) ltac:(lia) SR j Hj).
Qed.

End Tables.
