(** A buffer in which cells below a place were overwritten, and the loop over the
    fields of the table. *)
From Coq Require Import ZArith List Bool Lia String.
From Coq Require Import Strings.Byte.
From Verif Require Import GoLib BaseModel GoLemmas BaseSpec BaseProofs TableModel TableSpec TableProofs TableProofs2 NameModel NameSpec.
From Verif Require Import WalkModel WalkSpec WalkProofs BuildModel BuildProofs8 InsModel InsSpec InsProofs7 PutModel PutSpec.
Import ListNotations.
Open Scope list_scope.
Open Scope Z_scope.

Lemma last_hit : forall (P : diff -> Prop) (ds : list diff), (forall d, P d \/ ~ P d) ->
  Forall P ds \/ exists l1 d l2, ds = l1 ++ d :: l2 /\ ~ P d /\ Forall P l2.
Proof.
  intros P ds DEC. induction ds as [|d ds IH]; [left; constructor|]. destruct IH as [IH|(l1 & e & l2 & E & N & F)].
  - destruct (DEC d) as [H|H]; [left; constructor; auto|]. right. exists [], d, ds. auto.
  - right. exists (d :: l1), e, l2. rewrite E. auto.
Qed.

Section Cells.
Variable pos : Z.

Record cells (nb : base) (C : list (Z * Z)) : Prop := {
  k_mem : in_memory nb;
  k_len : gs_len (b_bytes nb) <= pos;
  k_diff : Forall (fun d => pos <= d_off d \/ In (d_off d, d_len d) C) (b_diffs nb)
}.

Definition safe (C : list (Z * Z)) (x k : Z) : Prop :=
  forall y l, In (y, l) C -> (y, l) = (x, k) \/ disjoint y l x k.

Lemma cells_rd : forall nb C k x v, cells nb C -> 0 <= x -> (1 <= k)%nat -> x + Z.of_nat k <= pos -> safe C x (Z.of_nat k) ->
  holds_uint (content nb) x k v -> rd k nb x = Ok v.
Proof.
  intros nb C k x v [M _ D] X K XP S H. apply rd_whole; auto.
  rewrite Forall_forall in D.
  assert (DEC : forall d, misses x (Z.of_nat k) d \/ ~ misses x (Z.of_nat k) d) by (intros d; unfold misses; lia).
  destruct (last_hit (misses x (Z.of_nat k)) (b_diffs nb) DEC) as [F|(l1 & d & l2 & E & N & F)].
  - right. split; [|exact F]. destruct H as [_ H]. destruct (H (Z.of_nat k - 1) ltac:(lia)) as (y & Y & _).
    assert (E : content nb (x + (Z.of_nat k - 1)) = zget (sl_data (b_bytes nb)) (x + (Z.of_nat k - 1))).
    { unfold content. change (zget (sl_data (b_bytes nb)) (x + (Z.of_nat k - 1))) with (img_bytes (sl_data (b_bytes nb)) (x + (Z.of_nat k - 1))).
      revert F. generalize (b_diffs nb) as ds. intros ds F. generalize (img_bytes (sl_data (b_bytes nb))) as im.
      induction F as [|d ds Hd F IH]; intros im; [reflexivity|]. rewrite over_cons, IH.
      unfold img_write, misses in *. unfold d_data, d_len, gs_len in *.
      replace ((d_off d <=? x + (Z.of_nat k - 1)) && (x + (Z.of_nat k - 1) <? d_off d + zlen (sl_data (d_sl d)))) with false by lia. reflexivity. }
    rewrite E in Y. pose proof (zget_some_range _ _ _ Y). unfold gs_len. lia.
  - left. exists l1, d, l2. split; [exact E|]. assert (HD : In d (b_diffs nb)) by (rewrite E; apply in_elt).
    destruct (D d HD) as [Q|Q].
    + exfalso. apply N. right. lia.
    + destruct (S _ _ Q) as [Q'|Q'].
      * assert (d_off d = x) by congruence. assert (d_len d = Z.of_nat k) by congruence. split; [lia|]. split; [lia|exact F].
      * exfalso. apply N. unfold disjoint in Q'. unfold misses. lia.
Qed.

Lemma cells_write : forall nb C x p, cells nb C -> 0 <= x -> 1 <= zlen p -> x + zlen p <= pos -> safe C x (zlen p) ->
  exists nb', base_u nb x (zlen p) p = Ok nb' /\ cells nb' ((x, zlen p) :: C) /\ b_check nb' = b_check nb /\
    (forall i, content nb' i = img_write (content nb) x p i).
Proof.
  intros nb C x p [M L D] X Z1 XP S. rewrite Forall_forall in D.
  destruct (base_u_cell nb x p X Z1) as (l & E & FL).
  { intros d Hd Cv. apply covers_iff in Cv. destruct (D d Hd) as [Q|Q]; [lia|]. destruct (S _ _ Q) as [Q'|Q'].
    - assert (d_off d = x) by congruence. assert (d_len d = zlen p) by congruence. lia.
    - unfold disjoint in Q'. lia. }
  destruct (base_u_spec nb x (zlen p) p M X eq_refl) as (nb' & E' & M' & B' & _ & K' & C').
  rewrite E' in E. injection E as E. exists nb'. split; [exact E'|]. split; [|split; [exact K'|exact C']]. split.
  - exact M'.
  - rewrite B'. exact L.
  - rewrite E. cbn [set_diffs b_diffs]. apply Forall_app. split; [|apply Forall_app; split].
    + rewrite Forall_forall. intros d Hd. destruct (D d Hd) as [Q|Q]; [left; exact Q|right; right; exact Q].
    + eapply Forall_impl; [|exact FL]. cbn beta. intros d [Q1 Q2]. right. left. rewrite Q1, Q2. reflexivity.
    + constructor; [|constructor]. right. left. reflexivity.
Qed.

Lemma cells_beyond : forall nb C d, cells nb C -> pos <= d_off d -> 0 <= d_off d -> cells (set_diffs nb (b_diffs nb ++ [d])) C.
Proof.
  intros nb C d [[M1 M2] L D] P N. split; [|exact L|].
  - split; [exact M1|]. cbn [set_diffs b_diffs]. apply Forall_app. split; [exact M2|]. constructor; [exact N|constructor].
  - cbn [set_diffs b_diffs]. apply Forall_app. split; [exact D|]. constructor; [left; exact P|constructor].
Qed.

(** ** Reading the table *)

Variables (tp soff : Z) (es : list Z) (tl : Z).
Hypothesis HSO : 0 <= soff.
Local Notation vp := (tp - soff).

Definition vcell (x k : Z) : Prop :=
  (x = tp /\ k = 4) \/ (x = vp /\ k = 2) \/ (x = vp + 2 /\ k = 2) \/ exists i, 0 <= i < zlen es /\ x = vp + 4 + 2 * i /\ k = 2.

Record vtab (nb : base) (C : list (Z * Z)) : Prop := {
  v_cells : cells nb C;
  v_table : table_at (content nb) tp soff es tl;
  v_safe : forall x k, vcell x k -> x + k <= pos /\ safe C x k
}.

Lemma vtab_vpos : forall nb C, vtab nb C -> vtable_pos nb tp = Ok vp.
Proof.
  intros nb C [K [T1 T2 T3 T4 T5 T6] S]. unfold vtable_pos. destruct (S tp 4) as [S1 S2]; [left; auto|].
  rewrite (cells_rd nb C 4 tp _ K ltac:(lia) ltac:(lia) ltac:(lia) S2 T1). cbn [bind]. rewrite Z.mod_small by lia. reflexivity.
Qed.

Lemma vtab_virtual : forall nb C i e, vtab nb C -> zget es i = Some e -> virtual_table nb tp i = Ok (tp + e).
Proof.
  intros nb C i e V He. unfold virtual_table. rewrite (vtab_vpos nb C V). cbn [bind]. pose proof (zget_some_range _ _ _ He) as R.
  destruct V as [K [T1 T2 T3 T4 T5 T6] S]. destruct (S (vp + 4 + 2 * i) 2) as [S1 S2]; [right; right; right; eauto|].
  assert (LB : vp + 4 + 2 * i < len_buf nb).
  { apply content_last; [apply (k_mem _ _ K)|]. destruct (T6 i e He) as [_ H]. destruct (H 0 ltac:(lia)) as (y & Y & _). rewrite Z.add_0_r in Y. congruence. }
  replace (len_buf nb <=? vp + 4 + i * 2) with false by lia. rewrite andb_false_r.
  replace (vp + 4 + i * 2) with (vp + 4 + 2 * i) by lia.
  rewrite (cells_rd nb C 2 (vp + 4 + 2 * i) e K ltac:(lia) ltac:(lia) ltac:(lia) S2 (T6 i e He)). reflexivity.
Qed.

Lemma vtab_ref : forall nb C i e, vtab nb C -> zget es i = Some e ->
  (e = 0 -> table_ref nb tp i = Ok (-1)) /\
  (forall o, 4 <= e -> tp + e + 4 <= pos -> safe C (tp + e) 4 -> holds_uint (content nb) (tp + e) 4 o -> table_ref nb tp i = Ok (tp + e + o)).
Proof.
  intros nb C i e V He. pose proof (vtab_virtual nb C i e V He) as VT. unfold table_ref, virtual_table_is_zero. rewrite VT. cbn [bind]. split.
  - intros ->. replace (tp + 0 =? tp) with true by lia. reflexivity.
  - intros o E4 P S H. replace (tp + e =? tp) with false by lia. destruct V as [K T _]. pose proof (ta_vpos _ _ _ _ _ T) as TV.
    rewrite (cells_rd nb C 4 (tp + e) o K ltac:(lia) ltac:(lia) ltac:(lia) S H). reflexivity.
Qed.

Lemma vtab_preload : forall nb C, vtab nb C -> preload_vtable nb tp = Ok tl.
Proof.
  intros nb C V. unfold preload_vtable. rewrite (vtab_vpos nb C V). cbn [bind]. destruct V as [K [T1 T2 T3 T4 T5 T6] S].
  destruct (S vp 2) as [S1 S2]; [right; left; auto|]. rewrite (cells_rd nb C 2 vp _ K ltac:(lia) ltac:(lia) ltac:(lia) S2 T4). cbn [bind].
  destruct (S (vp + 2) 2) as [S3 S4]; [right; right; left; auto|]. rewrite (cells_rd nb C 2 (vp + 2) _ K ltac:(lia) ltac:(lia) ltac:(lia) S4 T5). cbn [bind].
  assert (HP : forall f j, 0 <= j <= zlen es -> zlen es - j <= Z.of_nat f -> preload_loop f nb (vp + 4 + 2 * j) (vp + (4 + 2 * zlen es)) = Ok tt).
  { induction f as [|f IH]; intros j Hj Hf; cbn [preload_loop].
    - replace (vp + (4 + 2 * zlen es) <=? vp + 4 + 2 * j) with true by lia. reflexivity.
    - destruct (vp + (4 + 2 * zlen es) <=? vp + 4 + 2 * j) eqn:X; [reflexivity|].
      destruct (zget_some es j) as [e He]; [lia|]. destruct (S (vp + 4 + 2 * j) 2) as [S5 S6]; [right; right; right; exists j; lia|].
      rewrite (cells_rd nb C 2 (vp + 4 + 2 * j) e K ltac:(lia) ltac:(lia) ltac:(lia) S6 (T6 j e He)). cbn [bind].
      replace (vp + 4 + 2 * j + 2) with (vp + 4 + 2 * (j + 1)) by lia. apply IH; lia. }
  pose proof (zlen_nonneg es) as LN. specialize (HP (Z.to_nat (4 + 2 * zlen es)) 0 ltac:(lia) ltac:(lia)).
  replace (vp + 4 + 2 * 0) with (vp + 4) in HP by lia. rewrite HP. reflexivity.
Qed.

(** A write that misses the table keeps it readable. *)
Lemma vtab_keep : forall nb nb' C C', vtab nb C -> cells nb' C' ->
  (forall y l, In (y, l) C' -> In (y, l) C \/ forall x k, vcell x k -> disjoint y l x k) ->
  (forall x k, vcell x k -> forall j, 0 <= j < k -> content nb' (x + j) = content nb (x + j)) -> vtab nb' C'.
Proof.
  intros nb nb' C C' [K [T1 T2 T3 T4 T5 T6] S] K' HC HE. split; [exact K'| |].
  - constructor; auto.
    + eapply holds_uint_ext; [|exact T1]. intros j Hj. apply (HE tp 4); [left; auto|lia].
    + eapply holds_uint_ext; [|exact T4]. intros j Hj. apply (HE vp 2); [right; left; auto|lia].
    + eapply holds_uint_ext; [|exact T5]. intros j Hj. apply (HE (vp + 2) 2); [right; right; left; auto|lia].
    + intros i e He. eapply holds_uint_ext; [|exact (T6 i e He)]. intros j Hj. apply (HE (vp + 4 + 2 * i) 2); [|lia].
      right; right; right. exists i. pose proof (zget_some_range _ _ _ He). auto.
  - intros x k Hv. destruct (S x k Hv) as [S1 S2]. split; [exact S1|]. intros y l Hy. destruct (HC y l Hy) as [Q|Q]; [apply S2; exact Q|]. right. apply Q. exact Hv.
Qed.

(** ** The loop over the fields *)

Section Loop.
Variable n : names.
Variable c : cnode.
Variable z : Z.
Hypothesis HC : c_node c = Some (tp, z).
Hypothesis HL : is_list_name (c_name c) (v_len (c_info c)) = Ok false.
Hypothesis HSt : is_struct_name n (c_name c) = false.
Variables idx size : Z.
Hypothesis HSZ : 0 <= size.
Hypothesis HPos : 0 <= pos.
Variable lk : Z -> option (Z * Z).

Definition skipped (i : Z) : Prop := lk i = None /\ (i = idx \/ kind_at c i <> KRef \/ zget es i = Some 0).

Definition linked (i : Z) : Prop := exists e u, lk i = Some (tp + e, u) /\ i <> idx /\ kind_at c i = KRef /\
  (let g := group_at c i in is_field_union g || is_field_table g || is_field_slice g || is_field_bytes g = true) /\
  zget es i = Some e /\ 4 <= e /\ tp + e + 4 <= pos /\ tp + e + 4 <= u /\ u - (tp + e) + size < 4294967296 /\
  (forall x k, vcell x k -> disjoint (tp + e) 4 x k).

Definition touched (is : list Z) (x : Z) : Prop := exists i a u, In i is /\ lk i = Some (a, u) /\ pos <= u /\ a <= x < a + 4.

Lemma fields_moved : forall is nb C, NoDup is -> vtab nb C -> (forall i, In i is -> skipped i \/ linked i) ->
  (forall i j a u a' u', In i is -> In j is -> i <> j -> lk i = Some (a, u) -> lk j = Some (a', u') -> disjoint a 4 a' 4) ->
  (forall i a u, In i is -> lk i = Some (a, u) -> (forall y l, In (y, l) C -> disjoint y l a 4) /\ holds_uint (content nb) a 4 (u - a)) ->
  exists nb' C', move_fields n is idx pos size nb c tp = Ok nb' /\ vtab nb' C' /\
    (forall x, ~ touched is x -> content nb' x = content nb x) /\
    (forall i a u, In i is -> lk i = Some (a, u) -> pos <= u -> holds_uint (content nb') a 4 (u - a + size)).
Proof.
  induction is as [|i is IH]; intros nb C ND V HK HP HH.
  - exists nb, C. split; [reflexivity|]. split; [exact V|]. split; [reflexivity|]. intros i a u [].
  - inversion ND as [|? ? N1 N2]; subst. cbn [move_fields].
    assert (SAME : (if i =? idx then Ok nb else match kind_at c i with
                     | KRef => do r <- table_ref nb tp i; if pos <=? r then move_node n nb c i pos size else Ok nb
                     | _ => Ok nb end) = Ok nb -> (forall a u, lk i = Some (a, u) -> u < pos) ->
      exists nb' C', (do b' <- (if i =? idx then Ok nb else match kind_at c i with
                     | KRef => do r <- table_ref nb tp i; if pos <=? r then move_node n nb c i pos size else Ok nb
                     | _ => Ok nb end); move_fields n is idx pos size b' c tp) = Ok nb' /\ vtab nb' C' /\
    (forall x, ~ touched (i :: is) x -> content nb' x = content nb x) /\
    (forall j a u, In j (i :: is) -> lk j = Some (a, u) -> pos <= u -> holds_uint (content nb') a 4 (u - a + size))).
    { intros -> NB. cbn [bind]. destruct (IH nb C N2 V) as (nb' & C' & M1 & M2 & M3 & M4).
      - intros j Hj. apply HK. right. exact Hj.
      - intros j k a u a' u' Hj Hk. apply HP; right; assumption.
      - intros j a u Hj. apply HH. right. exact Hj.
      - exists nb', C'. split; [exact M1|]. split; [exact M2|]. split.
        + intros x Hx. apply M3. intros (j & a & u & J1 & J2). apply Hx. exists j, a, u. split; [right; exact J1|exact J2].
        + intros j a u [<-|Hj] HLk HU; [specialize (NB a u HLk); lia|]. apply (M4 j); assumption. }
    destruct (HK i (or_introl eq_refl)) as [(S1 & S2)|(e & u & L1 & L2 & L3 & L4 & L5 & L6 & L7 & L8 & L9 & L10)].
    + apply SAME; [|intros a u Q; congruence]. destruct (Z.eqb_spec i idx) as [|NE]; [reflexivity|]. destruct S2 as [S2|[S2|S2]]; [contradiction| |].
      * destruct (kind_at c i); try reflexivity. contradiction.
      * destruct (kind_at c i); try reflexivity. rewrite (proj1 (vtab_ref nb C i 0 V S2) eq_refl). cbn [bind]. replace (pos <=? -1) with false by lia. reflexivity.
    + destruct (HH i (tp + e) u (or_introl eq_refl) L1) as [H1 H2].
      assert (SF : safe C (tp + e) 4) by (intros y l Hy; right; apply H1; exact Hy).
      assert (TR : table_ref nb tp i = Ok u).
      { rewrite (proj2 (vtab_ref nb C i e V L5) (u - (tp + e)) L6 L7 SF H2). f_equal. lia. }
      destruct (pos <=? u) eqn:PU.
      2:{ apply SAME; [|intros a u' Q; assert (u' = u) by congruence; lia]. replace (i =? idx) with false by lia. rewrite L3, TR. cbn [bind]. rewrite PU. reflexivity. }
      assert (MV : exists nb1, move_node n nb c i pos size = Ok nb1 /\ cells nb1 ((tp + e, 4) :: C) /\
        forall x, content nb1 x = img_write (content nb) (tp + e) (le_encode 4 (u - (tp + e) + size)) x).
      { unfold move_node. rewrite HL. cbn [bind]. rewrite HSt. cbn zeta in L4. rewrite L4, HC. unfold move_pos. cbn [t_io t_pos].
        rewrite (vtab_virtual nb C i e V L5). cbn [bind]. pose proof (ta_vpos _ _ _ _ _ (v_table _ _ V)) as TV.
        rewrite (cells_rd nb C 4 (tp + e) _ (v_cells _ _ V) ltac:(lia) ltac:(lia) ltac:(lia) SF H2). cbn [bind].
        replace (tp + e + (u - (tp + e)) <? pos) with false by lia.
        replace (u32 (u - (tp + e) + size)) with (u - (tp + e) + size) by (unfold u32; rewrite Z.mod_small; [reflexivity|change (2 ^ 32) with 4294967296; lia]).
        set (bs := le_encode 4 (u - (tp + e) + size)). assert (Z4 : zlen bs = 4) by (unfold bs; rewrite zlen_le_encode; reflexivity).
        destruct (cells_write nb C (tp + e) bs (v_cells _ _ V) ltac:(lia) ltac:(lia) ltac:(lia)) as (nb1 & W1 & W2 & _ & W3).
        { rewrite Z4. exact SF. }
        rewrite Z4 in *. rewrite W1. cbn [bind t_io]. eauto. }
      destruct MV as (nb1 & MV1 & MV2 & MV3). replace (i =? idx) with false by lia. rewrite L3, TR. cbn [bind]. rewrite PU, MV1. cbn [bind].
      set (bs := le_encode 4 (u - (tp + e) + size)) in *. assert (Z4 : zlen bs = 4) by (unfold bs; rewrite zlen_le_encode; reflexivity).
      assert (MS : forall x, x < tp + e \/ tp + e + 4 <= x -> content nb1 x = content nb x).
      { intros x Hx. rewrite MV3. unfold img_write. rewrite Z4. replace ((tp + e <=? x) && (x <? tp + e + 4)) with false by lia. reflexivity. }
      assert (V1 : vtab nb1 ((tp + e, 4) :: C)).
      { apply (vtab_keep nb nb1 C); auto.
        - intros y l [Q|Q]; [|left; exact Q]. right. assert (y = tp + e) by congruence. assert (l = 4) by congruence. subst. exact L10.
        - intros x k Hv j Hj. apply MS. specialize (L10 x k Hv). unfold disjoint in L10. lia. }
      destruct (IH nb1 ((tp + e, 4) :: C) N2 V1) as (nb' & C' & M1 & M2 & M3 & M4).
      * intros j Hj. apply HK. right. exact Hj.
      * intros j k a u1 a' u' Hj Hk. apply HP; right; assumption.
      * intros j a u1 Hj HLk. destruct (HH j a u1 (or_intror Hj) HLk) as [H3 H4].
        assert (DJ : disjoint (tp + e) 4 a 4).
        { apply (HP i j (tp + e) u a u1); auto; [left; reflexivity|right; exact Hj|]. intros Q. subst j. contradiction. }
        split.
        -- intros y l [Q|Q]; [|apply H3; exact Q]. assert (y = tp + e) by congruence. assert (l = 4) by congruence. subst. exact DJ.
        -- eapply holds_uint_ext; [|exact H4]. intros k Hk. apply MS. unfold disjoint in DJ. lia.
      * exists nb', C'. split; [exact M1|]. split; [exact M2|]. split.
        -- intros x Hx. rewrite M3.
           ++ apply MS. destruct (Z_lt_dec x (tp + e)) as [|G]; [left; lia|]. destruct (Z_lt_dec x (tp + e + 4)) as [G2|]; [|right; lia].
              exfalso. apply Hx. exists i, (tp + e), u. split; [left; reflexivity|]. split; [exact L1|]. lia.
           ++ intros (j & a & u' & J1 & J2). apply Hx. exists j, a, u'. split; [right; exact J1|exact J2].
        -- intros j a u' [<-|Hj] HLk HU; [|apply (M4 j); assumption].
           assert (a = tp + e) by congruence. assert (u' = u) by congruence. subst a u'.
           assert (H4 : holds_uint (content nb1) (tp + e) 4 (u - (tp + e) + size)).
           { apply holds_uint_encode; [|change (256 ^ Z.of_nat 4) with 4294967296; lia]. intros k Hk. rewrite MV3. unfold img_write. rewrite Z4.
             replace ((tp + e <=? tp + e + k) && (tp + e + k <? tp + e + 4)) with true by lia. unfold bs. f_equal. lia. }
           eapply holds_uint_ext; [|exact H4]. intros k Hk. apply M3. intros (j & a & u' & J1 & J2 & J3 & J4).
           assert (DJ : disjoint (tp + e) 4 a 4).
           { apply (HP i j (tp + e) u a u'); auto; [left; reflexivity|right; exact J1|]. intros Q. subst j. contradiction. }
           unfold disjoint in DJ. lia.
Qed.
End Loop.
End Cells.
