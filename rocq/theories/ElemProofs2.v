(** Numbers that a write leaves alone, and where the numbers of a value are. *)
From Coq Require Import ZArith List Bool Lia String.
From Coq Require Import Strings.Byte.
From Verif Require Import GoLib BaseModel GoLemmas BaseSpec BaseProofs BaseProofs2 BaseProofs3 TableModel TableSpec TableProofs.
From Verif Require Import TableProofs2 NameModel NameSpec StreamModel WalkModel WalkSpec WalkProofs WalkProofs2 WalkProofs3 WalkProofs5.
From Verif Require Import EqualSpec BuildModel InsModel InsSpec InsProofs InsProofs7 PutModel PutSpec PutProofs PutProofs2 PutProofs7.
From Verif Require Import JourModel JourSpec JourProofs JourProofs8 JourProofs9 ElemModel ElemSpec ElemProofs.
From Verif Require BuildSpec BuildProofs3 InsProofs11.
Import ListNotations.
Open Scope list_scope.
Open Scope Z_scope.

(** ** Writing a number *)

Lemma mid_cases : forall A (l1 l2 k1 k2 : list A) d e, l1 ++ d :: l2 = k1 ++ e :: k2 ->
  (exists r, l1 = k1 ++ e :: r /\ k2 = r ++ d :: l2) \/ (l1 = k1 /\ d = e /\ l2 = k2) \/
  (exists r, k1 = l1 ++ d :: r /\ l2 = r ++ e :: k2).
Proof.
  intros A l1. induction l1 as [|x l1 IH]; intros l2 k1 k2 d e H; destruct k1 as [|y k1]; cbn [app] in H.
  - injection H as -> ->. auto.
  - injection H as -> ->. right. right. exists k1. auto.
  - injection H as -> <-. left. exists l1. auto.
  - injection H as -> H. destruct (IH _ _ _ _ _ H) as [(r & -> & ->)|[(-> & -> & ->)|(r & -> & ->)]]; [left; exists r; auto|auto|right; right; exists r; auto].
Qed.

Lemma u_held : forall b off p b', base_u b off (zlen p) p = Ok b' -> 0 <= off -> 1 <= zlen p ->
  held b' off (zlen p) /\ forall a k, 1 <= k -> held b a k -> disjoint a k off (zlen p) -> held b' a k.
Proof.
  intros b off p b' H H0 HP. unfold base_u in H. replace (zlen p <? 0) with false in H by lia. rewrite Z.ltb_irrefl in H.
  rewrite copy_at_full in H by (rewrite zlen_zeros; lia). unfold base_d in H.
  set (nd := mkDiff off (gs_of p)) in *.
  assert (ZN : d_len nd = zlen p) by reflexivity. assert (ON : d_off nd = off) by reflexivity.
  assert (NB : forall a k, disjoint a k off (zlen p) -> beside a k nd) by (intros a k D; unfold beside, disjoint in *; rewrite ZN, ON; lia).
  assert (LAST : forall ds, held (set_diffs b (ds ++ [nd])) off (zlen p)).
  { intros ds. left. exists ds, nd, nil. cbn [set_diffs b_diffs]. rewrite ON, ZN. repeat (split; [reflexivity || lia|]). constructor. }
  assert (PLAIN : forall l, Forall (fun d => d_off d = off /\ d_len d = zlen p) l -> forall a k, held b a k -> disjoint a k off (zlen p) -> held (set_diffs b (b_diffs b ++ l)) a k).
  { intros l HL a k HH HDJ. assert (FL : Forall (beside a k) l).
    { eapply Forall_impl; [|exact HL]. cbn. intros d [D1 D2]. unfold beside, disjoint in *. rewrite D1, D2. lia. }
    destruct HH as [(l1 & d & l2 & E & D1 & D2 & F)|[HB F]]; [left|right]; cbn [set_diffs b_diffs b_bytes].
    - exists l1, d, (l2 ++ l). rewrite E. rewrite <- app_assoc. split; [reflexivity|]. repeat (split; [assumption|]). apply Forall_app. auto.
    - split; [exact HB|]. apply Forall_app. auto. }
  destruct (last_index (covers off) (b_diffs b)) as [sn|] eqn:E.
  - destruct (last_index_some _ _ _ _ E) as (l1 & d & l2 & ED & EL & C & F).
    rewrite ED, <- EL, nth_error_mid in H. destruct (d_off d + d_len d <=? off + zlen p) eqn:X.
    { rewrite <- ED in H. injection H as <-. split; [apply LAST|]. intros a k _. apply PLAIN. constructor; [split; reflexivity|constructor]. }
    apply covers_iff in C. pose proof (gs_cap_ge (d_sl d)) as GC. unfold d_len in C, X.
    rewrite gs_from_ok in H by lia. cbn [bind] in H. unfold gs_upto in H. rewrite gs_range_ok in H by lia. cbn [bind] in H.
    rewrite firstn_mid, skipn_mid_S in H. unfold diffs_insert in H.
    set (B := mkDiff (d_off d) _) in H. set (A := mkDiff (off + zlen p) _) in H.
    rewrite app_length in H. cbn [List.length] in H.
    destruct (List.length l1 + S (List.length l2) <? S (List.length l1))%nat eqn:EE; [apply Nat.ltb_lt in EE; lia|].
    replace (S (List.length l1)) with (List.length (l1 ++ [B])) in H by (rewrite app_length; cbn; lia).
    replace (l1 ++ B :: l2) with ((l1 ++ [B]) ++ l2) in H by (rewrite <- app_assoc; reflexivity).
    rewrite firstn_mid, skipn_mid in H. injection H as <-. split; [apply LAST|].
    assert (EB : d_off B = d_off d /\ d_len B = off + zlen p - d_off d).
    { split; [reflexivity|]. unfold B, d_len, gs_len. cbn [d_sl sl_data]. rewrite zskip_0, zlen_zfirst, zlen_app. unfold gs_cap in GC. unfold gs_len in *. pose proof (zlen_nonneg (sl_spare (d_sl d))). lia. }
    assert (EA : d_off A = off + zlen p /\ d_len A = d_off d + gs_len (d_sl d) - (off + zlen p)).
    { split; [reflexivity|]. unfold A, d_len, gs_len. cbn [d_sl sl_data]. rewrite zlen_zskip. unfold gs_len in *. lia. }
    destruct EB as [EB1 EB2], EA as [EA1 EA2].
    clearbody A B nd. clear E EE PLAIN LAST F.
    assert (SUB : forall a k, beside a k d -> beside a k B /\ beside a k A).
    { intros a k HBd. unfold beside in *. rewrite EB1, EB2, EA1, EA2. unfold d_len in HBd. lia. }
    intros a k HK HH HDJ.
    specialize (NB a k HDJ). unfold disjoint in HDJ.
    destruct HH as [(k1 & d' & k2 & E & D1 & D2 & F)|[HB F]].
    + left. cbn [set_diffs b_diffs]. rewrite ED in E. apply mid_cases in E. destruct E as [(r & -> & ->)|[(<- & <- & <-)|(r & -> & ->)]].
      * apply Forall_app in F. destruct F as [F1 F2]. inversion F2 as [|? ? F3 F4]; subst. destruct (SUB a k F3).
        exists k1, d', (r ++ B :: A :: l2 ++ [nd]). split; [repeat (rewrite <- app_assoc || cbn [app]); reflexivity|]. do 2 (split; [assumption|]).
        apply Forall_app. split; [exact F1|]. do 2 (constructor; [assumption|]). apply Forall_app. split; [exact F4|]. constructor; [exact NB|constructor].
      * unfold d_len in D2. assert (FN : Forall (beside a k) (l2 ++ [nd])) by (apply Forall_app; split; [exact F|constructor; [exact NB|constructor]]).
        destruct HDJ as [HJ|HJ].
        -- exists l1, B, (A :: l2 ++ [nd]). rewrite EB1, EB2. split; [repeat (rewrite <- app_assoc || cbn [app]); reflexivity|]. split; [lia|]. split; [lia|]. constructor; [|exact FN].
           right. rewrite EA1. lia.
        -- exists (l1 ++ [B]), A, (l2 ++ [nd]). rewrite EA1, EA2. split; [repeat (rewrite <- app_assoc || cbn [app]); reflexivity|]. split; [lia|]. split; [lia|exact FN].
      * exists (l1 ++ B :: A :: r), d', (k2 ++ [nd]). split; [repeat (rewrite <- app_assoc || cbn [app]); reflexivity|]. do 2 (split; [assumption|]).
        apply Forall_app. split; [exact F|constructor; [exact NB|constructor]].
    + right. cbn [set_diffs b_diffs b_bytes]. split; [exact HB|]. rewrite ED in F. apply Forall_app in F. destruct F as [F1 F2]. inversion F2 as [|? ? F3 F4]; subst.
      destruct (SUB a k F3). match goal with |- Forall _ ?l => replace l with (l1 ++ B :: A :: l2 ++ [nd]) by (repeat (rewrite <- app_assoc || cbn [app]); reflexivity) end. apply Forall_app. split; [exact F1|]. do 2 (constructor; [assumption|]). apply Forall_app. split; [exact F4|constructor; [exact NB|constructor]].
  - destruct ((off <? gs_len (b_bytes b)) && (off + zlen p <? gs_cap (b_bytes b))) eqn:X.
    + rewrite gs_range_ok in H by lia. cbn [bind] in H. injection H as <-. split.
      * match goal with |- held (set_diffs b (?l ++ [?x; nd])) _ _ => replace (l ++ [x; nd]) with ((l ++ [x]) ++ [nd]) by (rewrite <- app_assoc; reflexivity) end. apply LAST.
      * intros a k _. apply PLAIN. constructor; [|constructor; [split; reflexivity|constructor]]. split; [reflexivity|].
        unfold d_len, gs_len. cbn [d_sl sl_data]. rewrite zlen_zskip, zlen_zfirst, zlen_app. unfold gs_cap in X. lia.
    + injection H as <-. split; [apply LAST|]. intros a k _. apply PLAIN. constructor; [split; reflexivity|constructor].
Qed.

(** The image after a number is written that was there already. *)
Lemma rewritten : forall b m off w, in_memory b -> shows b m -> 0 <= off -> holds_uint m off 4 w -> u32 w = w ->
  exists b', base_u b off 4 (le_encode 4 (u32 w)) = Ok b' /\ in_memory b' /\ shows b' m /\ held b' off 4 /\
    forall a k, 1 <= k -> held b a k -> disjoint a k off 4 -> held b' a k.
Proof.
  intros b m off w HB HM H0 HW EW. rewrite EW. set (p := le_encode 4 w).
  assert (ZP : zlen p = 4) by (unfold p; rewrite zlen_le_encode; reflexivity).
  destruct (base_u_spec b off 4 p HB H0 ZP) as (b' & U1 & U2 & U3 & U4 & U5 & U6).
  assert (U1' : base_u b off (zlen p) p = Ok b') by (rewrite ZP; exact U1).
  destruct (u_held b off p b' U1' H0 ltac:(lia)) as [K1 K2]. rewrite ZP in K1, K2.
  exists b'. split; [exact U1|]. split; [exact U2|]. split; [|split; [exact K1|exact K2]].
  intros i Hi. rewrite (peek_content b' i U2 Hi), U6. f_equal. unfold img_write. rewrite ZP.
  destruct ((off <=? i) && (i <? off + 4)) eqn:E; [|apply shown; auto].
  destruct HW as [W1 W2]. destruct (W2 (i - off) ltac:(lia)) as (x & X1 & X2). replace (off + (i - off)) with i in X1 by lia. rewrite X1.
  destruct (zget_some p (i - off) ltac:(lia)) as (y & Y). rewrite Y. f_equal. pose proof (le_decode_digit _ _ _ Y) as DY.
  unfold p in DY. rewrite le_decode_encode, (Z.mod_small w) in DY by exact W1. assert (EB : b2z x = b2z y) by congruence. apply (f_equal z2b) in EB. rewrite !z2b_b2z in EB. congruence.
Qed.

(** ** Values inside a window *)

Section Window.
Variable m : image.
Variable s : schema.
Variables lo hi : Z.
Local Notation mw := (BuildSpec.window m lo hi).

Lemma window_uint : forall a k v, (1 <= k)%nat -> holds_uint mw a k v -> lo <= a /\ a + Z.of_nat k <= hi /\ holds_uint m a k v.
Proof.
  intros a k v HK [H1 H2]. assert (IN : forall i, 0 <= i < Z.of_nat k -> lo <= a + i < hi).
  { intros i Hi. destruct (H2 i Hi) as (x & X & _). apply BuildProofs3.window_some in X. lia. }
  pose proof (IN 0 ltac:(lia)). pose proof (IN (Z.of_nat k - 1) ltac:(lia)). split; [lia|]. split; [lia|]. split; [exact H1|].
  intros i Hi. destruct (H2 i Hi) as (x & X1 & X2). apply BuildProofs3.window_some in X1. exists x. split; [apply X1|exact X2].
Qed.

Lemma window_table : forall p so es l, table_at mw p so es l -> table_at m p so es l.
Proof.
  intros p so es l [T1 T2 T3 T4 T5 T6]. constructor; auto.
  - eapply window_uint; [|exact T1]. lia.
  - eapply window_uint; [|exact T4]. lia.
  - eapply window_uint; [|exact T5]. lia.
  - intros i e He. eapply window_uint; [|exact (T6 i e He)]. lia.
Qed.

Lemma frame_window : forall v, somewhere mw s v ->
  (forall a k, In (a, k) (frame m v) -> lo <= a /\ a + k <= hi) /\
  (forall a t, In (a, t) (links m v) -> lo <= a /\ a + 4 <= hi).
Proof.
  intros v. induction v as [ty|q w'|q ms|q k' w'|q k' ms|nm p gs go|nm p vs go] using val_deep; intros HW; try (split; intros ? ? H; destruct H; fail).
  - split; [|intros ? ? []]. intros a k [E|[]]. injection E as <- <-.
    destruct HW as [(? & ? & HW)|(p' & pv & ty & e & HW)]; [inversion HW|].
    inversion HW; subst; try (match goal with X : stored_table _ _ _ _ (Scalars _ _ _) |- _ => inversion X end; fail).
    match goal with V : vector_from _ _ _ _ |- _ => destruct V as [_ V]; apply window_uint in V; lia end.
  - split; [|intros ? ? []]. intros a k [E|[]]. injection E as <- <-.
    destruct HW as [(? & ? & HW)|(p' & pv & ty & e & HW)]; [inversion HW|].
    inversion HW; subst; try (match goal with X : stored_table _ _ _ _ (Structs _ _ _) |- _ => inversion X end; fail).
    match goal with V : vector_from _ _ _ _ |- _ => destruct V as [_ V]; apply window_uint in V; lia end.
  - assert (G : exists name q, stored_table mw s name q (Tab nm p gs)).
    { destruct HW as [H|(p' & pv & ty & e & H)]; [exact H|]. inversion H; subst; eauto. }
    destruct G as (name & q & G). inversion G as [? ? so es l tys ? Hs T Hso SF]; subst.
    destruct (fields_of mw s _ _ _ _ _ SF) as (_ & L2 & N). pose proof (window_table _ _ _ _ T) as TM.
    pose proof (table_vtable m p so es l TM Hso) as EV. destruct T as [T1 T2 T3 T4 T5 T6].
    apply window_uint in T1; [|lia]. apply window_uint in T4; [|lia]. apply window_uint in T5; [|lia].
    assert (SUB : forall f, In f gs -> somewhere mw s f).
    { intros f Hf. apply zget_of_in in Hf. destruct Hf as (i & Hi). eapply somewhere_field; eauto. }
    split.
    + cbn [frame]. rewrite EV. intros a k [E|[E|[E|H]]]; try (injection E as <- <-; lia). apply in_app_or in H. destruct H as [H|H].
      * apply in_map_iff in H. destruct H as (i & E & Hi). pose proof (f_equal fst E) as Ea. pose proof (f_equal snd E) as Ek. cbn [fst snd] in Ea, Ek. apply in_seq in Hi.
        destruct (zget_some es (Z.of_nat i)) as (e & He); [unfold zlen in *; lia|]. pose proof (T6 _ _ He) as T7. apply window_uint in T7; lia.
      * apply in_flat_map in H. destruct H as (f & F1 & F2). eapply (go f F1 (SUB f F1)); exact F2.
    + intros a t H. rewrite links_tab in H. apply concat_numbered_in in H. destruct H as (i & f & Hi & H). pose proof (zget_in _ _ _ _ Hi) as FI.
      apply in_app_or in H. destruct H as [H|H]; [|eapply (go f FI (SUB f FI)); exact H].
      destruct (N i f Hi) as (t' & e & pv & N1 & N2 & N3 & _). destruct (start f) as [u|] eqn:ES; [|destruct H]. destruct H as [E|[]].
      pose proof (f_equal fst E) as Ea. cbn [fst] in Ea. rewrite (table_slot m p so es l i e TM Hso N2) in Ea. subst a.
      assert (PT : exists u', points_to mw (p + e) u').
      { clear - N3 ES. inversion N3; subst; cbn [start] in ES; try discriminate; eauto;
          match goal with V : vector_from _ _ _ _ |- _ => destruct V as [V _]; eauto end. }
      destruct PT as (u' & _ & PT). apply window_uint in PT; lia.
  - destruct HW as [(? & ? & HW)|(p' & pv & ty & e & HW)]; [inversion HW|].
    assert (G : exists tn, vector_from mw (p' + e) p (zlen vs) /\ stored_elems mw s p tn vs).
    { inversion HW; subst; try (match goal with X : stored_table _ _ _ _ (Tabs _ _ _) |- _ => inversion X end; fail). eauto. }
    destruct G as (tn & [_ V] & G). apply window_uint in V; [|lia].
    assert (SUB : forall i f, zget vs i = Some f -> somewhere mw s f /\ exists u, points_to mw (p + 4 * i) u).
    { intros i f Hf. destruct (elems_of mw s p tn vs G i f Hf) as (u & U1 & U2). split; [left; eauto|eauto]. }
    split.
    + cbn [frame]. intros a k [E|H]; [injection E as <- <-; lia|]. apply in_flat_map in H. destruct H as (f & F1 & F2). pose proof F1 as FI. apply zget_of_in in FI. destruct FI as (i & FI).
      eapply (go f F1); [apply (SUB i f FI)|exact F2].
    + intros a t H. rewrite links_tabs in H. apply concat_numbered_in in H. destruct H as (i & f & Hi & H). pose proof (zget_in _ _ _ _ Hi) as FI. destruct (SUB i f Hi) as [S1 (u & _ & S2)].
      destruct H as [E|H]; [|eapply (go f FI S1); exact H]. pose proof (f_equal fst E) as Ea. cbn [fst] in Ea. subst a. apply window_uint in S2; lia.
Qed.
End Window.

(** ** What other bytes do not change *)

Section Same.
Variables m m' : image.
Variable s : schema.

Lemma stored_same : forall name p v,
  (forall a k, In (a, k) (parts m v) -> forall j, 0 <= j < k -> m' (a + j) = m (a + j)) ->
  (forall a u, In (a, u) (links m v) -> forall j, 0 <= j < 4 -> m' (a + j) = m (a + j)) ->
  stored_table m s name p v -> stored_table m' s name p v /\ same_value m m' v v.
Proof.
  intros name p v CP CL H. destruct (bounded ((p, p) :: ties m v)) as (B & HB).
  assert (SH : forall y, shift B 0 y = y) by (intros y; unfold shift; destruct (y <? B); lia).
  pose proof (InsProofs11.stored_moved m m' s B 0 (Z.le_refl 0) (parts m v) (links m v)) as SM.
  specialize (SM ltac:(intros y k HI j Hj; rewrite SH; apply (CP y k HI j Hj))).
  specialize (SM ltac:(intros a t HI _ HO; rewrite !SH; eapply holds_uint_ext; [|exact HO]; intros j Hj; apply (CL a t HI); lia)).
  destruct (proj1 SM name p v H) as [S1 S2].
  { split; [apply incl_refl|]. split; [apply incl_refl|]. intros a c Hac. destruct (HB a c (or_intror Hac)). lia. }
  rewrite SH, moved_zero in S1. rewrite moved_zero in S2. auto.
Qed.

Lemma frame_in_parts : forall u, somewhere m s u -> forall a k, In (a, k) (frame m u) ->
  exists c0 k0, In (c0, k0) (parts m u) /\ c0 <= a /\ a + k <= c0 + k0 /\ 1 <= k.
Proof.
  intros u. induction u as [ty|q w'|q ms|q k' w'|q k' ms|nm p gs go|nm p vs go] using val_deep; intros HW a0 k0 H; cbn [frame] in H; try (destruct H; fail).
  - destruct H as [E|[]]. injection E as <- <-. exists (q - 4), (4 + k' * w'). cbn [parts]. split; [left; reflexivity|].
    destruct HW as [(? & ? & HW)|(p' & pv & ty & e & HW)]; [inversion HW|].
    inversion HW; subst; try (match goal with X : stored_table _ _ _ _ (Scalars _ _ _) |- _ => inversion X end; fail).
    match goal with V : vector_from _ _ _ _ |- _ => pose proof (proj1 (proj2 V)) end. match goal with |- context [zwidth ?x] => pose proof (zwidth_pos x) end. nia.
  - destruct H as [E|[]]. injection E as <- <-. exists (q - 4), (4 + k' * struct_size ms). cbn [parts]. split; [left; reflexivity|].
    destruct HW as [(? & ? & HW)|(p' & pv & ty & e & HW)]; [inversion HW|].
    inversion HW; subst; try (match goal with X : stored_table _ _ _ _ (Structs _ _ _) |- _ => inversion X end; fail).
    match goal with V : vector_from _ _ _ _ |- _ => pose proof (proj1 (proj2 V)) end. pose proof (struct_size_nonneg ms). nia.
  - cbn [parts]. pose proof (zlen_nonneg gs).
    destruct H as [E|[E|[E|H]]].
    + injection E as <- <-. exists p, 4. split; [left; reflexivity|]. lia.
    + injection E as <- <-. exists (vtable_of m p), (4 + 2 * zlen gs). split; [right; left; reflexivity|]. lia.
    + injection E as <- <-. exists (vtable_of m p), (4 + 2 * zlen gs). split; [right; left; reflexivity|]. lia.
    + apply in_app_or in H. destruct H as [H|H].
      * apply in_map_iff in H. destruct H as (i & E & Hi). pose proof (f_equal fst E) as Ea. pose proof (f_equal snd E) as Ek. cbn [fst snd] in Ea, Ek. apply in_seq in Hi. exists (vtable_of m p), (4 + 2 * zlen gs).
        split; [right; left; reflexivity|]. unfold zlen. lia.
      * apply in_flat_map in H. destruct H as (f & F1 & F2). pose proof F1 as FI. apply zget_of_in in FI. destruct FI as (i & FI).
        destruct (go f F1 (somewhere_field m s _ _ _ _ _ HW FI)) with (a := a0) (k := k0) as (c1 & k1 & C1 & C2); [exact F2|].
        exists c1, k1. split; [|exact C2]. right. right. apply in_flat_map. exists f. auto.
  - cbn [parts]. destruct H as [E|H]; [injection E as <- <-; exists (p - 4), 4; split; [left; reflexivity|lia]|].
    apply in_flat_map in H. destruct H as (f & F1 & F2). pose proof F1 as FI. apply zget_of_in in FI. destruct FI as (i & FI).
    destruct (go f F1 (somewhere_elem m s _ _ _ _ _ HW FI)) with (a := a0) (k := k0) as (c1 & k1 & C1 & C2); [exact F2|].
    exists c1, k1. split; [|exact C2]. right. apply in_flat_map. exists f. auto.
Qed.

Lemma tables_parts : forall v nm q fs, In (Tab nm q fs) (tables v) -> In (q, 4) (parts m v) /\ In (vtable_of m q, 4 + 2 * zlen fs) (parts m v).
Proof.
  intros v. induction v as [ty|q0 w'|q0 ms|q0 k' w'|q0 k' ms|nm0 p gs go|nm0 p vs go] using val_deep; intros nm q fs H; cbn [tables] in H; try (destruct H; fail); cbn [parts].
  - destruct H as [E|H]; [injection E as -> -> ->; split; [left|right; left]; reflexivity|]. apply in_flat_map in H. destruct H as (f & F1 & F2).
    destruct (go f F1 nm q fs F2). split; right; right; apply in_flat_map; eauto.
  - apply in_flat_map in H. destruct H as (f & F1 & F2). destruct (go f F1 nm q fs F2). split; right; apply in_flat_map; eauto.
Qed.

Lemma parts_same_tables : forall v, (forall a k, In (a, k) (parts m v) -> forall j, 0 <= j < k -> m' (a + j) = m (a + j)) -> same_tables m m' v.
Proof.
  intros v CP nm q gs Hin. destruct (tables_parts v nm q gs Hin) as [P1 P2]. pose proof (zlen_nonneg gs).
  assert (EV : vtable_of m' q = vtable_of m q).
  { unfold vtable_of. f_equal. apply num_ext. intros i Hi. apply (CP _ _ P1). lia. }
  split; [exact EV|]. intros i Hi. unfold slot_of. rewrite EV. f_equal. apply num_ext. intros j' Hj'.
  replace (vtable_of m q + 4 + 2 * i + j') with (vtable_of m q + (4 + 2 * i + j')) by lia. apply (CP _ _ P2). lia.
Qed.

End Same.
