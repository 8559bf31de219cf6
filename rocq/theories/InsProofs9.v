(** The buffer while references are moved. *)
From Coq Require Import ZArith List Bool Lia String Permutation.
From Coq Require Import Strings.Byte.
From Verif Require Import GoLib BaseModel GoLemmas BaseSpec BaseProofs TableModel TableSpec TableProofs TableProofs2.
From Verif Require Import NameModel NameSpec WalkModel WalkSpec WalkProofs WalkProofs2 WalkProofs3 WalkProofs5.
From Verif Require Import InsModel InsSpec InsProofs InsProofs2 InsProofs4 InsProofs5 InsProofs6 InsProofs7 InsProofs8.
Import ListNotations.
Open Scope list_scope.
Open Scope Z_scope.

(** ** Pairs *)

Lemma pairs_perm : forall A (R : A -> A -> Prop) l l', (forall x y, R x y -> R y x) ->
  Permutation l l' -> ForallOrdPairs R l -> ForallOrdPairs R l'.
Proof.
  intros A R l l' SY P. induction P as [|x l l' P IH|x y l|l l' l'' P1 IH1 P2 IH2]; intros H.
  - exact H.
  - inversion H as [|? ? H1 H2]; subst. constructor; [|auto]. rewrite Forall_forall in *. intros z Hz.
    apply H1. eapply Permutation_in; [apply Permutation_sym; exact P|exact Hz].
  - inversion H as [|? ? H1 H2]; subst. inversion H2 as [|? ? H3 H4]; subst. inversion H1 as [|? ? H5 H6]; subst.
    constructor; [constructor; [apply SY; exact H5|exact H3]|]. constructor; [exact H6|exact H4].
  - auto.
Qed.

Definition linkof (w : bond) : list (Z * Z) := match w_link w with Some l => [l] | None => [] end.

Section Links.
Variable n : names.
Variable m : image.

Lemma elem_links : forall c q k w, flat_map linkof (elem_bonds n c q k w) = [].
Proof.
  intros c q k w. unfold elem_bonds. generalize (number 0 (positions q w (Z.to_nat k))) as l.
  induction l as [|x l IH]; [reflexivity|]. cbn [map flat_map linkof w_link app]. exact IH.
Qed.

Lemma bonds_links : forall v, spread v -> forall tc c, flat_map linkof (bonds n m tc c v) = links m v.
Proof.
  intros v H. induction H as [t|p w|p k w P|name p fs P HP HS IH|name q es P HP HS IH]; intros tc c; try reflexivity.
  - rewrite bonds_tab, links_tab. unfold numbered. clear HP P.
    enough (G : forall i r, flat_map linkof (List.concat (ranked (field_bonds n m tc c p) i r fs)) =
      List.concat (map (fun ix => (fun i f => match start f with Some t => [(slot_of m p i, t)] | None => [] end ++ links m f) (fst ix) (snd ix)) (number i fs))) by apply G.
    induction fs as [|f fs IHf]; intros i r; [reflexivity|]. cbn [ranked number map List.concat fst snd].
    rewrite flat_map_app, IHf; [|intros; apply HS; right; assumption|intros; apply IH; right; assumption]. f_equal.
    specialize (IH f (or_introl eq_refl)). specialize (HS f (or_introl eq_refl)). unfold field_bonds.
    destruct f as [t|q w|q ms|q k w|q k ms|tn q gs|tn q gs]; try reflexivity; try (exfalso; inversion HS; fail);
      [destruct t; reflexivity|..];
      cbn [flat_map linkof w_link start app]; unfold linkof at 1; cbn [w_link app]; f_equal.
    + destruct (w =? 1); [reflexivity|apply elem_links].
    + apply IH.
    + apply IH.
  - rewrite bonds_tabs, links_tabs. unfold numbered. clear P HP.
    generalize 0 as i. induction es as [|f fs IHf]; intros i; [reflexivity|]. cbn [number map List.concat fst snd].
    rewrite flat_map_app, IHf; [|intros; apply HS; right; assumption|intros; apply IH; right; assumption].
    f_equal. unfold elem_bond. cbn [flat_map]. unfold linkof at 1. cbn [w_link app]. f_equal.
    apply IH. left. reflexivity.
Qed.
End Links.

Lemma flat_map_perm : forall A B (f : A -> list B) l l', Permutation l l' -> Permutation (flat_map f l) (flat_map f l').
Proof.
  intros A B f l l' P. induction P as [|x l l' P IH|x y l|l l' l'' P1 IH1 P2 IH2]; cbn [flat_map].
  - constructor.
  - apply Permutation_app_head. exact IH.
  - rewrite !app_assoc. apply Permutation_app_tail. apply Permutation_app_comm.
  - eapply Permutation_trans; eauto.
Qed.

(** ** The buffer *)

Section Buffer.
Variable b : base.
Hypothesis HF : flat b.
Variables pos size : Z.
Hypothesis HP : 0 <= pos.
Hypothesis HS : 0 <= size.
Variable create : bool.
Local Notation m := (img_bytes (sl_data (b_bytes b))).
Local Notation L := (zlen (sl_data (b_bytes b))).

Definition clear_of (D : list (Z * Z)) (x k : Z) : Prop := forall a t, In (a, t) D -> disjoint a 4 x k.

Record state (nb : base) (D : list (Z * Z)) : Prop := {
  s_mem : in_memory nb;
  s_len : gs_len (b_bytes nb) = Z.min pos L;
  s_diff : Forall (fun d => pos <= d_off d \/ exists a t, In (a, t) D /\ d_off d = a /\ d_len d = 4) (b_diffs nb);
  s_low : forall i, 0 <= i < pos -> clear_of D i 1 -> content nb i = m i;
  s_high : forall i, pos <= i -> content nb (i + size) = m i;
  s_done : forall a t, In (a, t) D -> holds_uint (content nb) a 4 (t - a + size);
  s_side : forall a t, In (a, t) D -> a + 4 <= pos;
  s_gap : create = true -> forall i, pos <= i < pos + size -> content nb i = Some x00
}.

Lemma state_start : exists nb, insert_space b pos size create = Ok nb /\ state nb [].
Proof.
  destruct HF as [F1 F2]. unfold insert_space. rewrite F2. cbn [List.length seq combine fold_left bind map].
  pose proof (zlen_nonneg (sl_data (b_bytes b))) as LN.
  assert (Z0 : zlen (zeros size) = size) by (rewrite zlen_zeros; lia).
  destruct (pos <? gs_len (b_bytes b)) eqn:C.
  - unfold gs_len in C. rewrite gs_from_ok by (unfold gs_len; lia). cbn [bind].
    pose proof (gs_cap_ge (b_bytes b)) as CG. unfold gs_len in CG.
    rewrite gs_upto3_ok by lia. cbn [bind].
    rewrite zfirst_app_le by lia.
    set (h := mkSlice (zfirst pos (sl_data (b_bytes b))) _). set (tl := mkSlice (zskip pos (sl_data (b_bytes b))) _).
    change (diffs_insert [] 0 [mkDiff (pos + size) tl]) with [mkDiff (pos + size) tl].
    assert (G : forall ds, ds = [mkDiff (pos + size) tl] \/ ds = [mkDiff (pos + size) tl; mkDiff pos (gs_of (zeros size))] ->
      (create = true -> ds = [mkDiff (pos + size) tl; mkDiff pos (gs_of (zeros size))]) ->
      state (mkBase h nil ds (b_check b) 0) []).
    { intros ds Hds HCr.
      assert (CT : forall i, (0 <= i < pos -> over ds (img_bytes (sl_data h)) i = m i) /\
                     (pos <= i -> over ds (img_bytes (sl_data h)) (i + size) = m i)).
      { intros i.
        assert (X1 : forall j, img_write (img_bytes (sl_data h)) (pos + size) (sl_data tl) j =
                  if pos + size <=? j then zget (sl_data (b_bytes b)) (j - size) else if j <? pos then m j else None).
        { intros j. unfold img_write, img_bytes, h, tl. cbn [sl_data]. rewrite zlen_zskip, zget_zskip, zget_zfirst by lia.
          destruct (pos + size <=? j) eqn:J; cbn [andb].
          - destruct (j <? pos + size + Z.max 0 (zlen (sl_data (b_bytes b)) - Z.max 0 pos)) eqn:J2.
            + replace (j - (pos + size) <? 0) with false by lia. replace (pos + (j - (pos + size))) with (j - size) by lia. reflexivity.
            + replace (j <? pos) with false by lia. symmetry. apply zget_ge. lia.
          - reflexivity. }
        destruct Hds as [-> | ->]; split; intros Hi.
        - rewrite over_one. cbn [d_off]. unfold d_data. cbn [d_sl]. rewrite X1. replace (pos + size <=? i) with false by lia.
          replace (i <? pos) with true by lia. reflexivity.
        - rewrite over_one. cbn [d_off]. unfold d_data. cbn [d_sl]. rewrite X1. replace (pos + size <=? i + size) with true by lia.
          replace (i + size - size) with i by lia. reflexivity.
        - rewrite over_cons, over_one. cbn [d_off]. unfold d_data. cbn [d_sl]. unfold img_write at 1. cbn [gs_of sl_data]. rewrite Z0.
          replace ((pos <=? i) && (i <? pos + size)) with false by lia. rewrite X1. replace (pos + size <=? i) with false by lia.
          replace (i <? pos) with true by lia. reflexivity.
        - rewrite over_cons, over_one. cbn [d_off]. unfold d_data. cbn [d_sl]. unfold img_write at 1. cbn [gs_of sl_data]. rewrite Z0.
          replace ((pos <=? i + size) && (i + size <? pos + size)) with false by lia. rewrite X1. replace (pos + size <=? i + size) with true by lia.
          replace (i + size - size) with i by lia. reflexivity. }
      split.
      - split; [reflexivity|]. cbn [b_diffs]. destruct Hds as [-> | ->]; repeat constructor; cbn [d_off]; lia.
      - cbn [b_bytes]. unfold gs_len, h. cbn [sl_data]. rewrite zlen_zfirst. lia.
      - cbn [b_diffs]. destruct Hds as [-> | ->]; repeat (apply Forall_cons; [left; cbn [d_off]; lia|]); apply Forall_nil.
      - intros i Hi _. unfold content. cbn [b_diffs b_bytes]. apply CT. exact Hi.
      - intros i Hi. unfold content. cbn [b_diffs b_bytes]. apply CT. exact Hi.
      - intros a t [].
      - intros a t [].
      - intros CR i Hi. rewrite (HCr CR). unfold content. cbn [b_diffs b_bytes]. rewrite over_cons, over_one. cbn [d_off]. unfold d_data. cbn [d_sl].
        unfold img_write at 1. cbn [gs_of sl_data]. rewrite Z0. replace ((pos <=? i) && (i <? pos + size)) with true by lia. rewrite zget_zeros.
        replace ((0 <=? i - pos) && (i - pos <? size)) with true by lia. reflexivity. }
    destruct create eqn:ECR.
    + replace (size <? 0) with false by lia. cbn [bind app]. eexists. split; [reflexivity|]. apply G; [right; reflexivity|reflexivity].
    + cbn [bind]. eexists. split; [reflexivity|]. apply G; [left; reflexivity|discriminate].
  - unfold gs_len in C. cbn [bind].
    assert (G : forall ds, ds = [] \/ ds = [mkDiff pos (gs_of (zeros size))] ->
      (create = true -> ds = [mkDiff pos (gs_of (zeros size))]) ->
      state (mkBase (b_bytes b) nil ds (b_check b) 0) []).
    { intros ds Hds HCr. split.
      - split; [reflexivity|]. cbn [b_diffs]. destruct Hds as [-> | ->]; repeat constructor; cbn [d_off]; lia.
      - cbn [b_bytes]. unfold gs_len. lia.
      - cbn [b_diffs]. destruct Hds as [-> | ->]; repeat (apply Forall_cons; [left; cbn [d_off]; lia|]); apply Forall_nil.
      - intros i Hi _. unfold content. cbn [b_diffs b_bytes]. destruct Hds as [-> | ->]; [apply over_nil|].
        rewrite over_one. unfold img_write, d_data. cbn [d_off d_sl gs_of sl_data]. rewrite Z0.
        replace ((pos <=? i) && (i <? pos + size)) with false by lia. reflexivity.
      - intros i Hi. unfold content. cbn [b_diffs b_bytes].
        assert (E : img_bytes (sl_data (b_bytes b)) (i + size) = img_bytes (sl_data (b_bytes b)) i) by (unfold img_bytes; rewrite !zget_ge by lia; reflexivity).
        destruct Hds as [-> | ->]; [rewrite over_nil; exact E|].
        rewrite over_one. unfold img_write, d_data. cbn [d_off d_sl gs_of sl_data]. rewrite Z0.
        replace ((pos <=? i + size) && (i + size <? pos + size)) with false by lia. exact E.
      - intros a t [].
      - intros a t [].
      - intros CR i Hi. rewrite (HCr CR). unfold content. cbn [b_diffs b_bytes]. rewrite over_one. cbn [d_off]. unfold d_data at 1. cbn [d_sl gs_of sl_data].
        unfold img_write at 1. rewrite Z0. replace ((pos <=? i) && (i <? pos + size)) with true by lia. rewrite zget_zeros.
        replace ((0 <=? i - pos) && (i - pos <? size)) with true by lia. reflexivity. }
    destruct create eqn:ECR.
    + replace (size <? 0) with false by lia. cbn [bind app]. eexists. split; [reflexivity|]. apply G; [right; reflexivity|reflexivity].
    + cbn [bind]. eexists. split; [reflexivity|]. apply G; [left; reflexivity|discriminate].
Qed.

Lemma state_rd : forall nb D k x v, state nb D -> 0 <= x -> (1 <= k)%nat -> x + Z.of_nat k <= pos ->
  clear_of D x (Z.of_nat k) -> holds_uint m x k v -> rd k nb x = Ok v.
Proof.
  intros nb D k x v [S1 S2 S3 S4 S5 S6 S7 S8] X K XP CL H. pose proof (holds_uint_bound _ _ _ _ K H) as B.
  apply rd_whole; auto.
  - right. split; [lia|]. rewrite Forall_forall in *. intros d Hd. unfold misses. destruct (S3 d Hd) as [C|(a & t & D1 & D2 & D3)]; [lia|].
    specialize (CL a t D1). unfold disjoint in CL. lia.
  - eapply holds_uint_ext; [|exact H]. intros j Hj. apply S4; [lia|]. intros a t D1. specialize (CL a t D1). unfold disjoint in *. lia.
Qed.

Lemma state_write : forall nb D a t, state nb D -> 0 <= a -> a + 4 <= pos -> clear_of D a 4 ->
  holds_uint m a 4 (t - a) -> t - a + size < 4294967296 ->
  exists nb', base_u nb a 4 (le_encode 4 (u32 (t - a + size))) = Ok nb' /\ state nb' ((a, t) :: D).
Proof.
  intros nb D a t [S1 S2 S3 S4 S5 S6 S7 S8] A AP CL H SZ. pose proof (proj1 H) as R.
  set (v := t - a + size) in *. assert (EU : u32 v = v) by (unfold u32; apply Z.mod_small; change (2 ^ 32) with 4294967296; lia).
  rewrite EU. set (p := le_encode 4 v). assert (Z4 : zlen p = 4) by (unfold p; rewrite zlen_le_encode; reflexivity).
  destruct (base_u_cell nb a p A ltac:(lia)) as (l & E & FL).
  { intros d Hd C. rewrite Forall_forall in S3. apply covers_iff in C. destruct (S3 d Hd) as [C'|(a' & t' & D1 & D2 & D3)]; [lia|].
    specialize (CL a' t' D1). unfold disjoint in CL. lia. }
  destruct (base_u_spec nb a 4 p S1 A Z4) as (nb' & E' & M' & B' & _ & _ & C').
  rewrite Z4 in E. rewrite E' in E. injection E as E. exists nb'. split; [exact E'|].
  assert (HD : holds_uint (content nb') a 4 v).
  { apply holds_uint_encode; [|change (256 ^ Z.of_nat 4) with 4294967296; lia]. intros k Hk. rewrite C'. unfold img_write.
    replace ((a <=? a + k) && (a + k <? a + zlen p)) with true by lia. f_equal. lia. }
  split.
  - exact M'.
  - rewrite B'. exact S2.
  - rewrite E. cbn [set_diffs b_diffs]. apply Forall_app. split; [|apply Forall_app; split].
    + eapply Forall_impl; [|exact S3]. cbn beta. intros d [Q|(a' & t' & D1 & D2)]; [left; exact Q|]. right. exists a', t'. split; [right; exact D1|exact D2].
    + eapply Forall_impl; [|exact FL]. cbn beta. intros d [Q1 Q2]. right. exists a, t. split; [left; reflexivity|]. lia.
    + constructor; [|constructor]. right. exists a, t. split; [left; reflexivity|]. split; [reflexivity|]. exact Z4.
  - intros i Hi CI. rewrite C'. unfold img_write. pose proof (CI a t (or_introl eq_refl)) as DJ. unfold disjoint in DJ.
    replace ((a <=? i) && (i <? a + zlen p)) with false by lia. apply S4; [exact Hi|]. intros a' t' D1. apply (CI a' t'). right. exact D1.
  - intros i Hi. rewrite C'. unfold img_write. replace ((a <=? i + size) && (i + size <? a + zlen p)) with false by lia. apply S5. exact Hi.
  - intros a' t' [D1|D1]; [injection D1 as <- <-; exact HD|].
    eapply holds_uint_ext; [|exact (S6 a' t' D1)]. intros k Hk. rewrite C'. unfold img_write.
    specialize (CL a' t' D1). unfold disjoint in CL. replace ((a <=? a' + k) && (a' + k <? a + zlen p)) with false by lia. reflexivity.
  - intros a' t' [D1|D1]; [injection D1 as <- <-; exact AP|exact (S7 a' t' D1)].
  - intros CR i Hi. rewrite C'. unfold img_write. replace ((a <=? i) && (i <? a + zlen p)) with false by lia. apply S8; assumption.
Qed.

Lemma state_virtual : forall nb D p soff es tl i e, state nb D -> table_at m p soff es tl -> 0 <= soff ->
  zget es i = Some e -> p + 4 <= pos -> p - soff + 4 + 2 * zlen es <= pos ->
  clear_of D p 4 -> clear_of D (p - soff) (4 + 2 * zlen es) -> virtual_table nb p i = Ok (p + e).
Proof.
  intros nb D p soff es tl i e S [T1 T2 T3 T4 T5 T6] Hso He P1 P2 C1 C2. pose proof (zget_some_range _ _ _ He) as R.
  unfold virtual_table, vtable_pos. rewrite (state_rd nb D 4 p _ S ltac:(lia) ltac:(lia) ltac:(lia) C1 T1). cbn [bind].
  rewrite Z.mod_small by lia. pose proof (holds_uint_bound _ _ 2%nat _ (le_S _ _ (le_n 1%nat)) (T6 i e He)) as B.
  pose proof (len_buf_ge _ (s_mem _ _ S)) as LB. rewrite (s_len _ _ S) in LB.
  replace (len_buf nb <=? p - soff + 4 + i * 2) with false by lia. rewrite andb_false_r.
  replace (p - soff + 4 + i * 2) with (p - soff + 4 + 2 * i) by lia.
  rewrite (state_rd nb D 2 (p - soff + 4 + 2 * i) e S ltac:(lia) ltac:(lia) ltac:(lia)); [reflexivity| |exact (T6 i e He)].
  intros a t D1. specialize (C2 a t D1). unfold disjoint in *. lia.
Qed.

End Buffer.
