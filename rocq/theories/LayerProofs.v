(** Proofs about inserting space into the buffer variants. *)
From Coq Require Import ZArith List Bool Lia String.
From Coq Require Import Strings.Byte.
From Verif Require Import GoLib BaseModel GoLemmas BaseSpec BaseProofs BaseProofs2 BaseProofs3 VariantModel VariantProofs LayerModel.
Import ListNotations.
Open Scope list_scope.
Open Scope Z_scope.

(** ** NoLayer *)

(** The space is opened in both cases; only with [isCreate] it is filled. *)
Lemma insert_false : forall b pos size b1, 0 <= size -> insert_space b pos size true = Ok b1 ->
  exists b0, insert_space b pos size false = Ok b0 /\ b_bytes b1 = b_bytes b0 /\ b_rdiffs b0 = nil /\
    b_diffs b1 = b_diffs b0 ++ [mkDiff pos (gs_of (zeros size))].
Proof.
  intros b pos size b1 HS. unfold insert_space.
  destruct (fold_left (ins_split pos) _ _) as [nds| |]; cbn [bind]; try discriminate.
  set (r := if pos <? gs_len (b_bytes b) then _ else _). destruct r as [[bs ds]| |]; cbn [bind]; try discriminate.
  replace (size <? 0) with false by lia. cbn [bind]. intros E. injection E as <-. eexists. split; [reflexivity|].
  repeat split; reflexivity.
Qed.

Lemma nl_insert_spec : forall b pos size create m, in_memory b -> shows b m -> 0 <= pos -> 0 <= size ->
  (List.length (filter (straddles pos) (b_diffs b)) <= 1)%nat ->
  exists b', nl_insert b pos size create = Ok b' /\ in_memory b' /\
    (forall i, 0 <= i -> (i < pos \/ pos + size <= i) -> peek b' i = Ok (img_insert m pos size i)) /\
    (create = true -> shows b' (img_insert m pos size)) /\ pos + size <= len_buf b'.
Proof.
  intros b pos size create m HM Hm HP HS H1.
  destruct (insert_space_spec b pos size HM HP HS H1) as (b1 & E1 & M1 & C1).
  assert (S1 : shows b1 (img_insert m pos size)).
  { intros i Hi. rewrite peek_content by auto. rewrite C1. f_equal. apply img_insert_ext; auto.
    intros j Hj. apply (shows_unique b); auto using shows_content. }
  assert (D1 : In (mkDiff pos (gs_of (zeros size))) (b_diffs b1)).
  { destruct (insert_false b pos size b1 HS E1) as (b0 & E0 & B0 & R0 & D0). rewrite D0. apply in_or_app. right. left. reflexivity. }
  assert (L1 : pos + size <= len_buf b1).
  { rewrite len_buf_mem by auto. pose proof (max_end_in (b_diffs b1) (gs_len (b_bytes b1)) _ D1) as X. cbn [d_off] in X.
    unfold d_len, gs_len in X. cbn [d_sl gs_of sl_data] in X. rewrite zlen_zeros in X. fold (gs_len (b_bytes b1)) in X. pose proof (Z.le_max_r 0 size). eapply Z.le_trans; [|exact X]. lia. }
  destruct create.
  - unfold nl_insert. rewrite E1. cbn [bind]. exists b1. replace (pos + size <=? len_buf b1) with true by lia. repeat split; auto; apply M1.
  - destruct (insert_false b pos size b1 HS E1) as (b0 & E0 & B0 & R0 & D0).
    assert (M0 : in_memory b0).
    { split; [exact R0|]. destruct M1 as [_ M1]. rewrite D0 in M1. apply Forall_app in M1. apply M1. }
    assert (C0 : forall i, (i < pos \/ pos + size <= i) -> content b0 i = content b1 i).
    { intros i Hi. unfold content. rewrite D0, B0, over_app, over_one. cbn [d_off]. unfold d_data. cbn [d_sl gs_of sl_data].
      unfold img_write. rewrite zlen_zeros. replace ((pos <=? i) && (i <? pos + Z.max 0 size)) with false by lia. reflexivity. }
    unfold nl_insert. rewrite E0. cbn [bind]. destruct (pos + size <=? len_buf b0) eqn:L.
    + exists b0. split; [reflexivity|]. split; [exact M0|]. split; [|split; [discriminate|lia]].
      intros i Hi Ho. rewrite peek_content by auto. rewrite C0 by auto. rewrite <- peek_content by auto. apply S1. exact Hi.
    + exists b1. split; [exact E1|]. split; [exact M1|]. split; [auto|]. split; [discriminate|exact L1].
Qed.

(** ** DoubleLayer *)

Lemma upto_ok : forall s b, 0 <= b <= gs_cap s ->
  exists u, gs_upto s b = Ok u /\ sl_data u = zfirst b (sl_data s ++ sl_spare s).
Proof.
  intros s b H. unfold gs_upto, gs_range. replace ((0 <=? 0) && (0 <=? b) && (b <=? gs_cap s)) with true by lia.
  eexists. split; [reflexivity|]. reflexivity.
Qed.


Lemma shows_of_content : forall b m, in_memory b -> (forall i, 0 <= i -> content b i = m i) -> shows b m.
Proof. intros b m HM H i Hi. rewrite peek_content by auto. rewrite H by auto. reflexivity. Qed.

Lemma content_one : forall bs d c k i, content (mkBase bs nil [d] c k) i =
  if (d_off d <=? i) && (i <? d_off d + d_len d) then zget (d_data d) (i - d_off d) else zget (sl_data bs) i.
Proof. intros. unfold content. cbn [b_diffs b_bytes]. rewrite over_one. unfold img_write, img_bytes. reflexivity. Qed.

Lemma dl_insert_end : forall b pos size m, in_memory b -> b_diffs b = [] -> shows b m -> 0 <= size ->
  gs_len (b_bytes b) <= pos -> exists b', dl_insert b pos size = Ok b' /\ in_memory b' /\ shows b' (img_insert m pos size).
Proof.
  intros b pos size m [HR _] HD Hm HS HL. pose proof (gs_len_nonneg (b_bytes b)) as G.
  assert (HM : in_memory b) by (split; [exact HR|rewrite HD; constructor]).
  unfold dl_insert, dl_merge. rewrite HD. cbn [bind]. rewrite HD.
  replace (Z.max size (size + gs_len (b_bytes b) - pos)) with size by lia. replace (size <? 0) with false by lia.
  replace (gs_len (b_bytes b) <=? pos) with true by lia. eexists. split; [reflexivity|].
  assert (M' : forall c k, in_memory (mkBase (b_bytes b) nil [mkDiff pos (gs_make size size)] c k)).
  { intros c k. split; [reflexivity|]. constructor; [cbn [d_off]; lia|constructor]. }
  split; [apply M'|]. apply shows_of_content; [apply M'|]. intros i Hi. rewrite content_one. cbn [d_off].
  unfold d_len, d_data, gs_len, gs_make. cbn [d_sl sl_data]. rewrite zlen_zeros, zget_zeros.
  assert (EM : forall j, 0 <= j -> m j = zget (sl_data (b_bytes b)) j).
  { intros j Hj. rewrite (shows_unique b m (content b)) by auto using shows_content. unfold content. rewrite HD, over_nil. reflexivity. }
  unfold img_insert, gs_len in *. destruct (i <? pos) eqn:C1.
  - replace ((pos <=? i) && (i <? pos + Z.max 0 size)) with false by lia. symmetry. apply EM. lia.
  - destruct (i <? pos + size) eqn:C2.
    + replace ((pos <=? i) && (i <? pos + Z.max 0 size)) with true by lia.
      replace ((0 <=? i - pos) && (i - pos <? size)) with true by lia. reflexivity.
    + replace ((pos <=? i) && (i <? pos + Z.max 0 size)) with false by lia. rewrite EM by lia. rewrite !zget_ge by lia. reflexivity.
Qed.

(** In front of the end the tail is not moved: its place holds zeros. *)
Lemma dl_insert_tail : forall b pos size, in_memory b -> b_diffs b = [] -> 0 <= pos < gs_len (b_bytes b) -> 0 <= size ->
  exists b', dl_insert b pos size = Ok b' /\ in_memory b' /\
    forall i, pos + size <= i < gs_len (b_bytes b) + size -> peek b' i = Ok (Some x00).
Proof.
  intros b pos size [HR _] HD HP HS. unfold dl_insert, dl_merge. rewrite HD. cbn [bind]. rewrite HD.
  set (len := gs_len (b_bytes b)) in *. replace (Z.max size (size + len - pos)) with (size + len - pos) by lia.
  replace (size + len - pos <? 0) with false by lia. replace (len <=? pos) with false by lia.
  rewrite gs_from_ok by (unfold len in HP; lia). cbn [bind].
  assert (ZL : zlen (zeros (size + len - pos)) = size + len - pos) by (rewrite zlen_zeros; lia).
  destruct (upto_ok (gs_make (size + len - pos) (size + len - pos)) size) as (u & EU & DU).
  { unfold gs_cap, gs_make. cbn [sl_data sl_spare]. rewrite !zlen_zeros. lia. }
  rewrite EU. cbn [bind]. set (p := zfirst (gs_len u) (sl_data _)).
  rewrite gs_copy_ok by (unfold gs_len, gs_make; cbn [sl_data]; lia). cbn [bind gs_make sl_data sl_spare].
  eexists. split; [reflexivity|]. set (s := mkSlice _ _).
  assert (PL : zlen p <= size).
  { unfold p. rewrite zlen_zfirst. unfold gs_len. rewrite DU, zlen_zfirst. lia. }
  assert (M' : forall c k, in_memory (mkBase (b_bytes b) nil [mkDiff pos s] c k)).
  { intros c k. split; [reflexivity|]. constructor; [cbn [d_off]; lia|constructor]. }
  split; [apply M'|]. intros i Hi. rewrite peek_content by (auto; lia). rewrite content_one. cbn [d_off].
  unfold d_len, d_data, gs_len, s. cbn [d_sl sl_data]. rewrite zlen_copy_at by lia. rewrite ZL.
  replace ((pos <=? i) && (i <? pos + (size + len - pos))) with true by lia. rewrite zget_copy_at by lia. rewrite zget_zeros.
  replace ((0 <=? i - pos) && (i - pos <? 0 + zlen p) && (i - pos <? zlen (zeros (size + len - pos)))) with false by lia.
  replace ((0 <=? i - pos) && (i - pos <? size + len - pos)) with true by lia. reflexivity.
Qed.

Lemma gs_len_le_cap : forall s, gs_len s <= gs_cap s.
Proof. intros s. unfold gs_len, gs_cap. pose proof (zlen_nonneg (sl_spare s)). lia. Qed.

(** One journal entry that holds the place and reaches the end of the buffer. *)
Lemma dl_insert_entry : forall b d pos size m, in_memory b -> b_diffs b = [d] -> shows b m -> 0 <= size ->
  d_off d <= pos <= d_off d + d_len d -> gs_len (b_bytes b) <= d_off d + d_len d -> pos <= d_cap d ->
  (d_cap d < pos + size \/ d_len d + size <= d_cap d) -> include d pos = true ->
  exists b', dl_insert b pos size = Ok b' /\ in_memory b' /\ shows b' (img_insert m pos size).
Proof.
  intros b d pos size m HM HD Hm HS HP HL HC HB HI. pose proof HM as [HR HF]. rewrite HD in HF. inversion HF as [|x l H0 _ Ex]; subst x l.
  assert (EM : forall j, 0 <= j -> m j = if (d_off d <=? j) && (j <? d_off d + d_len d) then zget (d_data d) (j - d_off d) else zget (sl_data (b_bytes b)) j).
  { intros j Hj. rewrite (shows_unique b m (content b)) by auto using shows_content. unfold content. rewrite HD, over_one. reflexivity. }
  assert (K : forall s, sl_data s = zfirst (pos - d_off d) (d_data d) ++ zeros size ++ zskip (pos - d_off d) (d_data d) ->
    forall c k, in_memory (mkBase (b_bytes b) nil [mkDiff (d_off d) s] c k) /\ shows (mkBase (b_bytes b) nil [mkDiff (d_off d) s] c k) (img_insert m pos size)).
  { intros s Es c k.
    assert (M' : in_memory (mkBase (b_bytes b) nil [mkDiff (d_off d) s] c k)) by (split; [reflexivity|]; constructor; [exact H0|constructor]).
    split; [exact M'|]. apply shows_of_content; [exact M'|]. intros i Hi. rewrite content_one. cbn [d_off].
    unfold d_len, d_data, gs_len in *. cbn [d_sl]. rewrite Es. pose proof (zlen_nonneg (sl_data (d_sl d))).
    rewrite !zlen_app, zlen_zfirst, zlen_zeros, zlen_zskip.
    replace (Z.max 0 (Z.min (pos - d_off d) (zlen (sl_data (d_sl d)))) + (Z.max 0 size + Z.max 0 (zlen (sl_data (d_sl d)) - Z.max 0 (pos - d_off d)))) with (zlen (sl_data (d_sl d)) + size) by lia.
    rewrite !zget_app, zlen_zfirst, zlen_zeros. replace (Z.max 0 (Z.min (pos - d_off d) (zlen (sl_data (d_sl d))))) with (pos - d_off d) by lia.
    rewrite zget_zfirst, zget_zeros. unfold img_insert. destruct (i <? pos) eqn:C1.
    - rewrite EM by lia. destruct (d_off d <=? i) eqn:C3; cbn [andb].
      + replace (i <? d_off d + (zlen (sl_data (d_sl d)) + size)) with true by lia. replace (i - d_off d <? pos - d_off d) with true by lia.
        replace (i <? d_off d + zlen (sl_data (d_sl d))) with true by lia. reflexivity.
      + reflexivity.
    - replace (d_off d <=? i) with true by lia. cbn [andb]. replace (i - d_off d <? pos - d_off d) with false by lia. destruct (i <? pos + size) eqn:C2.
      + replace (i <? d_off d + (zlen (sl_data (d_sl d)) + size)) with true by lia. replace (i - d_off d - (pos - d_off d) <? Z.max 0 size) with true by lia.
        replace ((0 <=? i - d_off d - (pos - d_off d)) && (i - d_off d - (pos - d_off d) <? size)) with true by lia. reflexivity.
      + replace (i - d_off d - (pos - d_off d) <? Z.max 0 size) with false by lia. rewrite EM by lia. replace (d_off d <=? i - size) with true by lia. cbn [andb].
        replace (i - size <? d_off d + zlen (sl_data (d_sl d))) with (i <? d_off d + (zlen (sl_data (d_sl d)) + size)) by lia.
        destruct (i <? d_off d + (zlen (sl_data (d_sl d)) + size)) eqn:C4.
        * rewrite zget_zskip by lia. match goal with |- (if ?c <? 0 then _ else _) = _ => replace (c <? 0) with false by lia end. f_equal. lia.
        * rewrite !zget_ge by lia. reflexivity. }
  unfold dl_insert, dl_merge. rewrite HD. cbn [bind]. rewrite HD. rewrite HI.
  destruct (upto_ok (d_sl d) pos) as (h & Eh & Dh); [unfold d_cap in HC; lia|]. rewrite Eh. cbn [bind].
  assert (Lh : gs_len h = pos). { unfold gs_len. rewrite Dh, zlen_zfirst, zlen_app. unfold d_cap, gs_cap in HC. lia. }
  rewrite Lh. unfold d_cap, d_len, d_data in *. pose proof (gs_len_nonneg (d_sl d)) as G0. pose proof (gs_len_le_cap (d_sl d)) as G1.
  destruct (size <=? gs_cap (d_sl d) - pos) eqn:C.
  - destruct (upto_ok (d_sl d) (gs_len (d_sl d) + size)) as (s & Es & Ds); [lia|]. rewrite Es. cbn [bind].
    assert (Ls : gs_len s = gs_len (d_sl d) + size). { unfold gs_len at 1. rewrite Ds, zlen_zfirst, zlen_app. unfold gs_cap, gs_len in *. lia. }
    assert (Gs : forall j, j < gs_len (d_sl d) -> zget (sl_data s) j = zget (sl_data (d_sl d)) j).
    { intros j Hj. rewrite Ds, zget_zfirst, zget_app. replace (j <? gs_len (d_sl d) + size) with true by lia.
      unfold gs_len in Hj. replace (j <? zlen (sl_data (d_sl d))) with true by lia. reflexivity. }
    rewrite gs_from_ok by lia. cbn [bind sl_data]. rewrite gs_copy_ok by lia. cbn [bind].
    assert (LC : zlen (copy_at (sl_data s) (pos - d_off d + size) (zskip (pos - d_off d) (sl_data s))) = gs_len s).
    { rewrite zlen_copy_at; [reflexivity|]. unfold gs_len in *. lia. }
    rewrite gs_copy_ok by (unfold gs_len at 1; cbn [sl_data]; lia). cbn [bind sl_data sl_spare].
    eexists. split; [reflexivity|]. apply K. cbn [sl_data]. apply zget_ext. intros j. rewrite zget_copy_at by lia.
    rewrite LC, zlen_zeros, zget_copy_at by (unfold gs_len in *; lia). rewrite zlen_zskip, !zget_app, zlen_zfirst, zlen_zeros, zget_zfirst, !zget_zeros, !zget_zskip by lia.
    fold (gs_len s) (gs_len (d_sl d)). rewrite Ls.
    replace (Z.max 0 (Z.min (pos - d_off d) (gs_len (d_sl d)))) with (pos - d_off d) by lia.
    destruct (j <? pos - d_off d) eqn:J1.
    + replace (pos - d_off d <=? j) with false by lia. replace (pos - d_off d + size <=? j) with false by lia. cbn [andb]. apply Gs. lia.
    + destruct (j - (pos - d_off d) <? Z.max 0 size) eqn:J2.
      * replace ((pos - d_off d <=? j) && (j <? pos - d_off d + Z.max 0 size) && (j <? gs_len (d_sl d) + size)) with true by lia. reflexivity.
      * replace ((pos - d_off d <=? j) && (j <? pos - d_off d + Z.max 0 size) && (j <? gs_len (d_sl d) + size)) with false by lia.
        replace (pos - d_off d + size <=? j) with true by lia. cbn [andb].
        replace (j - (pos - d_off d + size) <? 0) with false by lia. replace (j - (pos - d_off d) - Z.max 0 size <? 0) with false by lia.
        destruct (j <? gs_len (d_sl d) + size) eqn:J3.
        -- replace (j <? pos - d_off d + size + Z.max 0 (gs_len (d_sl d) + size - Z.max 0 (pos - d_off d))) with true by lia. cbn [andb].
           rewrite Gs by lia. f_equal. lia.
        -- rewrite andb_false_r. rewrite !zget_ge by (unfold gs_len in *; lia). reflexivity.
  - assert (Lz : zlen (zeros (gs_len (d_sl d) + size)) = gs_len (d_sl d) + size) by (rewrite zlen_zeros; lia).
    destruct (upto_ok (d_sl d) (pos - d_off d)) as (u & Eu & Du); [lia|]. rewrite Eu. cbn [bind].
    assert (Du' : sl_data u = zfirst (pos - d_off d) (sl_data (d_sl d))).
    { rewrite Du. apply zget_ext. intros j. rewrite !zget_zfirst, zget_app. destruct (j <? pos - d_off d) eqn:J; [|reflexivity].
      unfold gs_len in *. replace (j <? zlen (sl_data (d_sl d))) with true by lia. reflexivity. }
    rewrite gs_copy_ok by (unfold gs_make, gs_len at 1; cbn [sl_data]; lia). cbn [bind gs_make sl_data sl_spare].
    rewrite gs_from_ok by lia. cbn [bind sl_data].
    assert (LC : zlen (copy_at (zeros (gs_len (d_sl d) + size)) 0 (sl_data u)) = gs_len (d_sl d) + size).
    { rewrite zlen_copy_at; lia. }
    rewrite gs_copy_ok by (unfold gs_len at 1; cbn [sl_data]; lia). cbn [bind sl_data sl_spare].
    eexists. split; [reflexivity|]. apply K. cbn [sl_data]. apply zget_ext. intros j. rewrite zget_copy_at by lia.
    rewrite LC, zlen_zskip, zget_copy_at by lia. rewrite Lz, Du', zlen_zfirst, !zget_app, zlen_zfirst, zlen_zeros, zget_zfirst, !zget_zeros, !zget_zskip by lia.
    fold (gs_len (d_sl d)). replace (Z.max 0 (Z.min (pos - d_off d) (gs_len (d_sl d)))) with (pos - d_off d) by lia.
    destruct (j <? pos - d_off d) eqn:J1.
    + replace (pos - d_off d + size <=? j) with false by lia. cbn [andb]. destruct (0 <=? j) eqn:J4; cbn [andb].
      * replace (j <? 0 + (pos - d_off d)) with true by lia. replace (j <? gs_len (d_sl d) + size) with true by lia. cbn [andb].
        replace (j - 0) with j by lia. rewrite ?zget_zfirst, ?J1. reflexivity.
      * symmetry. unfold zget. replace (j <? 0) with true by lia. reflexivity.
    + destruct (j - (pos - d_off d) <? Z.max 0 size) eqn:J2.
      * replace (pos - d_off d + size <=? j) with false by lia. cbn [andb]. replace (j <? 0 + (pos - d_off d)) with false by lia. rewrite andb_false_r. cbn [andb].
        replace ((0 <=? j) && (j <? gs_len (d_sl d) + size)) with true by lia.
        replace ((0 <=? j - (pos - d_off d)) && (j - (pos - d_off d) <? size)) with true by lia. reflexivity.
      * replace (pos - d_off d + size <=? j) with true by lia. cbn [andb].
        replace (j - (pos - d_off d + size) <? 0) with false by lia. replace (j - (pos - d_off d) - Z.max 0 size <? 0) with false by lia.
        destruct (j <? gs_len (d_sl d) + size) eqn:J3.
        -- replace (j <? pos - d_off d + size + Z.max 0 (gs_len (d_sl d) - Z.max 0 (pos - d_off d))) with true by lia. cbn [andb].
           f_equal. lia.
        -- rewrite andb_false_r. replace (j <? 0 + (pos - d_off d)) with false by lia. rewrite !andb_false_r. cbn [andb].
           rewrite zget_ge by (unfold gs_len in *; lia). reflexivity.
Qed.

(** Behind the entry: the entry grows to the end of the space. *)
Lemma dl_insert_append : forall b d size m, in_memory b -> b_diffs b = [d] -> shows b m -> 0 <= size -> 0 < d_len d ->
  gs_len (b_bytes b) <= d_off d + d_len d ->
  exists b', dl_insert b (d_off d + d_len d) size = Ok b' /\ in_memory b' /\ shows b' (img_insert m (d_off d + d_len d) size).
Proof.
  intros b d size m HM HD Hm HS H1 HL. pose proof HM as [HR HF]. rewrite HD in HF. inversion HF as [|x l H0 _ Ex]; subst x l.
  assert (EM : forall j, 0 <= j -> m j = if (d_off d <=? j) && (j <? d_off d + d_len d) then zget (d_data d) (j - d_off d) else zget (sl_data (b_bytes b)) j).
  { intros j Hj. rewrite (shows_unique b m (content b)) by auto using shows_content. unfold content. rewrite HD, over_one. reflexivity. }
  unfold dl_insert, dl_merge. rewrite HD. cbn [bind]. rewrite HD. unfold include. replace (d_off d + d_len d <=? d_off d + d_len d - 1) with false by lia.
  rewrite andb_false_r. replace (d_off d + d_len d <? d_off d) with false by lia.
  replace (d_off d + d_len d - d_off d) with (d_len d) by lia.
  assert (Lz : zlen (zeros (d_len d + size)) = d_len d + size) by (rewrite zlen_zeros; lia).
  rewrite gs_copy_ok by (unfold gs_len, gs_make; cbn [sl_data]; lia). cbn [bind gs_make sl_data sl_spare].
  eexists. split; [reflexivity|]. set (s := mkSlice _ _).
  assert (M' : forall c k, in_memory (mkBase (b_bytes b) nil [mkDiff (d_off d) s] c k)) by (split; [reflexivity|]; constructor; [exact H0|constructor]).
  split; [apply M'|]. apply shows_of_content; [apply M'|]. intros i Hi. rewrite content_one. cbn [d_off].
  change (d_len (mkDiff (d_off d) s)) with (zlen (sl_data s)). change (d_data (mkDiff (d_off d) s)) with (sl_data s). unfold s. cbn [sl_data]. rewrite zlen_copy_at by lia. rewrite Lz, zget_copy_at by lia. rewrite Lz, zget_zeros.
  change (zlen (d_data d)) with (d_len d). unfold img_insert. destruct (i <? d_off d + d_len d) eqn:C1.
  - rewrite EM by lia. destruct (d_off d <=? i) eqn:C3; cbn [andb]; [|reflexivity]. rewrite C1. replace (i <? d_off d + (d_len d + size)) with true by lia.
    replace ((0 <=? i - d_off d) && (i - d_off d <? 0 + d_len d) && (i - d_off d <? d_len d + size)) with true by lia. f_equal. lia.
  - replace (d_off d <=? i) with true by lia. cbn [andb]. replace (i <? d_off d + (d_len d + size)) with (i <? d_off d + d_len d + size) by lia.
    replace (i - d_off d <? 0 + d_len d) with false by lia. rewrite andb_false_r. cbn [andb]. destruct (i <? d_off d + d_len d + size) eqn:C2.
    + replace ((0 <=? i - d_off d) && (i - d_off d <? d_len d + size)) with true by lia. reflexivity.
    + rewrite EM by lia. replace (i - size <? d_off d + d_len d) with false by lia. rewrite andb_false_r. unfold gs_len in HL. rewrite !zget_ge by lia. reflexivity.
Qed.

(** Further behind: the bytes between read as zeros as well. *)
Lemma dl_insert_behind : forall b d pos size m, in_memory b -> b_diffs b = [d] -> shows b m -> 0 <= size ->
  gs_len (b_bytes b) <= d_off d + d_len d -> d_off d + d_len d <= pos ->
  exists b', dl_insert b pos size = Ok b' /\ in_memory b' /\
    shows b' (fun i => if i <? d_off d + d_len d then m i else if i <? pos + size then Some x00 else None).
Proof.
  intros b d pos size m HM HD Hm HS HL HP. pose proof HM as [HR HF]. rewrite HD in HF. inversion HF as [|x l H0 _ Ex]; subst x l.
  assert (EM : forall j, 0 <= j -> m j = if (d_off d <=? j) && (j <? d_off d + d_len d) then zget (d_data d) (j - d_off d) else zget (sl_data (b_bytes b)) j).
  { intros j Hj. rewrite (shows_unique b m (content b)) by auto using shows_content. unfold content. rewrite HD, over_one. reflexivity. }
  pose proof (gs_len_nonneg (d_sl d)) as G0. fold (d_len d) in G0.
  unfold dl_insert, dl_merge. rewrite HD. cbn [bind]. rewrite HD. unfold include. replace (pos <=? d_off d + d_len d - 1) with false by lia.
  rewrite andb_false_r. replace (pos <? d_off d) with false by lia.
  assert (Lz : zlen (zeros (pos - d_off d + size)) = pos - d_off d + size) by (rewrite zlen_zeros; lia).
  rewrite gs_copy_ok by (unfold gs_len, gs_make; cbn [sl_data]; lia). cbn [bind gs_make sl_data sl_spare].
  eexists. split; [reflexivity|]. set (s := mkSlice _ _).
  assert (M' : forall c k, in_memory (mkBase (b_bytes b) nil [mkDiff (d_off d) s] c k)) by (split; [reflexivity|]; constructor; [exact H0|constructor]).
  split; [apply M'|]. apply shows_of_content; [apply M'|]. intros i Hi. rewrite content_one. cbn [d_off].
  change (d_len (mkDiff (d_off d) s)) with (zlen (sl_data s)). change (d_data (mkDiff (d_off d) s)) with (sl_data s). unfold s. cbn [sl_data].
  rewrite zlen_copy_at by lia. rewrite Lz, zget_copy_at by lia. rewrite Lz, zget_zeros.
  change (zlen (d_data d)) with (d_len d). destruct (i <? d_off d + d_len d) eqn:C1.
  - rewrite EM by lia. destruct (d_off d <=? i) eqn:C3; cbn [andb]; [|reflexivity]. rewrite C1. replace (i <? d_off d + (pos - d_off d + size)) with true by lia.
    replace ((0 <=? i - d_off d) && (i - d_off d <? 0 + d_len d) && (i - d_off d <? pos - d_off d + size)) with true by lia. f_equal. lia.
  - replace (d_off d <=? i) with true by lia. cbn [andb]. replace (i <? d_off d + (pos - d_off d + size)) with (i <? pos + size) by lia.
    replace (i - d_off d <? 0 + d_len d) with false by lia. rewrite andb_false_r. cbn [andb]. destruct (i <? pos + size) eqn:C2.
    + replace ((0 <=? i - d_off d) && (i - d_off d <? pos - d_off d + size)) with true by lia. reflexivity.
    + unfold gs_len in HL. rewrite zget_ge by lia. reflexivity.
Qed.

(** ** Counterexamples *)

Lemma dl_tail_refuted : exists b m, in_memory b /\ b_diffs b = [] /\ shows b m /\
  exists b', dl_insert b 1 2 = Ok b' /\ peek b' 3 = Ok (Some x00) /\ img_insert m 1 2 3 = Some x02.
Proof.
  exists (mkBase (gs_of [x01; x02; x03]) nil nil true 0), (img_bytes [x01; x02; x03]).
  split; [split; [reflexivity|constructor]|]. split; [reflexivity|].
  split. { apply shows_of_content; [split; [reflexivity|constructor]|]. intros i Hi. reflexivity. }
  eexists. split; [vm_compute; reflexivity|]. split; vm_compute; reflexivity.
Qed.

(** The test for room counts from the start of the entry, the slice does not. *)
Lemma dl_room_refuted : exists b d, in_memory b /\ b_diffs b = [d] /\ d_off d = 0 /\ d_len d = 10 /\ d_cap d = 12 /\
  b_bytes b = gs_of [] /\ dl_insert b 5 4 = Panic.
Proof.
  exists (mkBase (gs_of []) nil [mkDiff 0 (gs_make 10 12)] true 0), (mkDiff 0 (gs_make 10 12)).
  split; [split; [reflexivity|constructor; [vm_compute; discriminate|constructor]]|]. repeat split; vm_compute; reflexivity.
Qed.

(** The position in the buffer is used as one in the entry. *)
Lemma dl_offset_panics : forall b d pos size, b_diffs b = [d] -> include d pos = true -> d_cap d < pos ->
  dl_insert b pos size = Panic.
Proof.
  intros b d pos size HD HI HC. unfold dl_insert, dl_merge. rewrite HD. cbn [bind]. rewrite HD, HI.
  unfold gs_upto, gs_range. unfold d_cap in HC. replace (pos <=? gs_cap (d_sl d)) with false by lia. rewrite andb_false_r. reflexivity.
Qed.

(** An entry behind the place is put at the place. *)
Lemma dl_front_refuted : exists b m, in_memory b /\ shows b m /\
  exists b', dl_insert b 1 1 = Ok b' /\ m 2 = Some x03 /\ m 3 = Some x09 /\ img_insert m 1 1 4 = Some x09 /\
    peek b' 2 = Ok (Some x09) /\ peek b' 4 = Ok None.
Proof.
  exists (mkBase (gs_of [x01; x02; x03; x04]) nil [mkDiff 3 (gs_of [x09])] true 0), (img_write (img_bytes [x01; x02; x03; x04]) 3 [x09]).
  assert (HM : in_memory (mkBase (gs_of [x01; x02; x03; x04]) nil [mkDiff 3 (gs_of [x09])] true 0)).
  { split; [reflexivity|constructor; [vm_compute; discriminate|constructor]]. }
  split; [exact HM|]. split. { apply shows_of_content; [exact HM|]. intros i Hi. unfold content. cbn [b_diffs b_bytes]. rewrite over_one. reflexivity. }
  eexists. split; [vm_compute; reflexivity|]. repeat split; vm_compute; reflexivity.
Qed.

(** ** The default variant *)

Lemma default_nolayer : forall name, default_base name = KNoLayer <-> name = "NoLayer"%string.
Proof.
  intros name. unfold default_base. destruct (String.eqb_spec name "NoLayer") as [->|N]; [tauto|].
  destruct (String.eqb name "DobuleLayer"); split; intros H; congruence.
Qed.

Lemma default_double_refuted : default_base "DoubleLayer" = KBase /\ exists name, name <> "DoubleLayer"%string /\ default_base name = KDoubleLayer.
Proof. split; [reflexivity|]. exists "DobuleLayer"%string. split; [discriminate|reflexivity]. Qed.

(** Entries that were merged stay in the journal, where they were. *)
Lemma dl_merged_refuted : exists b m, in_memory b /\ shows b m /\
  exists b', dl_insert b 1 1 = Ok b' /\ img_insert m 1 1 2 = Some x02 /\ peek b' 2 = Ok (Some x09).
Proof.
  pose (ds := [mkDiff 0 (mkSlice [x01; x02; x03; x04] [x00; x00]); mkDiff 2 (gs_of [x09])]).
  assert (HM : in_memory (mkBase (gs_of []) nil ds true 0)).
  { split; [reflexivity|]. constructor; [vm_compute; discriminate|constructor; [vm_compute; discriminate|constructor]]. }
  exists (mkBase (gs_of []) nil ds true 0), (content (mkBase (gs_of []) nil ds true 0)).
  split; [exact HM|]. split; [apply shows_content; exact HM|].
  eexists. split; [vm_compute; reflexivity|]. split; vm_compute; reflexivity.
Qed.
