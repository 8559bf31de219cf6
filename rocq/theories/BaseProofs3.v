(** Lemmas about MergeDiffs on sorted journals, insertSpace, Copy, Dup,
    sequential writes and range reads. *)
From Coq Require Import ZArith List Bool Lia Sorting.Sorted.
From Coq Require Import ZifyBool ZifyNat.
From Coq Require Import Strings.Byte.
From Verif Require Import GoLib GoLemmas BaseModel BaseSpec BaseProofs BaseProofs2.
Import ListNotations.
Open Scope Z_scope.
Ltac Zify.zify_post_hook ::= Z.div_mod_to_equations.

(** ** MergeDiffs on a journal in offset order *)

Lemma merge_into_far : forall later d, Forall (fun s => d_off d + d_len d < d_off s) later ->
  merge_into d later = (d, later, false).
Proof.
  induction later as [|s later IH]; intros d H; [reflexivity|].
  inversion H; subst. cbn [merge_into]. unfold merge_stable.
  destruct (d_off d + d_len d <? d_off s) eqn:E; [|lia].
  rewrite IH by auto. reflexivity.
Qed.

Lemma merge_into_sorted : forall later d d' rest mg,
  merge_into d later = (d', rest, mg) ->
  Forall (fun s => d_off d <= d_off s) later ->
  StronglySorted (fun a b => d_off a <= d_off b) later ->
  (forall m i, over (d' :: rest) m i = over (d :: later) m i) /\
  d_off d' = d_off d /\ (forall x, In x rest -> In x later) /\
  StronglySorted (fun a b => d_off a <= d_off b) rest.
Proof.
  induction later as [|s later IH]; intros d d' rest mg H HF HS; cbn [merge_into] in H.
  - injection H as <- <- <-. repeat split; auto.
  - inversion HF as [|? ? F1 F2]; subst. inversion HS as [|? ? S1 S2]; subst.
    destruct (merge_stable d s) as [d1|] eqn:M.
    + destruct (merge_into d1 later) as [[d2 r2] m2] eqn:E. injection H as <- <- <-.
      pose proof (merge_stable_some _ _ _ M) as (T & E1 & E2 & E3).
      assert (d_off d1 = d_off d) by lia.
      destruct (IH _ _ _ _ E) as (C1 & C2 & C3 & C4).
      { rewrite Forall_forall in *. intros x Hx. specialize (F2 x Hx). lia. }
      { auto. }
      repeat split; auto; [|lia|].
      * intros m i. rewrite C1. change (d1 :: later) with ([d1] ++ later).
        change (d :: s :: later) with ([d; s] ++ later). rewrite !over_app.
        unfold over at 1 3. destruct (find_last (covers i) later); [reflexivity|]. apply E3.
      * intros x Hx. right; auto.
    + assert (X : merge_into d later = (d, later, false)).
      { apply merge_into_far. apply merge_stable_none in M. unfold touching in M.
        pose proof (d_len_nonneg s). pose proof (d_len_nonneg d).
        rewrite Forall_forall in *. intros x Hx. specialize (S2 x Hx). lia. }
      rewrite X in H. injection H as <- <- <-. repeat split; auto.
Qed.

Lemma merge_pass_sorted : forall ds ds', merge_pass ds = Some ds' ->
  StronglySorted (fun a b => d_off a <= d_off b) ds ->
  (forall m i, over ds' m i = over ds m i) /\
  StronglySorted (fun a b => d_off a <= d_off b) ds' /\
  (forall x, Forall (fun s => x <= d_off s) ds -> Forall (fun s => x <= d_off s) ds').
Proof.
  induction ds as [|d ds IH]; intros ds' H HS; cbn in H; [discriminate|].
  inversion HS as [|? ? S1 S2]; subst.
  destruct (merge_into d ds) as [[d1 r1] m1] eqn:E. destruct m1.
  - injection H as <-.
    destruct (merge_into_sorted _ _ _ _ _ E S2 S1) as (C1 & C2 & C3 & C4).
    split; [exact C1|]. rewrite Forall_forall in S2. split.
    + constructor; auto. rewrite Forall_forall. intros x Hx. rewrite C2. auto.
    + intros x Hx. inversion Hx as [|? ? H1 H2]; subst. rewrite Forall_forall in H2.
      constructor; [lia|]. rewrite Forall_forall. intros y Hy. auto.
  - destruct (merge_pass ds) as [l|] eqn:M; [|discriminate]. injection H as <-.
    destruct (IH l eq_refl S1) as (C1 & C2 & C3).
    split; [intros; rewrite !over_cons; apply C1|]. split; [constructor; auto|].
    intros x Hx. inversion Hx; subst. constructor; auto.
Qed.

Lemma merge_loop_sorted : forall fuel ds ds', merge_loop fuel ds = Ok ds' ->
  StronglySorted (fun a b => d_off a <= d_off b) ds ->
  forall m i, over ds' m i = over ds m i.
Proof.
  induction fuel; intros ds ds' H HS m i; cbn in H.
  - destruct (merge_pass ds) eqn:E; [discriminate|]. injection H as <-. reflexivity.
  - destruct (merge_pass ds) as [ds1|] eqn:E; [|injection H as <-; reflexivity].
    destruct (merge_pass_sorted _ _ E HS) as (C1 & C2 & _).
    rewrite (IHfuel _ _ H C2). apply C1.
Qed.

Lemma merge_into_off : forall later d d' rest mg, merge_into d later = (d', rest, mg) ->
  forall z, z <= d_off d -> Forall (fun s => z <= d_off s) later ->
  z <= d_off d' /\ Forall (fun s => z <= d_off s) rest.
Proof.
  induction later as [|s later IH]; intros d d' rest mg H z Hz HF; cbn [merge_into] in H.
  - injection H as <- <- <-. auto.
  - inversion HF as [|? ? F1 F2]; subst. destruct (merge_stable d s) as [d1|] eqn:M.
    + destruct (merge_into d1 later) as [[d2 r2] m2] eqn:E. injection H as <- <- <-.
      pose proof (merge_stable_some _ _ _ M) as (T & E1 & E2 & E3).
      apply (IH _ _ _ _ E); auto; lia.
    + destruct (merge_into d later) as [[d2 r2] m2] eqn:E. injection H as <- <- <-.
      destruct (IH _ _ _ _ E z Hz F2). auto.
Qed.

Lemma merge_pass_off : forall ds ds' z, merge_pass ds = Some ds' ->
  Forall (fun s => z <= d_off s) ds -> Forall (fun s => z <= d_off s) ds'.
Proof.
  induction ds as [|d ds IH]; intros ds' z H HF; cbn in H; [discriminate|].
  inversion HF as [|? ? F1 F2]; subst.
  destruct (merge_into d ds) as [[d1 r1] m1] eqn:E. destruct m1.
  - injection H as <-. destruct (merge_into_off _ _ _ _ _ E z F1 F2). auto.
  - destruct (merge_pass ds) as [l|] eqn:M; [|discriminate]. injection H as <-. auto.
Qed.

Lemma merge_loop_off : forall fuel ds ds' z, merge_loop fuel ds = Ok ds' ->
  Forall (fun s => z <= d_off s) ds -> Forall (fun s => z <= d_off s) ds'.
Proof.
  induction fuel; intros ds ds' z H HF; cbn in H.
  - destruct (merge_pass ds) eqn:E; [discriminate|]. injection H as <-. auto.
  - destruct (merge_pass ds) as [ds1|] eqn:E; [|injection H as <-; auto].
    apply (IHfuel _ _ _ H). eapply merge_pass_off; eauto.
Qed.

(** MergeDiffs as a whole. *)
Lemma merge_diffs_ends : forall b, in_memory b -> exists b', base_merge_diffs b = Ok b' /\
  in_memory b' /\ ForallOrdPairs (fun d s => ~ touching d s) (b_diffs b').
Proof.
  intros b [HR HF]. unfold base_merge_diffs.
  destruct (merge_loop_ends (length (b_diffs b)) (b_diffs b) (le_n _)) as (ds & E & F).
  rewrite E. cbn [bind]. eexists; split; [reflexivity|]. split; [|exact F].
  apply in_memory_set_diffs; auto. eapply merge_loop_off; eauto.
Qed.

Lemma merge_diffs_shows : forall b b' m, in_memory b ->
  (ForallOrdPairs apart (b_diffs b) /\ Forall (fun d => 0 < d_len d) (b_diffs b)
   \/ StronglySorted (fun d e => d_off d <= d_off e) (b_diffs b)) ->
  base_merge_diffs b = Ok b' -> shows b m -> shows b' m.
Proof.
  intros b b' m Hb HC E Hm.
  destruct (merge_diffs_ends b Hb) as (b1 & E1 & I1 & _). rewrite E in E1. injection E1 as <-.
  intros i Hi. rewrite peek_content by auto.
  assert (X : content b' i = content b i).
  { unfold base_merge_diffs in E. destruct (merge_loop (length (b_diffs b)) (b_diffs b)) as [ds| |] eqn:M;
      try discriminate. cbn [bind] in E. injection E as <-. unfold content; cbn [set_diffs b_diffs b_bytes].
    destruct HC as [[HA HP]|HS]; [eapply merge_loop_content; eauto|eapply merge_loop_sorted; eauto]. }
  rewrite X. f_equal. apply (shows_unique b); auto using shows_content.
Qed.

(** ** insertSpace *)

Lemma diffs_insert_mid : forall l1 l2 ads n, length l1 = n ->
  diffs_insert (l1 ++ l2) n ads = l1 ++ ads ++ l2.
Proof.
  intros l1 l2 ads n <-. unfold diffs_insert.
  rewrite app_length. destruct (length l1 + length l2 <? length l1)%nat eqn:E; [lia|].
  rewrite firstn_mid, skipn_mid. reflexivity.
Qed.

Lemma straddles_code : forall pos d, (d_off d <? pos) && include d pos = straddles pos d.
Proof. intros; unfold straddles, include. lia. Qed.

(** The split loop on indexed entries none of which crosses [pos]. *)
Lemma ins_split_none : forall pos l acc, Forall (fun id => straddles pos (snd id) = false) l ->
  fold_left (ins_split pos) l (Ok acc) = Ok acc.
Proof.
  induction l as [|[i d] l IH]; intros acc H; cbn [fold_left]; [reflexivity|].
  inversion H; subst. unfold ins_split at 2. cbn [bind]. rewrite straddles_code. cbn [snd] in *.
  rewrite H2. apply IH; auto.
Qed.

Lemma combine_app : forall A B (l1 l1' : list A) (l2 l2' : list B), length l1 = length l2 ->
  combine (l1 ++ l1') (l2 ++ l2') = combine l1 l2 ++ combine l1' l2'.
Proof.
  induction l1; intros l1' [|b l2] l2' H; cbn in *; try discriminate; [reflexivity|].
  rewrite IHl1; auto.
Qed.

Lemma Forall_combine_snd : forall A B (P : B -> Prop) (l1 : list A) (l2 : list B),
  Forall P l2 -> Forall (fun x => P (snd x)) (combine l1 l2).
Proof.
  induction l1; intros [|b l2] H; cbn; constructor; inversion H; subst; auto.
Qed.

Lemma d_data_mk : forall o s, d_data (mkDiff o s) = sl_data s.
Proof. reflexivity. Qed.

Lemma over_shift : forall ds pos size m m' i,
  Forall (fun d => straddles pos d = false) ds -> 0 <= size ->
  (i < pos -> m' i = m i) -> (pos + size <= i -> m' i = m (i - size)) ->
  (i < pos -> over (map (ins_shift pos size) ds) m' i = over ds m i) /\
  (pos + size <= i -> over (map (ins_shift pos size) ds) m' i = over ds m (i - size)).
Proof.
  induction ds as [|d ds IH]; intros pos size m m' i H Hs H1 H2.
  - rewrite !over_nil. auto.
  - inversion H as [|? ? S1 S2]; subst. cbn [map]. rewrite !over_cons.
    pose proof (d_len_nonneg d) as Hd. unfold straddles in S1.
    apply IH; auto; intros Hi; unfold img_write; unfold ins_shift;
      unfold d_len, gs_len in *; fold (d_data d) in *;
      destruct (pos <=? d_off d) eqn:E; cbn [d_off]; rewrite ?d_data_mk;
      change (sl_data (d_sl d)) with (d_data d).
    + destruct ((d_off d + size <=? i) && (i <? d_off d + size + zlen (d_data d))) eqn:A; [lia|].
      destruct ((d_off d <=? i) && (i <? d_off d + zlen (d_data d))) eqn:B; [lia|]. auto.
    + destruct ((d_off d <=? i) && (i <? d_off d + zlen (d_data d))) eqn:B; auto.
    + destruct ((d_off d + size <=? i) && (i <? d_off d + size + zlen (d_data d))) eqn:A.
      * replace ((d_off d <=? i - size) && (i - size <? d_off d + zlen (d_data d))) with true by lia.
        f_equal; lia.
      * replace ((d_off d <=? i - size) && (i - size <? d_off d + zlen (d_data d))) with false by lia.
        auto.
    + destruct ((d_off d <=? i) && (i <? d_off d + zlen (d_data d))) eqn:A; [lia|].
      destruct ((d_off d <=? i - size) && (i - size <? d_off d + zlen (d_data d))) eqn:B; [lia|].
      auto.
Qed.

Lemma over_hide : forall l1 d l2 m i,
  (covers i d = true -> exists e, In e l2 /\ covers i e = true) ->
  over (l1 ++ d :: l2) m i = over (l1 ++ l2) m i.
Proof.
  intros l1 d l2 m i H. rewrite !over_app. unfold over at 1 3. cbn [find_last].
  destruct (find_last (covers i) l2) eqn:F; [reflexivity|].
  destruct (covers i d) eqn:C; [|reflexivity].
  destruct (H eq_refl) as (e & I & Ce). pose proof (find_last_none _ _ _ _ F I). congruence.
Qed.

Lemma filter_nil_forall : forall A (p : A -> bool) l, filter p l = nil -> Forall (fun x => p x = false) l.
Proof.
  induction l; cbn; intros H; constructor.
  - destruct (p a); [discriminate|reflexivity].
  - apply IHl. destruct (p a); [discriminate|auto].
Qed.

Lemma filter_one_split : forall A (p : A -> bool) l, (length (filter p l) <= 1)%nat ->
  Forall (fun x => p x = false) l \/
  exists l1 x l2, l = l1 ++ x :: l2 /\ p x = true /\ Forall (fun x => p x = false) (l1 ++ l2).
Proof.
  induction l as [|a l IH]; cbn; intros H; [left; constructor|].
  destruct (p a) eqn:P.
  - right. exists nil, a, l. repeat split; auto. apply filter_nil_forall.
    cbn [app]. destruct (filter p l); [reflexivity|cbn in H; lia].
  - destruct (IH H) as [F|(l1 & x & l2 & -> & Px & F)]; [left; constructor; auto|].
    right. exists (a :: l1), x, l2. repeat split; auto. cbn. constructor; auto.
Qed.

Lemma ins_split_one : forall pos l1 d l2,
  straddles pos d = true -> Forall (fun x => straddles pos x = false) (l1 ++ l2) ->
  exists h t,
    fold_left (ins_split pos) (combine (seq 0 (length (l1 ++ d :: l2))) (l1 ++ d :: l2))
      (Ok (l1 ++ d :: l2)) = Ok (l1 ++ d :: [mkDiff (d_off d) h; mkDiff pos t] ++ l2) /\
    sl_data h = zfirst (pos - d_off d) (d_data d) /\
    sl_data t = zskip (pos - d_off d) (d_data d).
Proof.
  intros pos l1 d l2 S F. apply Forall_app in F as [F1 F2].
  rewrite app_length. cbn [length]. rewrite seq_app, combine_app by (rewrite seq_length; reflexivity).
  rewrite fold_left_app, ins_split_none by (apply (Forall_combine_snd _ _ (fun x => straddles pos x = false)); auto).
  cbn [seq combine fold_left]. unfold ins_split at 2. cbn [bind]. rewrite straddles_code, S.
  unfold straddles in S. pose proof (gs_cap_ge (d_sl d)). unfold d_len in *.
  rewrite gs_upto3_ok by (unfold d_len in *; lia). cbn [bind].
  rewrite gs_from_ok by lia. cbn [bind].
  exists (mkSlice (zfirst (pos - d_off d) (sl_data (d_sl d) ++ sl_spare (d_sl d)))
    (zskip (pos - d_off d) (zfirst (pos - d_off d) (sl_data (d_sl d) ++ sl_spare (d_sl d))))).
  exists (mkSlice (zskip (pos - d_off d) (sl_data (d_sl d))) (sl_spare (d_sl d))).
  cbn [sl_data]. split; [|split; [apply zfirst_app_le; unfold gs_len, d_data in *; lia|reflexivity]].
  replace (l1 ++ d :: l2) with ((l1 ++ [d]) ++ l2) by (rewrite <- app_assoc; reflexivity).
  rewrite diffs_insert_mid by (rewrite app_length; cbn; lia).
  rewrite ins_split_none by (apply (Forall_combine_snd _ _ (fun x => straddles pos x = false)); auto).
  rewrite <- app_assoc. reflexivity.
Qed.

Lemma insert_bytes_spec : forall b pos size nds, 0 <= pos -> 0 <= size ->
  exists bs pre,
    (if pos <? gs_len (b_bytes b)
      then do t <- gs_from (b_bytes b) pos;
           do h <- gs_upto3 (b_bytes b) pos pos;
           Ok (h, diffs_insert nds 0 [mkDiff (pos + size) t])
      else Ok (b_bytes b, nds)) = Ok (bs, pre ++ nds) /\
    Forall (fun d => 0 <= d_off d) pre /\
    (forall i, (i < pos -> over pre (img_bytes (sl_data bs)) i = img_bytes (sl_data (b_bytes b)) i) /\
      (pos + size <= i -> over pre (img_bytes (sl_data bs)) i
                          = img_bytes (sl_data (b_bytes b)) (i - size))) /\
    max_end pre (gs_len bs) = (if pos <? gs_len (b_bytes b) then gs_len (b_bytes b) + size else gs_len (b_bytes b)).
Proof.
  intros b pos size nds Hp Hs. destruct (pos <? gs_len (b_bytes b)) eqn:E.
  - pose proof (gs_cap_ge (b_bytes b)).
    rewrite gs_from_ok by lia. cbn [bind]. rewrite gs_upto3_ok by lia. cbn [bind].
    eexists; exists [mkDiff (pos + size) (mkSlice (zskip pos (sl_data (b_bytes b))) (sl_spare (b_bytes b)))].
    split; [unfold diffs_insert; cbn; reflexivity|]. split; [constructor; [cbn; lia|constructor]|].
    cbn [sl_data]. unfold gs_len in *. split.
    + intros i. rewrite over_one. unfold img_write, img_bytes; cbn [d_off].
      rewrite d_data_mk; cbn [sl_data]. rewrite zlen_zskip, zfirst_app_le by lia.
      split; intros Hi.
      * destruct ((pos + size <=? i) && _) eqn:C; [lia|]. rewrite zget_zfirst.
        replace (i <? pos) with true by lia. reflexivity.
      * rewrite zget_zfirst, zget_zskip by lia.
        destruct ((pos + size <=? i) && _) eqn:C.
        -- destruct (i - (pos + size) <? 0) eqn:D; [lia|]. f_equal; lia.
        -- destruct (i <? pos) eqn:D; [lia|]. symmetry. apply zget_ge. lia.
    + unfold max_end; cbn [fold_left d_off]. unfold d_len, gs_len; cbn [d_sl sl_data].
      rewrite zfirst_app_le, zlen_zskip, zlen_zfirst by lia. lia.
  - exists (b_bytes b), nil. split; [reflexivity|]. split; [constructor|]. split; [|reflexivity].
    intros i. rewrite over_nil. split; [reflexivity|]. intros Hi. unfold img_bytes, gs_len in *.
    rewrite !zget_ge by lia. reflexivity.
Qed.

Lemma insert_space_spec : forall b pos size, in_memory b -> 0 <= pos -> 0 <= size ->
  (length (filter (straddles pos) (b_diffs b)) <= 1)%nat ->
  exists b', insert_space b pos size true = Ok b' /\ in_memory b' /\
    forall i, content b' i = img_insert (content b) pos size i.
Proof.
  intros b pos size Hb Hp Hs H1. pose proof Hb as [HR HF]. unfold insert_space.
  assert (Hsplit : exists nds nds',
    fold_left (ins_split pos) (combine (seq 0 (length (b_diffs b))) (b_diffs b)) (Ok (b_diffs b)) = Ok nds /\
    Forall (fun d => 0 <= d_off d) nds /\
    Forall (fun d => straddles pos d = false) nds' /\
    (forall m i, over nds' m i = over (b_diffs b) m i) /\
    (forall m i, (i < pos \/ pos + size <= i) ->
       over (map (ins_shift pos size) nds) m i = over (map (ins_shift pos size) nds') m i)).
  { destruct (filter_one_split _ _ _ H1) as [F|(l1 & d & l2 & E & S & F)].
    - exists (b_diffs b), (b_diffs b). rewrite ins_split_none by (apply (Forall_combine_snd _ _ (fun x => straddles pos x = false)); auto).
      repeat split; auto.
    - rewrite E. destruct (ins_split_one pos l1 d l2 S F) as (h & t & E1 & E2 & E3).
      exists (l1 ++ d :: [mkDiff (d_off d) h; mkDiff pos t] ++ l2),
             (l1 ++ [mkDiff (d_off d) h; mkDiff pos t] ++ l2).
      rewrite E in HF. apply Forall_app in HF as [HF1 HF2]. inversion HF2 as [|? ? HF3 HF4]; subst.
      apply Forall_app in F as [F1 F2].
      assert (Hh : gs_len h = pos - d_off d).
      { unfold gs_len. rewrite E2, zlen_zfirst. unfold straddles, d_len, gs_len, d_data in *. lia. }
      assert (Ht : gs_len t = d_off d + d_len d - pos).
      { unfold gs_len. rewrite E3, zlen_zskip. unfold straddles, d_len, gs_len, d_data in *. lia. }
      split; [exact E1|]. split.
      { apply Forall_app; split; auto. constructor; auto. cbn. constructor; [cbn; auto|]. constructor; auto. }
      split.
      { apply Forall_app; split; auto. cbn. constructor; [|constructor; auto];
          unfold straddles, d_len; cbn [d_off d_sl]; lia. }
      split.
      { intros m i. change (d :: l2) with ([d] ++ l2). apply over_replace. intros m' j.
        replace pos with (d_off d + (pos - d_off d)) at 1 by lia.
        apply over_split; auto. unfold straddles in S. lia. }
      { intros m i Hi. rewrite !map_app. cbn [map app].
        apply over_hide. unfold straddles in S. intros C.
        unfold ins_shift in *; cbn [d_off d_sl] in *.
        destruct (pos <=? d_off d) eqn:E4; [lia|]. rewrite Z.leb_refl. apply covers_iff in C.
        destruct Hi as [Hi|Hi].
        - exists (mkDiff (d_off d) h). split; [cbn; auto|]. unfold covers, d_len; cbn [d_off d_sl]. lia.
        - exists (mkDiff (pos + size) t). split; [cbn; auto|]. unfold covers, d_len; cbn [d_off d_sl]. lia. } }
  destruct Hsplit as (nds & nds' & -> & HN1 & HN2 & HN3 & HN4). cbn [bind].
  destruct (insert_bytes_spec b pos size (map (ins_shift pos size) nds) Hp Hs)
    as (bs & pre & -> & HP1 & HP2 & _). cbn [bind].
  destruct (size <? 0) eqn:E; [lia|]. cbn [bind].
  eexists; split; [reflexivity|]. split.
  { split; [reflexivity|]. cbn. apply Forall_app; split; [apply Forall_app; split|]; auto.
    rewrite Forall_forall in *. intros x Hx. apply in_map_iff in Hx as (d & <- & Hd).
      unfold ins_shift. specialize (HN1 d Hd). destruct (pos <=? d_off d); cbn; lia. }
  intros i. unfold content at 1; cbn [b_diffs b_bytes]. rewrite over_app, over_one; cbn [d_off].
  rewrite d_data_mk; cbn [gs_of sl_data]. unfold img_write, img_insert. rewrite zlen_zeros, zget_zeros.
  destruct (HP2 i) as [HP3 HP4].
  assert (HO := over_shift nds' pos size (img_bytes (sl_data (b_bytes b)))
                  (over pre (img_bytes (sl_data bs))) i HN2 Hs HP3 HP4). destruct HO as [HO1 HO2].
  rewrite over_app.
  destruct ((pos <=? i) && (i <? pos + Z.max 0 size)) eqn:C.
  - replace ((0 <=? i - pos) && (i - pos <? size)) with true by lia.
    destruct (i <? pos) eqn:C1; [lia|]. destruct (i <? pos + size) eqn:C2; [reflexivity|lia].
  - rewrite HN4 by lia. unfold content. rewrite <- !HN3.
    destruct (i <? pos) eqn:C1; [apply HO1; lia|].
    destruct (i <? pos + size) eqn:C2; [lia|]. apply HO2; lia.
Qed.

Lemma img_insert_ext : forall m m' pos size i, 0 <= pos -> 0 <= i ->
  (forall j, 0 <= j -> m j = m' j) -> img_insert m pos size i = img_insert m' pos size i.
Proof.
  intros; unfold img_insert. destruct (i <? pos) eqn:E; [auto|].
  destruct (i <? pos + size) eqn:E2; [reflexivity|]. apply H1. lia.
Qed.

Lemma insert_space_shows : forall b pos size, in_memory b -> 0 <= pos -> 0 <= size ->
  (length (filter (straddles pos) (b_diffs b)) <= 1)%nat ->
  exists b', insert_space b pos size true = Ok b' /\ in_memory b' /\
    forall m, shows b m -> shows b' (img_insert m pos size).
Proof.
  intros b pos size Hb Hp Hs H1. destruct (insert_space_spec b pos size Hb Hp Hs H1) as (b' & E & I & C).
  exists b'. split; [exact E|]. split; [exact I|]. intros m Hm i Hi. rewrite peek_content by auto.
  rewrite C. f_equal. apply img_insert_ext; auto. intros j Hj. apply (shows_unique b); auto using shows_content.
Qed.

(** ** Range reads *)

Lemma in_split_two : forall A (l : list A) d l2 l1 e, l = l1 ++ d :: l2 -> In e l2 ->
  exists l2' l3, l = l1 ++ d :: l2' ++ e :: l3.
Proof. intros. apply in_split in H0 as (a & b & ->). eauto. Qed.

Lemma find_last_split : forall A (p : A -> bool) l x, find_last p l = Some x ->
  exists l1 l2, l = l1 ++ x :: l2 /\ p x = true /\ Forall (fun y => p y = false) l2.
Proof.
  intros A p l x H. pose proof (last_index_find_last _ p l) as L.
  destruct (last_index p l) as [n|] eqn:E; [|congruence]. destruct L as [L _].
  apply last_index_some in E as (l1 & y & l2 & -> & <- & P & F).
  rewrite nth_error_mid, H in L. injection L as ->.
  exists l1, l2. repeat split; auto. apply Forall_forall. intros z Hz. eapply find_last_none; eauto.
Qed.

Lemma reads_current_ok : forall b, in_memory b -> no_inner_start (b_diffs b) -> reads_current b.
Proof.
  intros b Hb HN off req s m Ho Hr Hm E k Hk.
  assert (Hm' : m (off + k) = content b (off + k)).
  { apply (shows_unique b); auto using shows_content; lia. }
  rewrite Hm'. clear Hm Hm' m.
  destruct (base_r_spec b off req Hb Ho Hr) as (s' & E' & S). rewrite E in E'. injection E' as <-.
  unfold content, over.
  destruct (find_last (covers off) (b_diffs b)) as [d|] eqn:F.
  - destruct (find_last_split _ _ _ _ F) as (l1 & l2 & E1 & C & FL).
    apply covers_iff in C.
    assert (F2 : find_last (covers (off + k)) (b_diffs b) = Some d).
    { rewrite S in Hk. rewrite zlen_zskip in Hk.
      rewrite E1, find_last_app. cbn [find_last].
      assert (N : find_last (covers (off + k)) l2 = None).
      { apply find_last_none_iff. intros e He.
        destruct (in_split_two _ _ _ _ _ _ E1 He) as (a & b0 & E2).
        specialize (HN _ _ _ _ _ E2). rewrite Forall_forall in FL. specialize (FL e He).
        unfold covers, d_len, gs_len, d_data in *. lia. }
      rewrite N. replace (covers (off + k) d) with true; [reflexivity|].
      unfold covers, d_len, gs_len, d_data in *. lia. }
    rewrite F2. rewrite S, zget_zskip by lia. destruct (k <? 0) eqn:K; [lia|]. f_equal; lia.
  - destruct S as (S1 & S2 & S3). rewrite opt_len_data in S3. destruct (S3 k Hk) as [G1 G2].
    rewrite G1, G2. reflexivity.
Qed.

Lemma base_r_req : forall b off req req' s, in_memory b -> 0 <= off -> 0 <= req -> 0 < opt_len s ->
  base_r b off req = Ok s -> base_r b off req' = Ok s.
Proof.
  intros b off req req' s Hb Ho Hr Hl E. unfold base_r in *.
  destruct (writer_r_spec b off Hb Ho) as (w & EW & S). rewrite EW in *. cbn [bind] in *.
  destruct (opt_len w =? 0) eqn:Z0; [|exact E].
  destruct (find_last (covers off) (b_diffs b)) as [d|]; [lia|].
  destruct S as (S1 & S2 & S3).
  destruct (reader_r0_spec b off req Hb Ho Hr) as (s' & E' & S1' & S2'). rewrite E in E'. injection E' as <-.
  rewrite opt_len_data in Hl. rewrite S1' in Hl by lia. cbn in Hl. lia.
Qed.

Lemma base_r_empty_iff : forall b off req s, in_memory b -> 0 <= off -> 0 <= req ->
  base_r b off req = Ok s -> (opt_len s = 0 <-> content b off = None).
Proof.
  intros b off req s Hb Ho Hr E.
  destruct (base_r_spec b off req Hb Ho Hr) as (s' & E' & S). rewrite E in E'. injection E' as <-.
  unfold content, over. destruct (find_last (covers off) (b_diffs b)) as [d|] eqn:F.
  - destruct (find_last_some _ _ _ _ F) as [_ C]. destruct (covers_get _ _ C) as [x G].
    apply covers_iff in C. rewrite opt_len_data, S, zlen_zskip. rewrite G.
    unfold d_len, gs_len, d_data in *. split; [lia|discriminate].
  - destruct S as (S1 & S2 & S3). unfold img_bytes, gs_len in *. split.
    + intros Hz. apply zget_ge. lia.
    + intros G. apply zget_none_range in G. apply S2. lia.
Qed.

Lemma gs_upto_all : forall x, gs_upto x (gs_len x) = Ok x.
Proof.
  intros [l sp]. unfold gs_upto. pose proof (gs_cap_ge (mkSlice l sp)). pose proof (gs_len_nonneg (mkSlice l sp)).
  rewrite gs_range_ok by lia. unfold gs_len; cbn [sl_data sl_spare]. f_equal.
  rewrite zskip_0, zfirst_app_le, zfirst_all by lia. f_equal.
  unfold zskip, zlen. rewrite Nat2Z.id, skipn_mid. reflexivity.
Qed.

Lemma read_at_spec : forall b p off, in_memory b -> 0 <= off ->
  exists s, base_r b off (zlen p) = Ok s /\
    read_at b p off = Ok (copy_at p 0 (opt_data s), opt_len s).
Proof.
  intros b p off Hb Ho. pose proof (zlen_nonneg p).
  destruct (base_r_spec b off (zlen p) Hb Ho H) as (s & E & _).
  exists s. split; [exact E|]. unfold read_at. rewrite E. cbn [bind].
  destruct (Z.eq_dec (opt_len s) 0) as [Z0|NZ].
  - assert (C : content b off = None) by (eapply base_r_empty_iff; eauto).
    destruct (base_r_spec b off (opt_len s) Hb Ho ltac:(lia)) as (s2 & E2 & _).
    assert (L2 : opt_len s2 = 0) by (apply (base_r_empty_iff b off (opt_len s) s2 Hb Ho ltac:(lia) E2); auto).
    rewrite E2. cbn [bind]. rewrite Z0.
    rewrite opt_len_data in Z0, L2.
    assert (N1 : opt_data s = nil) by (destruct (opt_data s); [reflexivity|rewrite zlen_cons in Z0; pose proof (zlen_nonneg l); lia]).
    assert (N2 : opt_data s2 = nil) by (destruct (opt_data s2); [reflexivity|rewrite zlen_cons in L2; pose proof (zlen_nonneg l); lia]).
    rewrite N1. destruct s2 as [x|]; cbn [Z.eqb].
    + cbn in N2. replace 0 with (gs_len x) by (unfold gs_len; rewrite N2; reflexivity).
      rewrite gs_upto_all. cbn [bind]. rewrite N2. reflexivity.
    + reflexivity.
  - assert (Hl : 0 < opt_len s) by (pose proof (zlen_nonneg (opt_data s)); rewrite opt_len_data in *; lia).
    rewrite (base_r_req b off (zlen p) (opt_len s) s Hb Ho H Hl E). cbn [bind].
    destruct s as [x|]; [|cbn in Hl; lia]. cbn [opt_len opt_data]. rewrite gs_upto_all. reflexivity.
Qed.

Lemma read_at_current : forall b p off m, in_memory b -> 0 <= off -> no_inner_start (b_diffs b) ->
  shows b m ->
  exists p' n, read_at b p off = Ok (p', n) /\ zlen p' = zlen p /\ 0 <= n /\
    (n = 0 <-> m off = None) /\
    (forall k, 0 <= k < Z.min n (zlen p) -> zget p' k = m (off + k)) /\
    (forall k, n <= k -> zget p' k = zget p k).
Proof.
  intros b p off m Hb Ho HN Hm. destruct (read_at_spec b p off Hb Ho) as (s & E & ER).
  pose proof (zlen_nonneg p). pose proof (zlen_nonneg (opt_data s)) as Hn. rewrite <- opt_len_data in Hn.
  exists (copy_at p 0 (opt_data s)), (opt_len s). split; [exact ER|].
  split; [apply zlen_copy_at; lia|]. split; [exact Hn|]. split; [|split].
  - rewrite (base_r_empty_iff b off (zlen p) s Hb Ho H E).
    rewrite (shows_unique b _ _ Hm (shows_content b Hb) off Ho). tauto.
  - intros k Hk. rewrite zget_copy_at by lia. rewrite <- opt_len_data.
    replace ((0 <=? k) && (k <? 0 + opt_len s) && (k <? zlen p)) with true by lia.
    replace (k - 0) with k by lia. rewrite opt_len_data in Hk.
    exact (reads_current_ok b Hb HN off (zlen p) s m Ho H Hm E k ltac:(lia)).
  - intros k Hk. rewrite zget_copy_at by lia. rewrite <- opt_len_data.
    replace ((0 <=? k) && (k <? 0 + opt_len s) && (k <? zlen p)) with false by lia. reflexivity.
Qed.

(** ** Copy *)

Lemma copy_loop_spec : forall fuel src srcOff size dstOff ptr ds,
  in_memory src -> reads_current src -> 0 <= srcOff -> 0 <= dstOff ->
  srcOff <= ptr <= srcOff + size -> srcOff + size - ptr <= Z.of_nat fuel ->
  Forall (fun d => 0 <= d_off d) ds ->
  exists ds' n, copy_loop fuel src srcOff size dstOff ptr ds = Ok ds' /\
    Forall (fun d => 0 <= d_off d) ds' /\
    ptr - srcOff <= n <= size /\
    (forall k, ptr - srcOff <= k < n -> content src (srcOff + k) <> None) /\
    (n = size \/ content src (srcOff + n) = None) /\
    forall m i, over ds' m i =
      if (dstOff + (ptr - srcOff) <=? i) && (i <? dstOff + n)
      then content src (srcOff + (i - dstOff)) else over ds m i.
Proof.
  induction fuel as [|fuel IH]; intros src srcOff size dstOff ptr ds Hs HC Hso Hdo Hp Hf HF.
  - cbn [copy_loop]. destruct (srcOff + size <=? ptr) eqn:E; [|lia].
    exists ds, size. split; [reflexivity|]. split; [auto|]. split; [lia|]. split; [intros; lia|].
    split; [auto|]. intros m i. destruct (_ && _) eqn:C; [lia|reflexivity].
  - cbn [copy_loop]. destruct (srcOff + size <=? ptr) eqn:E.
    { exists ds, size. split; [reflexivity|]. split; [auto|]. split; [lia|]. split; [intros; lia|].
      split; [auto|]. intros m i. destruct (_ && _) eqn:C; [lia|reflexivity]. }
    destruct (base_r_spec src ptr (size - (ptr - srcOff)) Hs ltac:(lia) ltac:(lia)) as (s & ES & _).
    rewrite ES. cbn [bind].
    pose proof (base_r_empty_iff src ptr (size - (ptr - srcOff)) s Hs ltac:(lia) ltac:(lia) ES) as HE.
    assert (Hstop : opt_len s = 0 -> exists ds' n, Ok ds = Ok ds' /\
      Forall (fun d => 0 <= d_off d) ds' /\ ptr - srcOff <= n <= size /\
      (forall k, ptr - srcOff <= k < n -> content src (srcOff + k) <> None) /\
      (n = size \/ content src (srcOff + n) = None) /\
      forall m i, over ds' m i =
        if (dstOff + (ptr - srcOff) <=? i) && (i <? dstOff + n)
        then content src (srcOff + (i - dstOff)) else over ds m i).
    { intros Z0. exists ds, (ptr - srcOff). split; [reflexivity|]. split; [auto|]. split; [lia|].
      split; [intros; lia|]. split.
      - right. replace (srcOff + (ptr - srcOff)) with ptr by lia. apply HE; auto.
      - intros m i. destruct (_ && _) eqn:C; [lia|reflexivity]. }
    destruct s as [data|]; [|apply Hstop; reflexivity].
    destruct (gs_len data =? 0) eqn:E0; [apply Hstop; cbn; lia|]. clear Hstop HE.
    pose proof (gs_len_nonneg data) as Hd.
    assert (Hdata : exists data', (if size - (ptr - srcOff) <? gs_len data
                        then gs_upto data (size - (ptr - srcOff)) else Ok data) = Ok data' /\
      gs_len data' = Z.min (gs_len data) (size - (ptr - srcOff)) /\
      forall k, k < gs_len data' -> zget (sl_data data') k = zget (sl_data data) k).
    { destruct (size - (ptr - srcOff) <? gs_len data) eqn:E1.
      - pose proof (gs_cap_ge data). unfold gs_upto. rewrite gs_range_ok by lia.
        eexists; split; [reflexivity|]. unfold gs_len in *; cbn [sl_data].
        rewrite zskip_0, zfirst_app_le, zlen_zfirst by lia. split; [lia|].
        intros k Hk. rewrite zget_zfirst. destruct (k <? _) eqn:K; [reflexivity|lia].
      - exists data. split; [reflexivity|]. split; [lia|auto]. }
    destruct Hdata as (data' & -> & L' & G'). cbn [bind].
    assert (HG : forall k, 0 <= k < gs_len data' -> zget (sl_data data') k = content src (ptr + k)).
    { intros k Hk. rewrite G' by lia.
      refine (HC ptr _ _ (content src) _ _ (shows_content src Hs) ES k _); cbn; unfold gs_len in *; lia. }
    destruct (IH src srcOff size dstOff (ptr + gs_len data') (ds ++ [mkDiff (ptr - srcOff + dstOff) data'])
                Hs HC Hso Hdo ltac:(lia) ltac:(lia)) as (ds' & n & E1 & E2 & E3 & E4 & E5 & E6).
    { apply Forall_app; split; auto. constructor; [cbn; lia|constructor]. }
    exists ds', n. split; [exact E1|]. split; [exact E2|]. split; [lia|]. split; [|split; [exact E5|]].
    + intros k Hk. destruct (Z_lt_dec k (ptr + gs_len data' - srcOff)) as [L|L]; [|apply E4; lia].
      replace (srcOff + k) with (ptr + (k - (ptr - srcOff))) by lia. rewrite <- HG by lia.
      destruct (zget_some (sl_data data') (k - (ptr - srcOff))) as [x ->]; [unfold gs_len in *; lia|discriminate].
    + intros m i. rewrite E6, over_app, over_one. cbn [d_off]. rewrite d_data_mk.
      destruct ((dstOff + (ptr + gs_len data' - srcOff) <=? i) && (i <? dstOff + n)) eqn:C1.
      * replace ((dstOff + (ptr - srcOff) <=? i) && (i <? dstOff + n)) with true by lia. reflexivity.
      * unfold img_write. fold (gs_len data').
        destruct ((ptr - srcOff + dstOff <=? i) && (i <? ptr - srcOff + dstOff + gs_len data')) eqn:C2.
        -- replace ((dstOff + (ptr - srcOff) <=? i) && (i <? dstOff + n)) with true by lia.
           rewrite HG by lia. f_equal; lia.
        -- replace ((dstOff + (ptr - srcOff) <=? i) && (i <? dstOff + n)) with false by lia. reflexivity.
Qed.

Lemma base_copy_spec : forall b src srcOff size dstOff extend,
  in_memory b -> in_memory src -> reads_current src ->
  0 <= srcOff -> 0 <= size -> 0 <= dstOff -> 0 <= extend ->
  (extend = 0 \/ Forall (fun d => straddles dstOff d = false) (b_diffs b)) ->
  exists b' n, base_copy b src srcOff size dstOff extend = Ok b' /\ in_memory b' /\
    defined_run (content src) srcOff size n /\
    forall i, i < dstOff + n \/ dstOff + extend <= i ->
      content b' i = if (dstOff <=? i) && (i <? dstOff + n) then content src (srcOff + (i - dstOff))
                     else if i <? dstOff then content b i else content b (i - extend).
Proof.
  intros b src srcOff size dstOff extend Hb Hs HC Hso Hsz Hdo He HS. pose proof Hb as [HR HF].
  unfold base_copy.
  assert (H0 : exists pre, (if dstOff <? gs_len (b_bytes b)
             then do t <- gs_from (b_bytes b) dstOff;
                  Ok (diffs_insert (b_diffs b) 0 [mkDiff dstOff t])
             else Ok (b_diffs b)) = Ok (pre ++ b_diffs b) /\
      Forall (fun d => 0 <= d_off d) pre /\
      Forall (fun d => straddles dstOff d = false) pre /\
      (forall i, over pre (img_bytes (sl_data (b_bytes b))) i = img_bytes (sl_data (b_bytes b)) i) /\
      (forall i, dstOff + extend <= i -> over pre (img_bytes (sl_data (b_bytes b))) (i - extend)
             = over (map (ins_shift dstOff extend) pre) (img_bytes (sl_data (b_bytes b))) i)).
  { destruct (dstOff <? gs_len (b_bytes b)) eqn:E.
    - rewrite gs_from_ok by lia. cbn [bind].
      exists [mkDiff dstOff (mkSlice (zskip dstOff (sl_data (b_bytes b))) (sl_spare (b_bytes b)))].
      split; [reflexivity|]. split; [constructor; [cbn; lia|constructor]|].
      split; [constructor; [unfold straddles; cbn [d_off]; lia|constructor]|].
      cbn [map]. unfold ins_shift. cbn [d_off]. rewrite Z.leb_refl.
      unfold gs_len in *. split.
      + intros i. rewrite over_one. unfold img_write. cbn [d_off]. rewrite d_data_mk. cbn [sl_data].
        rewrite zlen_zskip. destruct (_ && _) eqn:C; [|reflexivity].
        rewrite zget_zskip by lia. destruct (i - dstOff <? 0) eqn:D; [lia|].
        unfold img_bytes. f_equal; lia.
      + intros i Hi. rewrite !over_one. unfold img_write. cbn [d_off d_sl]. rewrite !d_data_mk. cbn [sl_data].
        rewrite zlen_zskip.
        destruct ((dstOff <=? i - extend) && _) eqn:C.
        * replace ((dstOff + extend <=? i) && (i <? dstOff + extend + Z.max 0 (zlen (sl_data (b_bytes b)) - Z.max 0 dstOff))) with true by lia.
          f_equal; lia.
        * replace ((dstOff + extend <=? i) && (i <? dstOff + extend + Z.max 0 (zlen (sl_data (b_bytes b)) - Z.max 0 dstOff))) with false by lia.
          unfold img_bytes. rewrite !zget_ge by lia. reflexivity.
    - exists nil. split; [reflexivity|]. split; [constructor|]. split; [constructor|]. split; [reflexivity|].
      intros i Hi. cbn [map]. rewrite !over_nil. unfold img_bytes, gs_len in *. rewrite !zget_ge by lia. reflexivity. }
  destruct H0 as (pre & -> & P1 & P2 & P3 & P4). cbn [bind].
  change (fun d : diff => if dstOff <=? d_off d then mkDiff (d_off d + extend) (d_sl d) else d)
    with (ins_shift dstOff extend).
  destruct (copy_loop_spec (Z.to_nat size) src srcOff size dstOff srcOff
     (map (ins_shift dstOff extend) (pre ++ b_diffs b)) Hs HC Hso Hdo ltac:(lia) ltac:(lia))
    as (ds & n & E1 & E2 & E3 & E4 & E5 & E6).
  { assert (X : Forall (fun d => 0 <= d_off d) (pre ++ b_diffs b)) by (apply Forall_app; auto).
    rewrite Forall_forall in *. intros x Hx. apply in_map_iff in Hx as (d & <- & Hd).
    unfold ins_shift. specialize (X d Hd). destruct (dstOff <=? d_off d); cbn; lia. }
  rewrite E1. cbn [bind]. eexists; exists n. split; [reflexivity|]. split; [apply in_memory_set_diffs; auto|].
  split.
  { split; [lia|]. split; [intros; apply E4; lia|exact E5]. }
  intros i Hi. unfold content at 1; cbn [set_diffs b_diffs b_bytes]. rewrite E6.
  replace (dstOff + (srcOff - srcOff)) with dstOff by lia.
  destruct ((dstOff <=? i) && (i <? dstOff + n)) eqn:C; [reflexivity|].
  rewrite map_app, over_app. unfold content.
  destruct HS as [->|HS].
  - assert (X : forall l, map (ins_shift dstOff 0) l = l).
    { intros l. rewrite <- (map_id l) at 2. apply map_ext. intros [o sl]. unfold ins_shift; cbn.
      destruct (dstOff <=? o); [f_equal; lia|reflexivity]. }
    rewrite !X. replace (i - 0) with i by lia.
    destruct (i <? dstOff); apply over_ext; apply P3.
  - assert (HO := over_shift (b_diffs b) dstOff extend (img_bytes (sl_data (b_bytes b)))
       (over (map (ins_shift dstOff extend) pre) (img_bytes (sl_data (b_bytes b)))) i HS He).
    destruct HO as [HO1 HO2].
    + intros L. assert (HQ := over_shift pre dstOff extend (img_bytes (sl_data (b_bytes b)))
        (img_bytes (sl_data (b_bytes b))) i P2 He ltac:(reflexivity)).
      assert (HQ' : over (map (ins_shift dstOff extend) pre) (img_bytes (sl_data (b_bytes b))) i
                  = over pre (img_bytes (sl_data (b_bytes b))) i) by (apply HQ; lia).
      rewrite HQ'. apply P3.
    + intros L. rewrite <- P4 by lia. apply P3.
    + destruct (i <? dstOff) eqn:D; [apply HO1; lia|apply HO2; lia].
Qed.

Lemma copy_shows : forall b src srcOff size dstOff m ms,
  in_memory b -> in_memory src -> reads_current src ->
  0 <= srcOff -> 0 <= size -> 0 <= dstOff -> shows b m -> shows src ms ->
  exists b' n, base_copy b src srcOff size dstOff 0 = Ok b' /\ in_memory b' /\
    defined_run ms srcOff size n /\ shows b' (img_overlay m ms srcOff n dstOff).
Proof.
  intros b src srcOff size dstOff m ms Hb Hs HC H1 H2 H3 Hm Hms.
  destruct (base_copy_spec b src srcOff size dstOff 0 Hb Hs HC H1 H2 H3 ltac:(lia) (or_introl eq_refl))
    as (b' & n & E & I & (D1 & D2 & D3) & C).
  assert (U : forall i, 0 <= i -> ms i = content src i).
  { intros; apply (shows_unique src); auto using shows_content. }
  exists b', n. split; [exact E|]. split; [exact I|]. split.
  - split; [exact D1|]. split.
    + intros k Hk. rewrite U by lia. auto.
    + destruct D3 as [D3|D3]; [auto|right]. rewrite U by lia. auto.
  - intros i Hi. rewrite peek_content by auto. f_equal. rewrite C by lia. unfold img_overlay.
    destruct ((dstOff <=? i) && (i <? dstOff + n)) eqn:X; [rewrite U by lia; reflexivity|].
    replace (i - 0) with i by lia.
    assert (Y : content b i = m i) by (apply (shows_unique b); auto using shows_content).
    destruct (i <? dstOff); exact Y.
Qed.

Lemma copy_extend_shows : forall b src srcOff size dstOff m ms,
  in_memory b -> in_memory src -> reads_current src ->
  0 <= srcOff -> 0 <= size -> 0 <= dstOff -> shows b m -> shows src ms ->
  (forall k, 0 <= k < size -> ms (srcOff + k) <> None) ->
  Forall (fun d => straddles dstOff d = false) (b_diffs b) ->
  exists b', base_copy b src srcOff size dstOff size = Ok b' /\ in_memory b' /\
    shows b' (fun i => if i <? dstOff then m i
                       else if i <? dstOff + size then ms (srcOff + (i - dstOff))
                       else m (i - size)).
Proof.
  intros b src srcOff size dstOff m ms Hb Hs HC H1 H2 H3 Hm Hms HD HS.
  destruct (base_copy_spec b src srcOff size dstOff size Hb Hs HC H1 H2 H3 H2 (or_intror HS))
    as (b' & n & E & I & (D1 & D2 & D3) & C).
  assert (U : forall i, 0 <= i -> ms i = content src i).
  { intros; apply (shows_unique src); auto using shows_content. }
  assert (n = size).
  { destruct D3 as [D3|D3]; [exact D3|]. destruct (Z.eq_dec n size) as [|NE]; [auto|].
    elim (HD n ltac:(lia)). rewrite U by lia. exact D3. }
  subst n. exists b'. split; [exact E|]. split; [exact I|].
  intros i Hi. rewrite peek_content by auto. f_equal. rewrite C by lia.
  assert (Y : forall j, 0 <= j -> content b j = m j) by (intros; apply (shows_unique b); auto using shows_content).
  destruct ((dstOff <=? i) && (i <? dstOff + size)) eqn:X.
  - destruct (i <? dstOff) eqn:X1; [lia|]. destruct (i <? dstOff + size) eqn:X2; [|lia].
    rewrite U by lia. reflexivity.
  - destruct (i <? dstOff) eqn:X1; [apply Y; lia|]. destruct (i <? dstOff + size) eqn:X2; [lia|].
    apply Y; lia.
Qed.

(** ** Dup *)

Lemma dup_spec : forall b, in_memory b -> in_memory (base_dup b) /\
  len_buf (base_dup b) = len_buf b /\ forall m, shows b m -> shows (base_dup b) m.
Proof.
  intros b [HR HF].
  assert (I : in_memory (base_dup b)).
  { split; [reflexivity|]. cbn. rewrite Forall_forall in *. intros x Hx.
    apply in_map_iff in Hx as (d & <- & Hd). cbn. auto. }
  split; [exact I|]. split.
  - unfold len_buf, base_dup. cbn [b_diffs b_rdiffs b_bytes fold_left]. rewrite HR. cbn [fold_left].
    change (gs_len (gs_of (sl_data (b_bytes b)))) with (gs_len (b_bytes b)).
    generalize (gs_len (b_bytes b)). generalize (b_diffs b).
    induction l as [|d l IH]; intros z; [reflexivity|]. cbn [map fold_left]. apply IH.
  - intros m Hm i Hi. rewrite peek_content by auto. f_equal.
    rewrite <- (shows_unique b _ _ (shows_content b (conj HR HF)) Hm i Hi).
    unfold content, base_dup, over; cbn [b_diffs b_bytes gs_of sl_data]. rewrite find_last_map.
    change (fun x : diff => covers i {| d_off := d_off x; d_sl := gs_make_copy (d_sl x) |}) with (covers i).
    destruct (find_last (covers i) (b_diffs b)); reflexivity.
Qed.
