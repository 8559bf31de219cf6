(** DoubleLayer: merging on access keeps the content of a journal whose
    entries leave no gap after the first one. *)
From Coq Require Import ZArith List Bool Lia.
From Coq Require Import Strings.Byte.
From Verif Require Import GoLib GoLemmas BaseModel BaseSpec BaseProofs BaseProofs2 BaseProofs3.
From Verif Require Import VariantModel VariantSpec VariantProofs.
Import ListNotations.
Open Scope Z_scope.

Lemma copy_entry : forall d s, include d (d_off s) = true ->
  exists d', (do x <- gs_copy (d_sl d) (d_off s - d_off d) (d_data s); Ok (mkDiff (d_off d) x)) = Ok d' /\
    d_off d' = d_off d /\ d_len d' = d_len d /\
    (forall i, covers i s = false -> zget (d_data d') (i - d_off d) = zget (d_data d) (i - d_off d)).
Proof.
  intros d s I. apply include_iff in I. rewrite gs_copy_ok by (unfold d_len in I; lia).
  cbn [bind]. eexists. split; [reflexivity|]. split; [reflexivity|].
  rewrite d_len_data in I. unfold d_len, gs_len, d_data. cbn [d_sl sl_data].
  change (sl_data (d_sl d)) with (d_data d). change (sl_data (d_sl s)) with (d_data s). split.
  - apply zlen_copy_at. lia.
  - intros i C. rewrite zget_copy_at by lia.
    destruct ((d_off s - d_off d <=? i - d_off d) && (i - d_off d <? d_off s - d_off d + zlen (d_data s)) && (i - d_off d <? zlen (d_data d))) eqn:X; [|reflexivity].
    exfalso. assert (covers i s = true); [|congruence]. unfold covers. rewrite d_len_data. lia.
Qed.

Lemma merge_any : forall d s, d_off d <= d_off s ->
  exists d', diff_merge d s = Ok d' /\ d_off d' = d_off d /\ d_len d <= d_len d' /\
    (forall i, covers i d = true -> covers i s = false ->
       zget (d_data d') (i - d_off d) = zget (d_data d) (i - d_off d)) /\
    (forall i, covers i d' = true -> covers i d = true \/ covers i s = true \/
       d_off d + d_len d <= i < d_off s).
Proof.
  intros d s HO. unfold diff_merge.
  pose proof (d_len_nonneg d) as LD. pose proof (d_len_nonneg s) as LS.
  destruct (include d (d_off s)) eqn:IC.
  - destruct (inner d (d_off s) (d_len s)) eqn:IN.
    { destruct (copy_entry d s IC) as (d' & E & E1 & E2 & E3). exists d'. split; [exact E|].
      split; [exact E1|]. split; [lia|]. split; [auto|].
      intros i C. left. rewrite covers_iff in *. lia. }
    cbn [andb]. destruct (d_off s + d_len s <? d_off d + d_cap d) eqn:K.
    { destruct (copy_entry d s IC) as (d' & E & E1 & E2 & E3). exists d'. split; [exact E|].
      split; [exact E1|]. split; [lia|]. split; [auto|].
      intros i C. left. rewrite covers_iff in *. lia. }
    apply include_iff in IC. unfold inner in IN.
    assert (II : include d (d_off s) = true) by (apply include_iff; lia).
    rewrite II in IN. cbn [andb] in IN. apply Z.leb_gt in IN.
    pose proof (gs_cap_ge (d_sl d)) as CG.
    destruct (merge_ok d s HO) as (d' & E & E1 & E2).
    { right. left. lia. }
    unfold diff_merge in E. unfold inner in E. rewrite II in E. cbn [andb] in E.
    replace (d_off s + d_len s <=? d_off d + d_len d) with false in E by lia.
    rewrite K in E. exists d'. split; [exact E|]. split; [exact E1|].
    assert (LEN : d_len d' = d_off s + d_len s - d_off d).
    { cbn [bind] in E.
      set (nlen := Z.max (d_off d + d_len d) (d_off s + d_len s) - Z.min (d_off d) (d_off s)) in *.
      assert (Hn : nlen = d_off s + d_len s - d_off d) by (unfold nlen; lia).
      assert (ZN : zlen (zeros nlen) = nlen) by (rewrite zlen_zeros; lia).
      rewrite gs_copy_ok in E by (unfold gs_len; cbn [gs_make sl_data]; lia).
      cbn [bind gs_make sl_data sl_spare d_off d_sl] in E.
      assert (ZC : zlen (copy_at (zeros nlen) 0 (d_data d)) = nlen) by (rewrite zlen_copy_at; lia).
      rewrite gs_copy_ok in E by (unfold gs_len; cbn [sl_data]; lia). cbn [bind sl_data sl_spare] in E.
      injection E as <-. rewrite (d_len_data (mkDiff _ _)). unfold d_data at 1. cbn [d_sl sl_data].
      rewrite zlen_copy_at by lia. lia. }
    split; [lia|]. split.
    + intros i C1 C2. rewrite covers_iff in C1.
      specialize (E2 i ltac:(lia)). rewrite entry_img_get, E1 in E2. rewrite E2.
      unfold laid_over. destruct ((d_off d + d_len d <=? i) && (i <? d_off s)) eqn:G; [lia|].
      unfold img_write. rewrite entry_img_get.
      destruct ((d_off s <=? i) && (i <? d_off s + zlen (d_data s))) eqn:B; [|reflexivity].
      exfalso. assert (covers i s = true); [|congruence]. apply covers_iff. rewrite d_len_data. lia.
    + intros i C. rewrite covers_iff in C. rewrite !covers_iff. lia.
  - unfold inner. rewrite IC. cbn [andb].
    assert (GE : d_off d + d_len d <= d_off s).
    { assert (~ (d_off d <= d_off s < d_off d + d_len d)); [|lia].
      intros C. apply include_iff in C. congruence. }
    destruct (d_off s <? d_off d) eqn:LT; [lia|].
    set (nlen := Z.max (d_off d + d_len d) (d_off s + d_len s) - Z.min (d_off d) (d_off s)).
    assert (Hn : nlen = d_off s + d_len s - d_off d) by (unfold nlen; lia).
    assert (ZN : zlen (zeros nlen) = nlen) by (rewrite zlen_zeros; lia).
    rewrite gs_copy_ok by (unfold gs_len; cbn [gs_make sl_data]; lia).
    cbn [bind gs_make sl_data sl_spare d_off d_sl].
    assert (ZC : zlen (copy_at (zeros nlen) 0 (d_data d)) = nlen) by (rewrite zlen_copy_at; lia).
    rewrite gs_copy_ok by (unfold gs_len; cbn [sl_data]; lia). cbn [bind sl_data sl_spare].
    eexists. split; [reflexivity|]. split; [reflexivity|].
    assert (LEN : d_len (mkDiff (d_off d) (mkSlice (copy_at (copy_at (zeros nlen) 0 (d_data d)) (d_off s - d_off d) (d_data s)) (zeros (nlen * 2 - nlen)))) = nlen).
    { rewrite d_len_data. unfold d_data at 1. cbn [d_sl sl_data]. rewrite zlen_copy_at by lia. exact ZC. }
    split; [lia|]. split.
    + intros i C1 C2. rewrite covers_iff in C1. unfold d_data at 1. cbn [d_sl sl_data].
      rewrite zget_copy_at by lia. rewrite zget_copy_at by lia. rewrite ZC, ZN.
      destruct ((d_off s - d_off d <=? i - d_off d) && (i - d_off d <? d_off s - d_off d + zlen (d_data s)) && (i - d_off d <? nlen)) eqn:A; [lia|].
      destruct ((0 <=? i - d_off d) && (i - d_off d <? 0 + zlen (d_data d)) && (i - d_off d <? nlen)) eqn:C.
      * f_equal. lia.
      * pose proof (d_len_data d). lia.
    + intros i C. rewrite covers_iff in C. cbn [d_off] in C. rewrite LEN in C. rewrite !covers_iff. lia.
Qed.

Lemma merge_list_inv : forall l d0 done d,
  d_off d = d_off d0 ->
  (forall i, covers i d0 = true -> covers i d = true /\
     ((forall s, In s done -> covers i s = false) ->
      zget (d_data d) (i - d_off d0) = zget (d_data d0) (i - d_off d0))) ->
  (forall i, covers i d = true -> covers i d0 = true \/ exists s, In s done /\ covers i s = true) ->
  (forall l1 s l2, l = l1 ++ s :: l2 -> d_off d0 <= d_off s /\
    forall i, d_off d0 <= i < d_off s -> exists e, In e (d0 :: done ++ l1) /\ covers i e = true) ->
  exists d', merge_list d l = Ok d' /\ d_off d' = d_off d0 /\
    (forall i, covers i d0 = true -> covers i d' = true /\
       ((forall s, In s (done ++ l) -> covers i s = false) ->
        zget (d_data d') (i - d_off d0) = zget (d_data d0) (i - d_off d0))) /\
    (forall i, covers i d' = true -> covers i d0 = true \/ exists s, In s (done ++ l) /\ covers i s = true).
Proof.
  induction l as [|s l IH]; intros d0 done d HO H1 H2 G; cbn [merge_list].
  - exists d. rewrite app_nil_r. auto.
  - destruct (G [] s l eq_refl) as [GO GC]. rewrite app_nil_r in GC.
    destruct (merge_any d s) as (d1 & E & E1 & E2 & E3 & E4); [lia|].
    rewrite E. cbn [bind].
    destruct (IH d0 (done ++ [s]) d1) as (d' & F & F1 & F2 & F3).
    + lia.
    + intros i C. destruct (H1 i C) as [C1 V]. split.
      * rewrite covers_iff in *. rewrite E1, HO. lia.
      * intros N. rewrite <- V.
        -- rewrite <- HO. apply E3; [exact C1|]. apply N. apply in_app_iff. cbn. auto.
        -- intros s' Hs. apply N. apply in_app_iff. auto.
    + intros i C. destruct (E4 i C) as [C1|[C1|C1]].
      * destruct (H2 i C1) as [|(s' & Hs & Cs)]; [auto|]. right. exists s'. split; [|auto].
        apply in_app_iff. auto.
      * right. exists s. split; [|auto]. apply in_app_iff. cbn. auto.
      * rewrite covers_iff in C. destruct (GC i) as (e & He & Ce); [lia|].
        destruct He as [<-|He]; [auto|]. right. exists e. split; [|auto]. apply in_app_iff. auto.
    + intros l1 s' l2 El. subst l. destruct (G (s :: l1) s' l2 eq_refl) as [A B]. split; [exact A|].
      intros i Hi. destruct (B i Hi) as (e & He & Ce). exists e. split; [|exact Ce].
      rewrite <- app_assoc. exact He.
    + exists d'. split; [exact F|]. split; [exact F1|].
      rewrite <- app_assoc in F2, F3. cbn [app] in F2, F3. auto.
Qed.

Lemma dl_merge_keeps : forall b d l, in_memory b -> b_diffs b = d :: l -> gap_free d l ->
  exists b', dl_merge b = Ok b' /\ in_memory b' /\ forall m, shows b m -> shows b' m.
Proof.
  intros b d l Hb E G. unfold dl_merge. rewrite E. destruct l as [|e l].
  - exists b. auto.
  - destruct Hb as [HR HF]. rewrite HR. change (merge_list d []) with (Ok d). cbn [bind tl].
    destruct (merge_list_inv (e :: l) d [] d) as (d' & F & F1 & F2 & F3).
    + reflexivity.
    + intros i C. auto.
    + intros i C. auto.
    + intros l1 s l2 El. destruct (G l1 s l2 El). auto.
    + rewrite F. cbn [bind]. eexists. split; [reflexivity|].
      rewrite E in HF. inversion HF as [|? ? HD HT]; subst.
      assert (M : in_memory (set_diffs b (d' :: e :: l))).
      { split; [exact HR|]. cbn [set_diffs b_diffs]. constructor; [lia|exact HT]. }
      split; [exact M|]. intros m SH i Hi. specialize (SH i Hi).
      assert (Hb : in_memory b) by (split; [exact HR|rewrite E; exact HF]).
      rewrite peek_content in * by auto. rewrite <- SH. f_equal.
      unfold content. cbn [set_diffs b_diffs b_bytes]. rewrite E.
      unfold over. cbn [find_last].
      change (match find_last (covers i) l with Some y => Some y | None => if covers i e then Some e else None end)
        with (find_last (covers i) (e :: l)).
      destruct (find_last (covers i) (e :: l)) as [x|] eqn:FL; [reflexivity|].
      assert (N : forall s, In s (e :: l) -> covers i s = false) by (apply find_last_none_iff; exact FL).
      destruct (covers i d) eqn:C.
      * destruct (F2 i C) as [C' V]. rewrite C'. rewrite F1. apply V. exact N.
      * destruct (covers i d') eqn:C'; [|reflexivity]. exfalso.
        destruct (F3 i C') as [|(s & Hs & Cs)]; [congruence|]. rewrite N in Cs; [discriminate|exact Hs].
Qed.

Lemma dl_read_keeps : forall b d l, in_memory b -> b_diffs b = d :: l -> gap_free d l ->
  forall m i, shows b m -> 0 <= i ->
  exists b' s, dl_r b i 1 = Ok (b', s) /\ shows b' m /\ hd_error (opt_data s) = m i.
Proof.
  intros b d l Hb E G m i SH Hi. destruct (dl_merge_keeps b d l Hb E G) as (b' & M & Hb' & K).
  unfold dl_r. rewrite M. cbn [bind]. rewrite nl_r_base by (auto; lia).
  pose proof (K m SH i Hi) as P. unfold peek in P.
  destruct (base_r b' i 1) as [s| |] eqn:R; cbn [bind] in P; try discriminate.
  injection P as P. exists b', s. auto.
Qed.
