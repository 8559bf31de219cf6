(** Tables made by setters have no gaps, so they survive joining. *)
From Coq Require Import ZArith List Bool Lia.
From Coq Require Import Strings.Byte.
From Verif Require Import GoLib BaseModel GoLemmas BaseSpec BaseProofs BaseProofs2 BaseProofs3.
From Verif Require Import TableModel TableSpec TableProofs TableProofs2 ListModel ListSpec.
From Verif Require Import ListProofs ListProofs2 ListProofs3 ListProofs4 ListProofs5 ListProofs6.
From Verif Require Import AddModel AddSpec AddProofs AddProofs2 AddProofs3 AddProofs4 AddProofs5.
Import ListNotations.
Open Scope Z_scope.

Section Made.
Variable ks : list fkind.
Hypothesis sizes_pos : Forall (fun k => forall n, inline_size k = Some n -> 1 <= n) ks.
Hypothesis inline : Forall (fun k => inline_size k <> None) ks.
Hypothesis HS : 4 + 2 * zlen ks < 65536.
Hypothesis HT : 4 + inline_total ks < 65536.

Lemma info_within : forall t vt tl vals, inv ks t vt tl vals ->
  (forall f n, zget ks f = Some (KBasic n) -> n <= 4 \/ vals f <> None) ->
  forall ks' i acc es, (forall q, zget ks' q = if q <? 0 then None else zget ks (i + q)) -> 0 <= i -> acc <= tl ->
  table_info (t_io t) (t_pos t) ks' i acc = Ok (Some es) -> es <= tl.
Proof.
  intros t vt tl vals I W. induction ks' as [|k ks' IH]; intros i acc es HK Hi HA H; cbn [table_info] in H.
  - injection H as <-. exact HA.
  - assert (K0 : zget ks i = Some k).
    { specialize (HK 0). rewrite zget_cons in HK. cbn [Z.eqb Z.ltb Z.compare] in HK. rewrite Z.add_0_r in HK. congruence. }
    pose proof (zget_some_range _ _ _ K0) as R.
    destruct (zget_some vt i ltac:(rewrite (i_vt _ _ _ _ _ I); lia)) as [e He].
    rewrite (inv_virtual_table ks t vt tl vals i e I He) in H. cbn [bind] in H.
    assert (HK' : forall q, zget ks' q = if q <? 0 then None else zget ks (i + 1 + q)).
    { intros q. destruct (q <? 0) eqn:Q; [apply zget_neg; lia|]. specialize (HK (q + 1)). rewrite zget_cons in HK.
      replace (q + 1 =? 0) with false in HK by lia. replace (q + 1 <? 0) with false in HK by lia.
      replace (q + 1 - 1) with q in HK by lia. rewrite HK. f_equal. lia. }
    pose proof (i_tl _ _ _ _ _ I) as [T4 _].
    assert (FE : e <> 0 -> forall n, inline_size k = Some n -> e + n <= tl).
    { intros NE n Hn. destruct (i_field _ _ _ _ _ I i e He NE) as (k2 & n2 & p & G1 & G2 & _ & _ & _ & G6 & _). congruence. }
    destruct k as [m|m|]; [| |discriminate].
    + apply (IH _ _ _ HK' ltac:(lia)) in H; auto. destruct (Z.eq_dec e 0) as [->|NE].
      * destruct (W i m K0) as [L|L]; [lia|]. exfalso. apply L, (i_none _ _ _ _ _ I). intros e' He'. congruence.
      * specialize (FE NE m eq_refl). lia.
    + apply (IH _ _ _ HK' ltac:(lia)) in H; auto. destruct (Z.eq_dec e 0) as [->|NE].
      * replace (t_pos t + 0 =? t_pos t) with true by lia. lia.
      * specialize (FE NE m eq_refl). destruct (t_pos t + e =? t_pos t) eqn:Q; lia.
Qed.

Lemma final_some : forall h : list (assign * list byte), h <> nil -> exists i, final_map h i <> None.
Proof.
  intros h HN. unfold final_map.
  assert (K : forall h0 (m : fmap), (exists i, m i <> None) \/ h0 <> nil ->
    exists i, fold_left (fun m (ap : assign * list byte) => fmap_set m (fst (fst (fst ap))) (snd ap)) h0 m i <> None).
  { induction h0 as [|[[[i s] p] q] h0 IH]; intros m H; cbn [fold_left].
    - destruct H as [H|H]; [exact H|congruence].
    - apply IH. left. cbn [fst snd]. exists i. unfold fmap_set. rewrite Z.eqb_refl. discriminate. }
  apply K; auto.
Qed.

Lemma made_inv : forall h src sp s, made_by ks h (src, sp, s) ->
  self_contained ks src sp s /\ gapless ks src sp s /\
  exists vt tl, inv ks (mkT src sp) vt tl (final_map h) /\
    forall q e k n, zget vt q = Some e -> e <> 0 -> zget ks q = Some k -> inline_size k = Some n -> e + n <= s.
Proof.
  intros h src sp s (HN & HA & HW & (b0 & EI & ER) & ES).
  destruct (TableProofs2.built_inv ks h sizes_pos HS HT HA) as (b & t & vt & tl & EB & ER' & I).
  rewrite EI in EB. injection EB as <-. rewrite ER in ER'. injection ER' as <-.
  destruct (inv_self_contained ks sizes_pos inline _ vt tl _ I (final_some h HN)) as (es & SC & HB).
  cbn [t_io t_pos] in SC. pose proof (sc_size _ _ _ _ SC) as ES'. rewrite ES in ES'. injection ES' as <-.
  split; [exact SC|]. split; [|eauto].
  assert (LE : s <= tl).
  { apply (info_within _ _ _ _ I HW ks 0 (-1)); try lia.
    - intros q. destruct (q <? 0) eqn:Q; [apply zget_neg; lia|f_equal; lia].
    - pose proof (i_tl _ _ _ _ _ I). lia.
    - exact ES. }
  intros j Hj. pose proof (i_pos _ _ _ _ _ I) as P. cbn [t_pos] in P. assert (TP : tpos ks = vtable_size ks) by reflexivity.
  apply readable_content; [apply (i_mem _ _ _ _ _ I)|lia|]. apply (i_full _ _ _ _ _ I). lia.
Qed.

Lemma made_exists : forall h, h <> nil -> Forall (fun ap => assign_ok ks (fst ap) (snd ap)) h ->
  (forall f n, zget ks f = Some (KBasic n) -> n <= 4 \/ final_map h f <> None) ->
  exists e, made_by ks h e.
Proof.
  intros h HN HA HW. destruct (TableProofs2.built_inv ks h sizes_pos HS HT HA) as (b & t & vt & tl & EB & ER & I).
  destruct (inv_self_contained ks sizes_pos inline _ vt tl _ I (final_some h HN)) as (es & SC & HB).
  destruct t as [src sp]. exists (src, sp, es). cbn. repeat split; eauto. exact (sc_size _ _ _ _ SC).
Qed.

(** However the vector came about, every field of every element reads as it was
    last assigned. *)
Lemma made_fields : forall l es hs, built ks l es -> Forall2 (made_by ks) hs es ->
  list_vlen l = Ok (zlen hs) /\
  forall i h, zget hs i = Some h -> exists t, list_at (ETable ks) l i = Ok (Some t) /\
    forall f k n, zget ks f = Some k -> inline_size k = Some n ->
      read_field (mkT (l_io l) t) f n = Ok (final_map h f).
Proof.
  intros l es hs HB HF. destruct (built_shows ks l es HB) as [EV EA].
  assert (LZ : zlen es = zlen hs) by (unfold zlen; clear - HF; induction HF; cbn [length]; lia).
  split; [rewrite <- LZ; exact EV|]. intros i h Hh. pose proof (zget_some_range _ _ _ Hh) as R.
  destruct (zget_some es i ltac:(lia)) as [[[src sp] s] He].
  destruct (EA i src sp s He) as (t & AT & SR & VT). exists t. split; [exact AT|].
  assert (M : made_by ks h (src, sp, s)).
  { clear - HF Hh He R. revert i Hh He R. induction HF as [|h0 e0 hs es H HF IH]; intros i Hh He R.
    - rewrite zget_nil in Hh. discriminate.
    - rewrite zget_cons in Hh. rewrite zget_cons in He. rewrite zlen_cons in R. destruct (i =? 0) eqn:X.
      + injection Hh as <-. injection He as ->. exact H.
      + apply (IH (i - 1)); auto. lia. }
  destruct (made_inv _ _ _ _ M) as (SC & _ & vt & tl & I & HB').
  intros f k n Hk Hn. apply (copy_fields ks sizes_pos inline (mkT src sp) vt tl _ s (l_io l) t I SC HB' VT SR f k n Hk Hn).
Qed.
End Made.

Lemma made_appended : forall ks, Forall (fun k => forall n, inline_size k = Some n -> 1 <= n) ks ->
  Forall (fun k => inline_size k <> None) ks -> 4 + 2 * zlen ks < 65536 -> 4 + inline_total ks < 65536 ->
  forall h, h <> nil -> Forall (fun ap => assign_ok ks (fst ap) (snd ap)) h ->
  (forall f n, zget ks f = Some (KBasic n) -> n <= 4 \/ final_map h f <> None) ->
  exists src sp s, made_by ks h (src, sp, s) /\
    forall l es, built ks l es -> appended_size ks (es ++ [(src, sp, s)]) < 2 ^ 32 - 4 ->
      exists l', set_at (ETable ks) l (zlen es) src sp (-1) = Ok (LOk l') /\ built ks l' (es ++ [(src, sp, s)]).
Proof.
  intros ks H1 H2 H3 H4 h HN HA HW. destruct (made_exists ks H1 H2 H3 H4 h HN HA HW) as [[[src sp] s] M].
  exists src, sp, s. split; [exact M|]. destruct (made_inv ks H1 H2 H3 H4 h src sp s M) as (SC & G & _).
  intros l es HB HM. apply built_append; auto.
Qed.
