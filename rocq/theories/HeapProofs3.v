(** Copy and Dup on shared arrays; which arrays an operation can touch. *)
From Coq Require Import ZArith List Bool Lia.
From Coq Require Import Strings.Byte.
From Verif Require Import GoLib GoLemmas BaseModel BaseSpec BaseProofs HeapModel HeapSpec HeapProofs HeapProofs2.
Import ListNotations.
Open Scope Z_scope.

(** ** Copy *)
Lemma hcopy_loop_view : forall h src srcOff size dstOff, wf h src -> forall f ptr ds,
  Forall (fun d => wf_sl h (hd_sl d)) ds ->
  copy_loop f (view_base h src) srcOff size dstOff ptr (map (view_diff h) ds) =
  res_map (map (view_diff h)) (hcopy_loop f src srcOff size dstOff ptr ds) /\
  (forall ds', hcopy_loop f src srcOff size dstOff ptr ds = Ok ds' -> Forall (fun d => wf_sl h (hd_sl d)) ds').
Proof.
  intros h src srcOff size dstOff W. induction f as [|f IH]; intros ptr ds F; cbn [copy_loop hcopy_loop].
  - destruct (srcOff + size <=? ptr); (split; [reflexivity|]); intros ds' E; [injection E as <-; auto|discriminate].
  - destruct (srcOff + size <=? ptr).
    { split; [reflexivity|]. intros ds' E. injection E as <-. auto. }
    destruct (hb_r_view h src ptr (size - (ptr - srcOff)) W) as [R1 R2]. rewrite R1.
    destruct (hb_r src ptr (size - (ptr - srcOff))) as [[s|]| |]; cbn [res_map bind option_map];
      try (split; [reflexivity|]; intros ds' E; try discriminate; injection E as <-; auto).
    specialize (R2 s eq_refl). rewrite view_len by auto.
    destruct (a_len s =? 0).
    { split; [reflexivity|]. intros ds' E. injection E as <-. auto. }
    assert (X : exists r, (if size - (ptr - srcOff) <? a_len s then hs_upto s (size - (ptr - srcOff)) else Ok s) = r /\
      (if size - (ptr - srcOff) <? a_len s then gs_upto (view h s) (size - (ptr - srcOff)) else Ok (view h s)) =
      res_map (view h) r /\ (forall t, r = Ok t -> wf_sl h t)).
    { eexists. split; [reflexivity|]. destruct (size - (ptr - srcOff) <? a_len s).
      - unfold gs_upto, hs_upto. split; [apply view_range; auto|]. intros t E. exact (hs_range_wf _ _ _ _ _ R2 E).
      - split; [reflexivity|]. intros t E. injection E as <-. auto. }
    destruct X as (r & X1 & X2 & X3). rewrite X1, X2.
    destruct r as [t| |]; cbn [res_map bind]; try (split; [reflexivity|intros; discriminate]).
    specialize (X3 t eq_refl). rewrite view_len by auto.
    replace (map (view_diff h) ds ++ [mkDiff (ptr - srcOff + dstOff) (view h t)]) with
      (map (view_diff h) (ds ++ [mkHdiff (ptr - srcOff + dstOff) t])) by (rewrite map_app; reflexivity).
    apply IH. apply Forall_app2; [auto|]. constructor; [exact X3|constructor].
Qed.

Lemma hb_copy_view : forall h b src srcOff size dstOff extend, wf h b -> wf h src ->
  base_copy (view_base h b) (view_base h src) srcOff size dstOff extend =
  res_map (view_base h) (hb_copy b src srcOff size dstOff extend) /\
  (forall b', hb_copy b src srcOff size dstOff extend = Ok b' -> wf h b').
Proof.
  intros h b src srcOff size dstOff extend W WS. pose proof W as (W1 & W2 & W3).
  unfold base_copy, hb_copy. cbn [view_base b_bytes b_diffs]. rewrite view_len by auto.
  assert (X : exists r, (if dstOff <? a_len (hb_bytes b)
             then do t <- hs_from (hb_bytes b) dstOff;
                  Ok (hdiffs_insert (hb_diffs b) 0 [mkHdiff dstOff t])
             else Ok (hb_diffs b)) = r /\
    (if dstOff <? a_len (hb_bytes b)
             then do t <- gs_from (view h (hb_bytes b)) dstOff;
                  Ok (diffs_insert (map (view_diff h) (hb_diffs b)) 0 [mkDiff dstOff t])
             else Ok (map (view_diff h) (hb_diffs b))) = res_map (map (view_diff h)) r /\
    (forall ds, r = Ok ds -> Forall (fun d => wf_sl h (hd_sl d)) ds)).
  { eexists. split; [reflexivity|]. destruct (dstOff <? a_len (hb_bytes b)).
    - rewrite bind_from by auto. destruct (hs_from (hb_bytes b) dstOff) as [t| |] eqn:G; cbn [bind res_map];
        try (split; [reflexivity|intros; discriminate]).
      split; [rewrite <- hinsert_view; reflexivity|]. intros ds E. injection E as <-.
      apply hinsert_wf; [auto|]. constructor; [exact (hs_from_wf _ _ _ _ W1 G)|constructor].
    - split; [reflexivity|]. intros ds E. injection E as <-. auto. }
  destruct X as (r & X1 & X2 & X3). rewrite X1, X2.
  destruct r as [ds| |]; cbn [res_map bind]; try (split; [reflexivity|intros; discriminate]).
  specialize (X3 ds eq_refl). rewrite map_map.
  set (ds1 := map (fun d => if dstOff <=? hd_off d then mkHdiff (hd_off d + extend) (hd_sl d) else d) ds).
  assert (M : map (fun x => if dstOff <=? d_off (view_diff h x)
                   then mkDiff (d_off (view_diff h x) + extend) (d_sl (view_diff h x)) else view_diff h x) ds =
              map (view_diff h) ds1).
  { unfold ds1. rewrite map_map. apply map_ext. intros d. cbn [view_diff d_off d_sl].
    destruct (dstOff <=? hd_off d); reflexivity. }
  rewrite M.
  assert (F1 : Forall (fun d => wf_sl h (hd_sl d)) ds1).
  { unfold ds1. rewrite Forall_forall in *. intros d Hd. apply in_map_iff in Hd. destruct Hd as (e & <- & He).
    destruct (dstOff <=? hd_off e); cbn [hd_sl]; auto. }
  destruct (hcopy_loop_view h src srcOff size dstOff WS (Z.to_nat size) srcOff ds1 F1) as [L1 L2].
  rewrite L1. destruct (hcopy_loop (Z.to_nat size) src srcOff size dstOff srcOff ds1) as [ds2| |];
    cbn [res_map bind]; try (split; [reflexivity|intros; discriminate]).
  split; [reflexivity|]. intros b' E. injection E as <-. split; [exact W1|]. split; [|exact W3].
  apply L2. reflexivity.
Qed.

(** ** Dup *)
Definition fresh_from (n : nat) (s : hsl) : Prop := (n <= a_id s)%nat.

Lemma hdup_diffs_spec : forall ds h h' ds', Forall (fun d => wf_sl h (hd_sl d)) ds ->
  hdup_diffs h ds = (h', ds') ->
  extends h h' /\ Forall (fun d => wf_sl h' (hd_sl d)) ds' /\
  Forall (fun d => fresh_from (length h) (hd_sl d)) ds' /\
  map (view_diff h') ds' = map (fun d => mkDiff (d_off d) (gs_make_copy (d_sl d))) (map (view_diff h) ds).
Proof.
  induction ds as [|d ds IH]; intros h h' ds' F E; cbn [hdup_diffs] in E.
  - injection E as <- <-. split; [apply extends_refl|]. split; [constructor|]. split; [constructor|reflexivity].
  - inversion F as [|? ? Wd F']; subst. unfold h_new in E.
    set (v := view h (hd_sl d)) in *.
    set (l := sl_data v ++ zeros (zlen (sl_spare v))) in *.
    pose proof (view_len h (hd_sl d) Wd) as VL. fold v in VL. unfold gs_len in VL.
    pose proof (zlen_nonneg (sl_spare v)) as SN.
    assert (LL : zlen l = a_len (hd_sl d) + zlen (sl_spare v)).
    { unfold l. rewrite zlen_app, zlen_zeros. lia. }
    destruct (h_new_spec h l (a_len (hd_sl d)) (h ++ [l]) (mkHsl (length h) 0 (a_len (hd_sl d)) (zlen l))) as (EX & W & V).
    { pose proof (zlen_nonneg (sl_data v)). lia. }
    { reflexivity. }
    destruct (hdup_diffs (h ++ [l]) ds) as [h2 r] eqn:R. injection E as <- <-.
    destruct (view_diff_extends h (h ++ [l]) ds EX F') as [V1 W1].
    destruct (IH _ _ _ W1 R) as (I1 & I2 & I3 & I4).
    destruct (wf_extends _ _ _ I1 W) as [W2 V2].
    split; [eapply extends_trans; eauto|]. split; [constructor; auto|]. split.
    + constructor; [unfold fresh_from; cbn; lia|]. eapply Forall_impl; [|exact I3].
      intros x Hx. unfold fresh_from in *. rewrite app_length in Hx. cbn in Hx. lia.
    + cbn [map]. rewrite I4, V1. f_equal. unfold view_diff at 1. cbn [hd_off hd_sl]. rewrite V2, V.
      cbn [view_diff d_off d_sl]. f_equal. unfold gs_make_copy. fold v. unfold l.
      rewrite <- VL. f_equal.
      * rewrite zfirst_app_le by lia. rewrite zfirst_all by lia. reflexivity.
      * unfold zskip, zlen. rewrite Nat2Z.id. rewrite skipn_app, skipn_all, Nat.sub_diag. reflexivity.
Qed.

Lemma hb_dup_spec : forall h b h' c, wf h b -> hb_dup h b = (h', c) ->
  extends h h' /\ wf h' c /\ Forall (fresh_from (length h)) (slices c) /\
  view_base h' c = base_dup (view_base h b).
Proof.
  intros h b h' c (W1 & W2 & W3) E. unfold hb_dup, h_new in E.
  set (l := sl_data (view h (hb_bytes b))) in *.
  destruct (hdup_diffs (h ++ [l]) (hb_diffs b)) as [h2 ds] eqn:D. injection E as <- <-.
  pose proof (extends_last h l) as EX.
  destruct (view_last h l (zlen_nonneg l)) as [WS VS].
  destruct (view_diff_extends _ _ _ EX W2) as [V2 W2'].
  destruct (hdup_diffs_spec _ _ _ _ W2' D) as (D1 & D2 & D3 & D4).
  destruct (wf_extends _ _ _ D1 WS) as [WS' VS'].
  split; [eapply extends_trans; eauto|]. split; [split; [exact WS'|split; [exact D2|constructor]]|].
  split.
  - unfold slices. cbn [hb_bytes hb_diffs hb_rdiffs map]. rewrite app_nil_r.
    constructor; [unfold fresh_from; cbn; lia|]. apply Forall_map. eapply Forall_impl; [|exact D3].
    intros x Hx. unfold fresh_from in *. rewrite app_length in Hx. cbn in Hx. lia.
  - unfold view_base, base_dup. cbn [hb_bytes hb_rdiffs hb_diffs hb_check hb_seek b_bytes b_diffs map].
    rewrite VS', VS, D4, V2. reflexivity.
Qed.

(** ** Which arrays an operation holds and changes *)
Definition sub_closed (P : hsl -> Prop) : Prop :=
  forall s t, P s -> a_id t = a_id s -> a_cap t <= a_cap s -> P t.

Lemma hs_from_sub : forall P s a t, sub_closed P -> P s -> hs_from s a = Ok t -> P t.
Proof.
  intros P s a t C H E. unfold hs_from in E. destruct ((0 <=? a) && (a <=? a_len s)) eqn:X; [|discriminate].
  injection E as <-. eapply C; [exact H|reflexivity|cbn; lia].
Qed.

Lemma hs_range_sub : forall P s a b t, sub_closed P -> P s -> hs_range s a b = Ok t -> P t.
Proof.
  intros P s a b t C H E. unfold hs_range in E.
  destruct ((0 <=? a) && (a <=? b) && (b <=? a_cap s)) eqn:X; [|discriminate].
  injection E as <-. eapply C; [exact H|reflexivity|cbn; lia].
Qed.

Lemma hs_upto3_sub : forall P s a b t, sub_closed P -> P s -> hs_upto3 s a b = Ok t -> P t.
Proof.
  intros P s a b t C H E. unfold hs_upto3 in E.
  destruct ((0 <=? a) && (a <=? b) && (b <=? a_cap s)) eqn:X; [|discriminate].
  injection E as <-. eapply C; [exact H|reflexivity|cbn; lia].
Qed.

Definition all_sl (P : hsl -> Prop) (b : hbase) : Prop :=
  P (hb_bytes b) /\ Forall (fun d => P (hd_sl d)) (hb_diffs b) /\ Forall (fun d => P (hd_sl d)) (hb_rdiffs b).

Lemma all_sl_set : forall P b ds, all_sl P b -> Forall (fun d => P (hd_sl d)) ds -> all_sl P (hset_diffs b ds).
Proof. intros P b ds (A & B & C) F. split; [exact A|]. split; [exact F|exact C]. Qed.

Lemma hb_d_all : forall P b off size nb b', sub_closed P -> all_sl P b -> P nb ->
  hb_d b off size nb = Ok b' -> all_sl P b'.
Proof.
  intros P b off size nb b' C A N E. pose proof A as (A1 & A2 & A3). unfold hb_d in E.
  destruct (last_index (hcovers off) (hb_diffs b)) as [n|].
  - destruct (nth_error (hb_diffs b) n) as [d|] eqn:D; [|discriminate].
    assert (Pd : P (hd_sl d)) by (rewrite Forall_forall in A2; apply A2; eapply nth_error_In; eauto).
    destruct (hd_off d + a_len (hd_sl d) <=? off + size).
    + injection E as <-. apply all_sl_set; [auto|]. apply Forall_app2; auto.
    + destruct (hs_from (hd_sl d) (off - hd_off d + size)) as [t| |] eqn:F; cbn [bind] in E; try discriminate.
      unfold hs_upto in E.
      destruct (hs_range (hd_sl d) 0 (off + size - hd_off d)) as [u| |] eqn:G; cbn [bind] in E; try discriminate.
      injection E as <-. apply all_sl_set; [auto|]. apply Forall_app2; [|auto].
      apply hinsert_wf.
      * apply Forall_app2; [apply Forall_firstn; auto|].
        constructor; [exact (hs_range_sub _ _ _ _ _ C Pd G)|apply (Forall_skipn _ _ (S n)); auto].
      * constructor; [exact (hs_from_sub _ _ _ _ C Pd F)|constructor].
  - destruct ((off <? a_len (hb_bytes b)) && (off + size <? a_cap (hb_bytes b))).
    + destruct (hs_range (hb_bytes b) off (off + size)) as [u| |] eqn:G; cbn [bind] in E; try discriminate.
      injection E as <-. apply all_sl_set; [auto|]. apply Forall_app2; [auto|].
      constructor; [exact (hs_range_sub _ _ _ _ _ C A1 G)|auto].
    + injection E as <-. apply all_sl_set; [auto|]. apply Forall_app2; auto.
Qed.

Lemma hins_split_all : forall P pos l acc ds', sub_closed P ->
  Forall (fun x => P (hd_sl (snd x))) l ->
  (forall ds, acc = Ok ds -> Forall (fun d => P (hd_sl d)) ds) ->
  fold_left (hins_split pos) l acc = Ok ds' -> Forall (fun d => P (hd_sl d)) ds'.
Proof.
  intros P pos l acc ds' C F. revert acc. induction F as [|[i d] l W F IH]; intros acc HA E.
  - apply HA. exact E.
  - cbn [fold_left] in E. eapply IH; [|exact E]. intros ds S. cbn [snd] in W.
    unfold hins_split in S. destruct acc as [nds| |]; cbn [bind] in S; try discriminate.
    destruct ((hd_off d <? pos) && hinclude d pos); [|injection S as <-; auto].
    destruct (hs_upto3 (hd_sl d) (pos - hd_off d) (pos - hd_off d)) as [x| |] eqn:U; cbn [bind] in S; try discriminate.
    destruct (hs_from (hd_sl d) (pos - hd_off d)) as [t| |] eqn:T; cbn [bind] in S; try discriminate.
    injection S as <-. apply hinsert_wf; [auto|].
    constructor; [exact (hs_upto3_sub _ _ _ _ _ C W U)|].
    constructor; [exact (hs_from_sub _ _ _ _ C W T)|constructor].
Qed.

(** The windows an operation leaves behind, given any set of windows closed
    under re-slicing that has the old ones and those of new arrays. *)
Lemma run_hop_all : forall P h b o h' b', sub_closed P ->
  (forall s, (length h <= a_id s)%nat -> P s) ->
  all_sl P b -> run_hop h b o = Ok (h', b') -> all_sl P b'.
Proof.
  intros P h b o h' b' C NEW A E. pose proof A as (A1 & A2 & A3). destruct o; cbn [run_hop] in E.
  - unfold hb_write_at, h_new in E. injection E as <- <-. apply all_sl_set; [auto|].
    apply Forall_app2; [auto|]. constructor; [apply NEW; cbn; lia|constructor].
  - unfold hb_u in E. destruct (size <? 0); [discriminate|]. destruct (size <? zlen p); [discriminate|].
    unfold h_new in E.
    destruct (hb_d b off size (mkHsl (length h) 0 size (zlen (zeros size)))) as [b1| |] eqn:D; cbn [bind] in E; try discriminate.
    injection E as <- <-. eapply hb_d_all; [exact C|exact A| |exact D]. apply NEW. cbn. lia.
  - unfold hb_flatten, h_new in E.
    match type of E with bind ?m _ = _ => destruct m as [h3| |] end; cbn [bind] in E; try discriminate.
    injection E as <- <-. split; [apply NEW; cbn; lia|]. split; [constructor|exact A3].
  - unfold hb_insert_space in E.
    destruct (fold_left (hins_split pos) (combine (seq 0 (length (hb_diffs b))) (hb_diffs b)) (Ok (hb_diffs b))) as [nds| |] eqn:F;
      cbn [bind] in E; try discriminate.
    assert (FN : Forall (fun d => P (hd_sl d)) nds).
    { eapply hins_split_all; [exact C| | |exact F].
      - rewrite Forall_forall in *. intros [i d] Hd. apply in_combine_r in Hd. apply A2. exact Hd.
      - intros ds S. injection S as <-. exact A2. }
    assert (FM : Forall (fun d => P (hd_sl d)) (map (hins_shift pos size) nds)).
    { rewrite Forall_forall in *. intros d Hd. apply in_map_iff in Hd. destruct Hd as (e & <- & He).
      unfold hins_shift. destruct (pos <=? hd_off e); cbn [hd_sl]; auto. }
    set (nd := map (hins_shift pos size) nds) in *.
    assert (PART : forall bs ds, (if pos <? a_len (hb_bytes b)
      then do t <- hs_from (hb_bytes b) pos;
           do x <- hs_upto3 (hb_bytes b) pos pos;
           Ok (x, hdiffs_insert nd 0 [mkHdiff (pos + size) t])
      else Ok (hb_bytes b, nd)) = Ok (bs, ds) -> P bs /\ Forall (fun d => P (hd_sl d)) ds).
    { intros bs ds S. destruct (pos <? a_len (hb_bytes b)); [|injection S as <- <-; auto].
      destruct (hs_from (hb_bytes b) pos) as [t| |] eqn:T; cbn [bind] in S; try discriminate.
      destruct (hs_upto3 (hb_bytes b) pos pos) as [x| |] eqn:U; cbn [bind] in S; try discriminate.
      injection S as <- <-. split; [exact (hs_upto3_sub _ _ _ _ _ C A1 U)|].
      apply hinsert_wf; [auto|]. constructor; [exact (hs_from_sub _ _ _ _ C A1 T)|constructor]. }
    match type of E with bind ?m _ = _ => destruct m as [[bs ds]| |] eqn:M end; cbn [bind] in E; try discriminate.
    destruct (PART bs ds eq_refl) as [Q1 Q2]. destruct create.
    + destruct (size <? 0); [discriminate|]. unfold h_new in E. cbn [bind] in E. injection E as <- <-.
      split; [exact Q1|]. split; [|constructor]. cbn [hb_diffs]. apply Forall_app2; [auto|].
      constructor; [apply NEW; cbn; lia|constructor].
    + cbn [bind] in E. injection E as <- <-. split; [exact Q1|]. split; [exact Q2|constructor].
  - unfold hn_u in E. destruct (size <? zlen p); [discriminate|].
    destruct (last_index (hcap_covers off) (hb_diffs b)) as [n|].
    + destruct (nth_error (hb_diffs b) n) as [d|] eqn:D; [|discriminate].
      assert (Pd : P (hd_sl d)) by (rewrite Forall_forall in A2; apply A2; eapply nth_error_In; eauto).
      destruct (hd_off d =? off).
      * assert (R : Forall (fun d => P (hd_sl d)) (firstn n (hb_diffs b) ++ skipn (S n) (hb_diffs b))).
        { apply Forall_app2; [apply Forall_firstn; auto|apply (Forall_skipn _ _ (S n)); auto]. }
        destruct (a_cap (hd_sl d) <? size).
        -- unfold h_new in E. cbn [bind] in E. injection E as <- <-. apply all_sl_set; [auto|].
           apply Forall_app2; [exact R|]. constructor; [apply NEW; cbn; lia|constructor].
        -- destruct (a_len (hd_sl d) <? size).
           ++ destruct (hs_upto3 (hd_sl d) size size) as [s| |] eqn:U; cbn [bind] in E; try discriminate.
              injection E as <- <-. apply all_sl_set; [auto|].
              apply Forall_app2; [exact R|]. constructor; [exact (hs_upto3_sub _ _ _ _ _ C Pd U)|constructor].
           ++ cbn [bind] in E. injection E as <- <-. apply all_sl_set; [auto|].
              apply Forall_app2; [exact R|]. constructor; [exact Pd|constructor].
      * destruct (hs_range (hd_sl d) (off - hd_off d) (off - hd_off d + size)) as [s| |]; cbn [bind] in E; try discriminate.
        injection E as <- <-. exact A.
    + destruct (off + size <=? a_len (hb_bytes b)).
      * destruct (hs_from (hb_bytes b) off) as [s| |]; cbn [bind] in E; try discriminate.
        injection E as <- <-. exact A.
      * destruct (off + size <=? a_cap (hb_bytes b)).
        -- unfold hs_upto in E.
           destruct (hs_range (hb_bytes b) 0 (off + size)) as [bs| |] eqn:U; cbn [bind] in E; try discriminate.
           destruct (hs_from bs off) as [s| |]; cbn [bind] in E; try discriminate.
           injection E as <- <-. split; [exact (hs_range_sub _ _ _ _ _ C A1 U)|]. split; [exact A2|exact A3].
        -- unfold h_new in E. injection E as <- <-. apply all_sl_set; [auto|].
           apply Forall_app2; [auto|]. constructor; [apply NEW; cbn; lia|constructor].
Qed.

(** ** Which arrays change *)
Lemma h_put_length : forall h s p, wf_sl h s -> length (h_put h s p) = length h.
Proof.
  intros h s p W. unfold h_put. destruct (Z.eqb_spec (zlen (zfirst (a_len s) p)) 0) as [|N]; [reflexivity|].
  assert (0 < a_cap s).
  { pose proof (zlen_nonneg (zfirst (a_len s) p)). rewrite zlen_zfirst in *. destruct W as (_ & W & _). lia. }
  pose proof (wf_id h s W H). rewrite app_length. cbn [length]. rewrite firstn_length, skipn_length. lia.
Qed.

Lemma nth_skip : forall A (l : list A) n i d, nth i (skipn n l) d = nth (n + i) l d.
Proof.
  intros A l n. revert l. induction n as [|n IH]; intros l i d; [reflexivity|].
  destruct l as [|x l]; cbn [skipn]; [destruct i; reflexivity|]. rewrite IH. reflexivity.
Qed.

Lemma h_put_nth : forall h s p a, wf_sl h s -> a <> a_id s -> nth a (h_put h s p) [] = nth a h [].
Proof.
  intros h s p a W N. unfold h_put. destruct (Z.eqb_spec (zlen (zfirst (a_len s) p)) 0) as [|N0]; [reflexivity|].
  assert (C : 0 < a_cap s).
  { pose proof (zlen_nonneg (zfirst (a_len s) p)). rewrite zlen_zfirst in *. destruct W as (_ & W & _). lia. }
  pose proof (wf_id h s W C) as I.
  assert (LF : length (firstn (a_id s) h) = a_id s) by (rewrite firstn_length; lia).
  assert (RH : nth a h [] = nth a (firstn (a_id s) h ++ skipn (a_id s) h) []) by (rewrite firstn_skipn; reflexivity).
  rewrite RH.
  destruct (Nat.lt_ge_cases a (a_id s)).
  - rewrite !app_nth1 by lia. reflexivity.
  - rewrite !app_nth2 by lia. rewrite LF.
    destruct (a - a_id s)%nat as [|k] eqn:K; [lia|]. cbn [nth].
    rewrite !nth_skip. f_equal. lia.
Qed.

Lemma h_put_array : forall h s p, wf_sl h s -> 0 < zlen (zfirst (a_len s) p) ->
  nth (a_id s) (h_put h s p) [] = copy_at (array h s) (a_off s) (zfirst (a_len s) p).
Proof.
  intros h s p W N. unfold h_put. destruct (Z.eqb_spec (zlen (zfirst (a_len s) p)) 0); [lia|].
  assert (C : 0 < a_cap s).
  { rewrite zlen_zfirst in *. destruct W as (_ & W & _). lia. }
  pose proof (wf_id h s W C) as I.
  rewrite app_nth2 by (rewrite firstn_length; lia).
  rewrite firstn_length. replace (a_id s - Nat.min (a_id s) (length h))%nat with 0%nat by lia. reflexivity.
Qed.

Lemma h_put_none : forall h s p, zlen (zfirst (a_len s) p) = 0 -> h_put h s p = h.
Proof. intros h s p H. unfold h_put. rewrite H. reflexivity. Qed.

Lemma h_put_wf : forall h s p t, wf_sl h s -> wf_sl h t -> wf_sl (h_put h s p) t.
Proof.
  intros h s p t W (T1 & T2 & T3).
  destruct (Z.eq_dec (zlen (zfirst (a_len s) p)) 0) as [E|E].
  { rewrite h_put_none by auto. split; auto. }
  pose proof (zlen_nonneg (zfirst (a_len s) p)).
  split; [exact T1|]. split; [exact T2|]. unfold array in *.
  destruct (Nat.eq_dec (a_id t) (a_id s)) as [Q|Q].
  - rewrite Q, h_put_array by (auto; lia). rewrite zlen_copy_at; [unfold array; rewrite <- Q; exact T3|].
    destruct W as (W1 & W2 & W3). unfold array in *. lia.
  - rewrite h_put_nth by auto. exact T3.
Qed.

(** Windows apart from the one written are seen unchanged. *)
Lemma h_put_apart : forall h s p t, wf_sl h s -> wf_sl h t ->
  (a_id s <> a_id t \/ a_off s + a_len s <= a_off t \/ a_off t + a_cap t <= a_off s) ->
  view (h_put h s p) t = view h t.
Proof.
  intros h s p t W T AP.
  destruct (Z.eq_dec (zlen (zfirst (a_len s) p)) 0) as [E|E].
  { rewrite h_put_none by auto. reflexivity. }
  pose proof (zlen_nonneg (zfirst (a_len s) p)) as NN.
  pose proof (h_put_wf h s p t W T) as T'.
  assert (G : forall i, a_off t <= i < a_off t + a_cap t -> zget (array (h_put h s p) t) i = zget (array h t) i).
  { intros i Hi. unfold array. destruct (Nat.eq_dec (a_id t) (a_id s)) as [Q|Q].
    - rewrite Q, h_put_array by (auto; lia). destruct W as (W1 & W2 & W3).
      rewrite zget_copy_at by lia. rewrite zlen_zfirst.
      pose proof (zlen_nonneg p). unfold array. zif; try reflexivity.
      exfalso. destruct AP as [AP|AP]; [congruence|]. lia.
    - rewrite h_put_nth by auto. reflexivity. }
  destruct T as (T1 & T2 & T3).
  apply gslice_ext; intros i.
  - rewrite !view_get by (auto; split; auto). zif; try reflexivity. apply G. lia.
  - rewrite !spare_get by (auto; split; auto). zif; try reflexivity. apply G. lia.
Qed.

(** The arrays an operation changes are held by the buffer. *)
Definition frame (h : heap) (b : hbase) (h' : heap) : Prop :=
  (length h <= length h')%nat /\
  (forall a, (a < length h)%nat -> zlen (nth a h' []) = zlen (nth a h [])) /\
  forall a, (a < length h)%nat -> ~ holds b a -> nth a h' [] = nth a h [].

Lemma extends_frame : forall h b h', extends h h' -> frame h b h'.
Proof.
  intros h b h' [t ->]. split; [rewrite app_length; lia|].
  split; [intros a H; rewrite app_nth1 by exact H; reflexivity|]. intros a H _. apply app_nth1. exact H.
Qed.

Lemma put_frame : forall h b s p, wf_sl h s -> (0 < a_cap s -> holds b (a_id s)) -> frame h b (h_put h s p).
Proof.
  intros h b s p W H. split; [rewrite h_put_length by auto; lia|]. split.
  { intros a Ha. destruct (Nat.eq_dec a (a_id s)) as [->|Q]; [|rewrite h_put_nth by auto; reflexivity].
    destruct (Z.eq_dec (zlen (zfirst (a_len s) p)) 0) as [E|E]; [rewrite h_put_none by auto; reflexivity|].
    pose proof (zlen_nonneg (zfirst (a_len s) p)). destruct W as (W1 & W2 & W3).
    rewrite h_put_array by (try lia; split; auto). rewrite zlen_copy_at by lia. reflexivity. }
  intros a Ha N.
  destruct (Nat.eq_dec a (a_id s)) as [->|Q]; [|apply h_put_nth; auto].
  destruct (Z.lt_ge_cases 0 (a_cap s)) as [C|C]; [exfalso; auto|].
  rewrite h_put_none; [reflexivity|]. rewrite zlen_zfirst. destruct W as (_ & W & _). lia.
Qed.

Lemma holds_sub : forall b s t, In s (slices b) -> a_id t = a_id s -> a_cap t <= a_cap s ->
  0 < a_cap t -> holds b (a_id t).
Proof. intros b s t H I C P. exists s. split; [exact H|]. split; [auto|lia]. Qed.

Lemma hs_from_id : forall s a t, hs_from s a = Ok t -> a_id t = a_id s /\ a_cap t <= a_cap s.
Proof.
  intros s a t E. unfold hs_from in E. destruct ((0 <=? a) && (a <=? a_len s)) eqn:X; [|discriminate].
  injection E as <-. cbn. split; [reflexivity|lia].
Qed.

Lemma hs_range_id : forall s a b t, hs_range s a b = Ok t -> a_id t = a_id s /\ a_cap t <= a_cap s.
Proof.
  intros s a b t E. unfold hs_range in E.
  destruct ((0 <=? a) && (a <=? b) && (b <=? a_cap s)) eqn:X; [|discriminate].
  injection E as <-. cbn. split; [reflexivity|lia].
Qed.

Lemma hs_upto3_id : forall s a b t, hs_upto3 s a b = Ok t -> a_id t = a_id s /\ a_cap t <= a_cap s.
Proof.
  intros s a b t E. unfold hs_upto3 in E.
  destruct ((0 <=? a) && (a <=? b) && (b <=? a_cap s)) eqn:X; [|discriminate].
  injection E as <-. cbn. split; [reflexivity|lia].
Qed.

Lemma wf_set : forall h b ds, wf h b -> Forall (fun d => wf_sl h (hd_sl d)) ds -> wf h (hset_diffs b ds).
Proof. intros h b ds (A & B & C) F. split; [exact A|]. split; [exact F|exact C]. Qed.

Lemma put_wf : forall h b s p, wf_sl h s -> wf h b -> wf (h_put h s p) b.
Proof.
  intros h b s p W (A & B & C). split; [apply h_put_wf; auto|].
  split; eapply Forall_impl; try eassumption; intros; apply h_put_wf; auto.
Qed.

(** A new array of zeros, its start overwritten. *)
Lemma new_put : forall h n c p, 0 <= n <= c -> zlen p <= n ->
  exists l, h_put (h ++ [zeros c]) (mkHsl (length h) 0 n (zlen (zeros c))) p = h ++ [l] /\
    zlen l = c /\ l = copy_at (zeros c) 0 p.
Proof.
  intros h n c p H1 H2. assert (ZZ : zlen (zeros c) = c) by (rewrite zlen_zeros; lia).
  eexists. split; [apply put_last; lia|]. rewrite zfirst_all by lia.
  split; [rewrite zlen_copy_at; lia|reflexivity].
Qed.

Lemma hn_u_frame : forall h b off size p h' b', wf h b -> hn_u h b off size p = Ok (h', b') ->
  frame h b h' /\ wf h' b'.
Proof.
  intros h b off size p h' b' W E. pose proof W as (W1 & W2 & W3). unfold hn_u in E.
  destruct (Z.ltb_spec size (zlen p)) as [|SP]; [discriminate|]. pose proof (zlen_nonneg p) as PN.
  assert (INB : In (hb_bytes b) (slices b)) by (left; reflexivity).
  destruct (last_index (hcap_covers off) (hb_diffs b)) as [n|].
  - destruct (nth_error (hb_diffs b) n) as [d|] eqn:D; [|discriminate].
    pose proof (nth_error_In _ _ D) as ID.
    assert (Wd : wf_sl h (hd_sl d)) by (rewrite Forall_forall in W2; auto).
    assert (IND : In (hd_sl d) (slices b)).
    { right. apply in_app_iff. left. apply in_map. exact ID. }
    destruct (hd_off d =? off).
    + assert (R : Forall (fun d => wf_sl h (hd_sl d)) (firstn n (hb_diffs b) ++ skipn (S n) (hb_diffs b))).
      { apply Forall_app2; [apply Forall_firstn; auto|apply (Forall_skipn _ _ (S n)); auto]. }
      destruct (a_cap (hd_sl d) <? size) eqn:K.
      * unfold h_new in E. cbn [bind] in E. injection E as <- <-.
        destruct (new_put h size size p ltac:(lia) SP) as (l & -> & LL & _).
        split; [apply extends_frame, extends_last|].
        assert (ZZ : zlen (zeros size) = size) by (rewrite zlen_zeros; lia). rewrite ZZ.
        destruct (view_last h l ltac:(lia)) as [WL _]. rewrite LL in WL.
        destruct (view_base_extends h (h ++ [l]) b (extends_last h l) W) as [_ WB].
        apply wf_set; [exact WB|]. apply Forall_app2; [|constructor; [exact WL|constructor]].
        destruct (view_diff_extends h (h ++ [l]) _ (extends_last h l) R) as [_ R']. exact R'.
      * assert (S : forall s, wf_sl h s -> a_id s = a_id (hd_sl d) -> a_cap s <= a_cap (hd_sl d) ->
          frame h b (h_put h s p) /\ wf (h_put h s p)
            (hset_diffs b ((firstn n (hb_diffs b) ++ skipn (S n) (hb_diffs b)) ++ [mkHdiff off s]))).
        { intros s Ws I C. split.
          - apply put_frame; [auto|]. apply (holds_sub b (hd_sl d) s); auto.
          - apply put_wf; [auto|]. apply wf_set; [exact W|]. apply Forall_app2; [exact R|].
            constructor; [exact Ws|constructor]. }
        destruct (a_len (hd_sl d) <? size).
        -- destruct (hs_upto3 (hd_sl d) size size) as [s| |] eqn:U; cbn [bind] in E; try discriminate.
           injection E as <- <-. destruct (hs_upto3_id _ _ _ _ U). apply S; auto.
           exact (hs_upto3_wf _ _ _ _ _ Wd U).
        -- cbn [bind] in E. injection E as <- <-. apply S; auto. lia.
    + destruct (hs_range (hd_sl d) (off - hd_off d) (off - hd_off d + size)) as [s| |] eqn:U; cbn [bind] in E; try discriminate.
      injection E as <- <-. destruct (hs_range_id _ _ _ _ U).
      assert (Ws : wf_sl h s) by exact (hs_range_wf _ _ _ _ _ Wd U).
      split; [apply put_frame; [auto|]; apply (holds_sub b (hd_sl d) s); auto|]. apply put_wf; auto.
  - destruct (off + size <=? a_len (hb_bytes b)).
    + destruct (hs_from (hb_bytes b) off) as [s| |] eqn:U; cbn [bind] in E; try discriminate.
      injection E as <- <-. destruct (hs_from_id _ _ _ U).
      assert (Ws : wf_sl h s) by exact (hs_from_wf _ _ _ _ W1 U).
      split; [apply put_frame; [auto|]; apply (holds_sub b (hb_bytes b) s); auto|]. apply put_wf; auto.
    + destruct (off + size <=? a_cap (hb_bytes b)).
      * unfold hs_upto in E.
        destruct (hs_range (hb_bytes b) 0 (off + size)) as [bs| |] eqn:U; cbn [bind] in E; try discriminate.
        destruct (hs_from bs off) as [s| |] eqn:V; cbn [bind] in E; try discriminate.
        injection E as <- <-. destruct (hs_range_id _ _ _ _ U). destruct (hs_from_id _ _ _ V).
        assert (Wb : wf_sl h bs) by exact (hs_range_wf _ _ _ _ _ W1 U).
        assert (Ws : wf_sl h s) by exact (hs_from_wf _ _ _ _ Wb V).
        split; [apply put_frame; [auto|]; apply (holds_sub b (hb_bytes b) s); auto; [congruence|lia]|].
        apply put_wf; [auto|]. split; [exact Wb|]. split; [exact W2|exact W3].
      * unfold h_new in E. injection E as <- <-.
        destruct (new_put h size (Z.max default_buf_cap size) p ltac:(lia) SP) as (l & -> & LL & _).
        split; [apply extends_frame, extends_last|].
        assert (ZZ : zlen (zeros (Z.max default_buf_cap size)) = Z.max default_buf_cap size).
        { rewrite zlen_zeros. lia. }
        rewrite ZZ.
        destruct (h_new_spec h l size (h ++ [l]) (mkHsl (length h) 0 size (zlen l))) as (EX & WL & _).
        { lia. } { reflexivity. }
        rewrite LL in WL.
        destruct (view_base_extends h (h ++ [l]) b EX W) as [_ WB].
        apply wf_set; [exact WB|]. apply Forall_app2; [apply WB|constructor; [exact WL|constructor]].
Qed.

Lemma run_hop_frame : forall h b o h' b', wf h b -> run_hop h b o = Ok (h', b') -> frame h b h' /\ wf h' b'.
Proof.
  intros h b o h' b' W E.
  assert (D : default_op o \/ exists off size p, o = HNoLayerU off size p).
  { destruct o; cbn; eauto. }
  destruct D as [D|(off & size & p & ->)].
  - pose proof (default_op_view h b o W D) as V. rewrite E in V. destruct V as (_ & EX & W').
    split; [apply extends_frame; exact EX|exact W'].
  - cbn [run_hop] in E. eapply hn_u_frame; eauto.
Qed.

Lemma in_slices : forall (P : hsl -> Prop) b, (forall s, In s (slices b) -> P s) -> all_sl P b.
Proof.
  intros P b H. split; [apply H; left; reflexivity|].
  split; rewrite Forall_forall; intros d Hd; apply H; right; apply in_app_iff; [left|right]; apply in_map; exact Hd.
Qed.

Lemma slices_in : forall (P : hsl -> Prop) b, all_sl P b -> forall s, In s (slices b) -> P s.
Proof.
  intros P b (A & B & C) s [<-|H]; [exact A|]. rewrite Forall_forall in *.
  apply in_app_iff in H. destruct H as [H|H]; apply in_map_iff in H; destruct H as (d & <- & Hd); auto.
Qed.

Lemma run_hop_holds : forall h b o h' b', run_hop h b o = Ok (h', b') ->
  forall a, holds b' a -> holds b a \/ (length h <= a)%nat.
Proof.
  intros h b o h' b' E a (s & Hs & <- & C).
  assert (A : all_sl (fun s => 0 < a_cap s -> holds b (a_id s) \/ (length h <= a_id s)%nat) b').
  { eapply run_hop_all; [| | |exact E].
    - intros x y Hx I K Py. rewrite I. apply Hx. lia.
    - intros x Hx _. right. exact Hx.
    - apply in_slices. intros x Hx Px. left. exists x. auto. }
  exact (slices_in _ _ A s Hs C).
Qed.

Lemma holds_old : forall h b a, wf h b -> holds b a -> (a < length h)%nat.
Proof.
  intros h b a W (s & Hs & <- & C). eapply wf_id; [|exact C].
  exact (slices_in (wf_sl h) b W s Hs).
Qed.

Lemma frame_view_sl : forall h b h' s, frame h b h' -> wf_sl h s ->
  (0 < a_cap s -> ~ holds b (a_id s)) -> view h' s = view h s /\ wf_sl h' s.
Proof.
  intros h b h' s (F1 & F2 & F3) W N. destruct (Z.lt_ge_cases 0 (a_cap s)) as [C|C].
  - pose proof (wf_id h s W C) as I. specialize (F3 (a_id s) I (N C)).
    unfold view, wf_sl, array in *. rewrite F3. auto.
  - rewrite !view_empty by auto. split; [reflexivity|]. destruct W as (W1 & W2 & W3).
    split; [exact W1|]. split; [exact W2|]. unfold array in *.
    destruct (Nat.lt_ge_cases (a_id s) (length h)) as [I|I].
    + rewrite F2 by exact I. exact W3.
    + rewrite nth_overflow in W3 by auto. rewrite zlen_nil in W3.
      pose proof (zlen_nonneg (nth (a_id s) h' [])). lia.
Qed.

Lemma frame_view : forall h b h' c, frame h b h' -> wf h c -> disjoint_buffers b c ->
  view_base h' c = view_base h c /\ wf h' c.
Proof.
  intros h b h' c F W D.
  assert (A : forall s, In s (slices c) -> view h' s = view h s /\ wf_sl h' s).
  { intros s Hs. eapply frame_view_sl; [exact F|exact (slices_in (wf_sl h) c W s Hs)|].
    intros C H. apply (D (a_id s) H). exists s. auto. }
  destruct (in_slices (fun s => view h' s = view h s /\ wf_sl h' s) c A) as (B1 & B2 & B3).
  assert (M : forall ds, Forall (fun d => view h' (hd_sl d) = view h (hd_sl d) /\ wf_sl h' (hd_sl d)) ds ->
    map (view_diff h') ds = map (view_diff h) ds /\ Forall (fun d => wf_sl h' (hd_sl d)) ds).
  { intros ds H. induction H as [|d ds [H1 H2] H IH]; [split; [reflexivity|constructor]|].
    destruct IH as [I1 I2]. cbn [map]. split; [|constructor; auto].
    rewrite I1. unfold view_diff at 1 3. rewrite H1. reflexivity. }
  destruct (M _ B2) as [M1 M2]. destruct (M _ B3) as [M3 M4]. destruct B1 as [B1 B1'].
  split; [|split; auto]. unfold view_base. rewrite B1, M1, M3. reflexivity.
Qed.

(** One step on one of two disjoint buffers. *)
Lemma step_disjoint : forall h b c o h' b', wf h b -> wf h c -> disjoint_buffers b c ->
  run_hop h b o = Ok (h', b') ->
  view_base h' c = view_base h c /\ wf h' b' /\ wf h' c /\ disjoint_buffers b' c.
Proof.
  intros h b c o h' b' Wb Wc D E. destruct (run_hop_frame h b o h' b' Wb E) as [F W'].
  destruct (frame_view h b h' c F Wc D) as [V Wc'].
  split; [exact V|]. split; [exact W'|]. split; [exact Wc'|].
  intros a Ha Hc. destruct (run_hop_holds h b o h' b' E a Ha) as [H|H]; [exact (D a H Hc)|].
  pose proof (holds_old h c a Wc Hc). lia.
Qed.

Lemma disjoint_sym : forall b c, disjoint_buffers b c -> disjoint_buffers c b.
Proof. intros b c D a H1 H2. exact (D a H2 H1). Qed.

Lemma run_pair_disjoint : forall os h b c h' b' c', wf h b -> wf h c -> disjoint_buffers b c ->
  run_pair h b c os = Ok (h', b', c') -> wf h' b' /\ wf h' c' /\ disjoint_buffers b' c'.
Proof.
  induction os as [|[[] o] os IH]; intros h b c h' b' c' Wb Wc D E; cbn [run_pair] in E.
  - injection E as E1 E2 E3. subst. split; [exact Wb|]. split; [exact Wc|exact D].
  - destruct (run_hop h b o) as [[h1 b1]| |] eqn:R; cbn [bind] in E; try discriminate.
    destruct (step_disjoint h b c o h1 b1 Wb Wc D R) as (_ & A1 & A2 & A3).
    exact (IH h1 b1 c h' b' c' A1 A2 A3 E).
  - destruct (run_hop h c o) as [[h1 c1]| |] eqn:R; cbn [bind] in E; try discriminate.
    destruct (step_disjoint h c b o h1 c1 Wc Wb (disjoint_sym _ _ D) R) as (_ & A1 & A2 & A3).
    eapply IH; [exact A2|exact A1|apply disjoint_sym; exact A3|exact E].
Qed.

Lemma dup_disjoint : forall h b h' c, wf h b -> hb_dup h b = (h', c) ->
  wf h' b /\ wf h' c /\ disjoint_buffers b c /\ view_base h' b = view_base h b.
Proof.
  intros h b h' c W E. destruct (hb_dup_spec h b h' c W E) as (EX & Wc & FR & _).
  destruct (view_base_extends h h' b EX W) as [V W'].
  split; [exact W'|]. split; [exact Wc|]. split; [|exact V].
  intros a Hb (s & Hs & <- & C). pose proof (holds_old h b _ W Hb).
  rewrite Forall_forall in FR. specialize (FR s Hs). unfold fresh_from in FR. lia.
Qed.

(** C13: after Dup and any interleaving of changes, a change to one of the two
    leaves the other as it is. *)
Lemma dup_independent : forall h b h1 c os h2 b2 c2, wf h b -> hb_dup h b = (h1, c) ->
  run_pair h1 b c os = Ok (h2, b2, c2) ->
  (forall o h3 b3, run_hop h2 b2 o = Ok (h3, b3) -> view_base h3 c2 = view_base h2 c2) /\
  (forall o h3 c3, run_hop h2 c2 o = Ok (h3, c3) -> view_base h3 b2 = view_base h2 b2).
Proof.
  intros h b h1 c os h2 b2 c2 W E R. destruct (dup_disjoint h b h1 c W E) as (A1 & A2 & A3 & _).
  destruct (run_pair_disjoint os h1 b c h2 b2 c2 A1 A2 A3 R) as (B1 & B2 & B3).
  split; intros o h3 x S.
  - exact (proj1 (step_disjoint h2 b2 c2 o h3 x B1 B2 B3 S)).
  - exact (proj1 (step_disjoint h2 c2 b2 o h3 x B2 B1 (disjoint_sym _ _ B3) S)).
Qed.

(** Default-buffer changes disturb nothing that exists. *)
Lemma default_ops_quiet : forall os h b h' b' s, wf h b -> wf_sl h s -> Forall default_op os ->
  run_hops h b os = Ok (h', b') -> view h' s = view h s.
Proof.
  induction os as [|o os IH]; intros h b h' b' s W Ws F E; cbn [run_hops] in E.
  - injection E as <- <-. reflexivity.
  - inversion F as [|? ? D F']; subst.
    destruct (run_hop h b o) as [[h1 b1]| |] eqn:R; cbn [bind] in E; try discriminate.
    pose proof (default_op_view h b o W D) as V. rewrite R in V. destruct V as (_ & EX & W').
    destruct (wf_extends _ _ _ EX Ws) as [Ws' Vs]. rewrite <- Vs. eapply IH; eauto.
Qed.

Lemma default_ops_value : forall os h b h' b', wf h b -> Forall default_op os ->
  run_hops h b os = Ok (h', b') ->
  fold_left (fun m o => do x <- m; value_op x o) os (Ok (view_base h b)) = Ok (view_base h' b').
Proof.
  induction os as [|o os IH]; intros h b h' b' W F E; cbn [run_hops fold_left] in *.
  - injection E as <- <-. reflexivity.
  - inversion F as [|? ? D F']; subst.
    destruct (run_hop h b o) as [[h1 b1]| |] eqn:R; cbn [bind] in E; try discriminate.
    pose proof (default_op_view h b o W D) as V. rewrite R in V. destruct V as (V & EX & W').
    cbn [bind]. rewrite V. apply IH; auto.
Qed.
