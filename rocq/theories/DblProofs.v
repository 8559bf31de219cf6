(** Lemmas about [DoubleLayer] over shared arrays. *)
From Coq Require Import ZArith List Bool Lia.
From Coq Require Import ZifyBool ZifyNat.
From Coq Require Import Strings.Byte.
From Verif Require Import GoLib GoLemmas BaseModel BaseSpec BaseProofs BaseProofs2 BaseProofs3.
From Verif Require Import VariantModel VariantSpec VariantProofs VariantProofs2 HeapModel HeapSpec.
From Verif Require Import HeapProofs HeapProofs2 HeapProofs3 HeapProofs4 HeapProofs5 DblModel DblSpec.
Import ListNotations.
Open Scope Z_scope.

(** ** Copying into a window *)

Lemma put_cut : forall h t p, h_put h t (zfirst (a_len t) p) = h_put h t p.
Proof.
  intros h t p. unfold h_put. assert (E : zfirst (a_len t) (zfirst (a_len t) p) = zfirst (a_len t) p).
  { apply zget_ext. intros i. rewrite !zget_zfirst. destruct (i <? a_len t); reflexivity. }
  rewrite E. reflexivity.
Qed.

(** The spare bytes of a window as a window *)
Definition rest_of (s : hsl) : hsl := mkHsl (a_id s) (a_off s + a_len s) (a_cap s - a_len s) (a_cap s - a_len s).

Lemma rest_view : forall h s, wf_sl h s -> wf_sl h (rest_of s) /\ sl_spare (view h s) = sl_data (view h (rest_of s)).
Proof.
  intros h s W. assert (W' : wf_sl h (rest_of s)).
  { destruct W as (A & B & C). unfold wf_sl, rest_of, array in *. cbn [a_id a_off a_len a_cap]. lia. }
  split; [exact W'|]. apply zget_ext. intros i. rewrite spare_get, view_get by assumption.
  unfold rest_of, array. cbn [a_id a_off a_len a_cap].
  replace (a_len s + i <? a_cap s) with (i <? a_cap s - a_len s) by lia. reflexivity.
Qed.

Lemma copy_view : forall h s a p, wf_sl h s ->
  gs_copy (view h s) a p = res_map (fun h' => view h' s) (h_copy h s a p) /\
  (forall h', h_copy h s a p = Ok h' -> wf_sl h' s).
Proof.
  intros h s a p W. unfold gs_copy, h_copy. rewrite view_len by exact W.
  destruct (hs_from s a) as [t| |] eqn:F; unfold hs_from in F;
    destruct ((0 <=? a) && (a <=? a_len s)) eqn:X; try discriminate; cbn [bind res_map];
    [|split; [reflexivity|discriminate]].
  assert (T : wf_sl h t) by (apply (hs_from_wf h s a); [exact W|unfold hs_from; rewrite X; exact F]).
  injection F as <-. set (t := mkHsl (a_id s) (a_off s + a) (a_len s - a) (a_cap s - a)) in *.
  split; [|intros h' E; injection E as <-; apply h_put_wf; assumption].
  f_equal. pose proof (view_len h s W) as VL. unfold gs_len in VL.
  apply gslice_ext; cbn [sl_data sl_spare]; intros i.
  - rewrite <- put_cut. assert (ZL : zlen (zfirst (a_len t) p) <= a_len t).
    { rewrite zlen_zfirst. cbn [t a_len]. lia. }
    rewrite (put_view_in h t (zfirst (a_len t) p) s i T W eq_refl) by (cbn [t a_off]; lia).
    rewrite zget_copy_at by lia. rewrite VL. rewrite zget_zfirst, zlen_zfirst.
    cbn [t a_off a_len] in *. pose proof (zlen_nonneg p).
    replace (a_off s + a - a_off s) with a by lia.
    destruct ((a <=? i) && (i <? a + zlen p) && (i <? a_len s)) eqn:C.
    + destruct ((a <=? i) && (i <? a + Z.max 0 (Z.min (a_len s - a) (zlen p))) && (i <? a_len s)) eqn:D; [|lia].
      destruct (i - a <? a_len s - a) eqn:E; [reflexivity|lia].
    + destruct ((a <=? i) && (i <? a + Z.max 0 (Z.min (a_len s - a) (zlen p))) && (i <? a_len s)) eqn:D; [lia|reflexivity].
  - destruct (rest_view h s W) as [W1 E1].
    destruct (rest_view (h_put h t p) s (h_put_wf h t p s T W)) as [W2 E2]. rewrite E1, E2.
    rewrite h_put_apart; [reflexivity|exact T|exact W1|]. cbn [t rest_of a_id a_off a_len a_cap]. lia.
Qed.

(** Windows apart from [s] are not changed. *)
Lemma copy_apart : forall h s a p h' t, wf_sl h s -> wf_sl h t -> apart s t -> h_copy h s a p = Ok h' ->
  view h' t = view h t /\ wf_sl h' t.
Proof.
  intros h s a p h' t W T A E. unfold h_copy in E. destruct (hs_from s a) as [u| |] eqn:F; try discriminate.
  cbn [bind] in E. injection E as <-. pose proof (hs_from_wf h s a u W F) as U.
  unfold hs_from in F. destruct ((0 <=? a) && (a <=? a_len s)) eqn:X; [|discriminate]. injection F as <-.
  split; [|apply h_put_wf; assumption]. destruct W as (W1 & W2 & W3).
  apply h_put_apart; [exact U|exact T|]. unfold apart in A. cbn [a_id a_off a_len a_cap]. lia.
Qed.

Lemma copy_fuel : forall h s a p, h_copy h s a p <> OutOfFuel.
Proof. intros. unfold h_copy, hs_from. destruct ((0 <=? a) && (a <=? a_len s)); discriminate. Qed.

(** ** Merging *)

(** What is not touched by merging: windows apart from the first entry *)
Definition kept (h h' : heap) (d d' : hsl) : Prop := forall t, wf_sl h t -> apart d t ->
  view h' t = view h t /\ wf_sl h' t /\ apart d' t.

Lemma fresh_apart : forall h l n t, wf_sl h t -> apart (snd (h_new h l n)) t.
Proof.
  intros h l n t W. unfold h_new, apart. cbn [snd a_id a_off a_cap].
  destruct (Nat.eq_dec (length h) (a_id t)) as [E|E]; [|left; exact E]. right; right.
  destruct W as (A & B & C). unfold array in C. rewrite nth_overflow in C by lia. rewrite zlen_nil in C. lia.
Qed.

Lemma zeros_cut : forall n, 0 <= n -> mkSlice (zfirst n (zeros (n * 2))) (zskip n (zeros (n * 2))) = gs_make n (n * 2).
Proof.
  intros n N. unfold gs_make, zfirst, zskip, zeros. replace (n * 2 - n) with n by lia.
  replace (Z.to_nat (n * 2)) with (Z.to_nat n + Z.to_nat n)%nat by lia. rewrite repeat_app. f_equal.
  - rewrite <- (repeat_length x00 (Z.to_nat n)) at 1. rewrite firstn_app, Nat.sub_diag, firstn_all. cbn. apply app_nil_r.
  - rewrite <- (repeat_length x00 (Z.to_nat n)) at 1. rewrite skipn_app, Nat.sub_diag, skipn_all. reflexivity.
Qed.

Lemma merge_view : forall h d s, wf_sl h (hd_sl d) -> wf_sl h (hd_sl s) -> apart (hd_sl d) (hd_sl s) ->
  match h_diff_merge h d s with
  | Ok (h', d') => diff_merge (view_diff h d) (view_diff h s) = Ok (view_diff h' d') /\ wf_sl h' (hd_sl d') /\
      kept h h' (hd_sl d) (hd_sl d')
  | Panic => diff_merge (view_diff h d) (view_diff h s) = Panic
  | OutOfFuel => False
  end.
Proof.
  intros h d s WD WS AP. unfold h_diff_merge, diff_merge.
  assert (LD := d_len_view h d WD). assert (LS := d_len_view h s WS).
  assert (CD : d_cap (view_diff h d) = a_cap (hd_sl d)) by (unfold d_cap; cbn [view_diff d_sl]; apply view_cap; exact WD).
  assert (IN : include (view_diff h d) (d_off (view_diff h s)) = hinclude d (hd_off s)).
  { unfold include, hinclude. rewrite LD. cbn [view_diff d_off]. lia. }
  assert (INN : inner (view_diff h d) (d_off (view_diff h s)) (d_len (view_diff h s)) = hinner d (hd_off s) (a_len (hd_sl s))).
  { unfold inner, hinner. rewrite IN, LD, LS. reflexivity. }
  rewrite INN, IN, CD, LD, LS. cbn [view_diff d_off].
  change (d_data (view_diff h s)) with (sl_data (view h (hd_sl s))).
  change (d_data (view_diff h d)) with (sl_data (view h (hd_sl d))).
  cbn [d_sl].
  set (p := sl_data (view h (hd_sl s))). set (q := sl_data (view h (hd_sl d))).
  (* copying into a window *)
  assert (CC : forall h0 d0 d1, wf_sl h0 (hd_sl d0) -> hd_off d0 = hd_off d ->
    (forall t, wf_sl h t -> apart (hd_sl d) t -> view h0 t = view h t /\ wf_sl h0 t /\ apart (hd_sl d0) t) ->
    d1 = view_diff h0 d0 ->
    match (do h' <- h_copy h0 (hd_sl d0) (hd_off s - hd_off d0) p; Ok (h', d0)) with
    | Ok (h', d') => (do x <- gs_copy (d_sl d1) (hd_off s - d_off d1) p; Ok (mkDiff (d_off d1) x)) = Ok (view_diff h' d') /\
        wf_sl h' (hd_sl d') /\ kept h h' (hd_sl d) (hd_sl d')
    | Panic => (do x <- gs_copy (d_sl d1) (hd_off s - d_off d1) p; Ok (mkDiff (d_off d1) x)) = Panic
    | OutOfFuel => False
    end).
  { intros h0 d0 d1 W0 O0 K0 ->. cbn [view_diff d_sl d_off].
    destruct (copy_view h0 (hd_sl d0) (hd_off s - hd_off d0) p W0) as [V1 V2]. rewrite V1.
    destruct (h_copy h0 (hd_sl d0) (hd_off s - hd_off d0) p) as [h'| |] eqn:E; cbn [res_map bind].
    - split; [reflexivity|]. split; [apply V2; reflexivity|]. intros t T A.
      destruct (K0 t T A) as (K1 & K2 & K3). destruct (copy_apart h0 (hd_sl d0) _ p h' t W0 K2 K3 E) as [P1 P2].
      split; [rewrite P1; exact K1|]. split; [exact P2|exact K3].
    - reflexivity.
    - exact (copy_fuel _ _ _ _ E). }
  destruct (hinner d (hd_off s) (a_len (hd_sl s))) eqn:I1.
  { apply (CC h d (view_diff h d)); auto. }
  destruct (hinclude d (hd_off s) && (hd_off s + a_len (hd_sl s) <? hd_off d + a_cap (hd_sl d))) eqn:I2.
  { apply (CC h d (view_diff h d)); auto. }
  set (nlen := Z.max (hd_off d + a_len (hd_sl d)) (hd_off s + a_len (hd_sl s)) - Z.min (hd_off d) (hd_off s)).
  assert (N0 : 0 <= nlen).
  { unfold nlen. destruct WD as (_ & A & _). lia. }
  clearbody nlen.
  destruct (h_new h (zeros (nlen * 2)) nlen) as [h1 nb] eqn:HN.
  destruct (h_new_spec h (zeros (nlen * 2)) nlen h1 nb ltac:(rewrite zlen_zeros; lia) HN) as (EX & WN & VN).
  assert (VG : view h1 nb = gs_make nlen (nlen * 2)).
  { rewrite VN. apply zeros_cut. exact N0. }
  rewrite <- VG.
  assert (KN : forall t, wf_sl h t -> view h1 t = view h t /\ wf_sl h1 t /\ apart nb t).
  { intros t T. destruct (wf_extends h h1 t EX T) as [X1 X2]. split; [exact X2|]. split; [exact X1|].
    pose proof (fresh_apart h (zeros (nlen * 2)) nlen t T) as FA. rewrite HN in FA. exact FA. }
  assert (CP : forall h0 a l, wf_sl h0 nb -> (forall t, wf_sl h t -> view h0 t = view h t /\ wf_sl h0 t) ->
    match h_copy h0 nb a l with
    | Ok h2 => gs_copy (view h0 nb) a l = Ok (view h2 nb) /\ wf_sl h2 nb /\ (forall t, wf_sl h t -> view h2 t = view h t /\ wf_sl h2 t)
    | Panic => gs_copy (view h0 nb) a l = Panic
    | OutOfFuel => False
    end).
  { intros h0 a l W0 K0. destruct (copy_view h0 nb a l W0) as [V1 V2]. rewrite V1.
    destruct (h_copy h0 nb a l) as [h2| |] eqn:E; cbn [res_map].
    - split; [reflexivity|]. split; [apply V2; reflexivity|]. intros t T. destruct (K0 t T) as [A B].
      destruct (copy_apart h0 nb a l h2 t W0 B (proj2 (proj2 (KN t T))) E) as [P1 P2]. rewrite P1. auto.
    - reflexivity.
    - exact (copy_fuel _ _ _ _ E). }
  assert (K1 : forall t, wf_sl h t -> view h1 t = view h t /\ wf_sl h1 t) by (intros t T; destruct (KN t T) as (A & B & _); auto).
  destruct (hinclude d (hd_off s)) eqn:I3.
  - pose proof (CP h1 0 q WN K1) as C1. destruct (h_copy h1 nb 0 q) as [h2| |] eqn:E1; [|cbn [bind]; rewrite C1; reflexivity|exact C1].
    destruct C1 as (G1 & W2 & K2). cbn [bind]. rewrite G1. cbn [bind].
    apply (CC h2 (mkHdiff (hd_off d) nb) (mkDiff (hd_off d) (view h2 nb))); auto.
    intros t T A. destruct (K2 t T) as [P1 P2]. split; [exact P1|]. split; [exact P2|]. apply KN. exact T.
  - destruct (hd_off s <? hd_off d) eqn:I4.
    + pose proof (CP h1 (hd_off d - hd_off s) q WN K1) as C1.
      destruct (h_copy h1 nb (hd_off d - hd_off s) q) as [h2| |] eqn:E1; [|cbn [bind]; rewrite C1; reflexivity|exact C1].
      destruct C1 as (G1 & W2 & K2). cbn [bind]. rewrite G1. cbn [bind].
      pose proof (CP h2 0 p W2 K2) as C2.
      destruct (h_copy h2 nb 0 p) as [h3| |] eqn:E2; [|cbn [bind]; rewrite C2; reflexivity|exact C2].
      destruct C2 as (G2 & W3 & K3). cbn [bind]. rewrite G2. cbn [bind hd_sl].
      destruct (K3 _ WD) as [V3 D3]. split; [unfold view_diff; cbn [hd_off hd_sl]; rewrite V3; reflexivity|]. split; [exact D3|].
      intros t T A. destruct (K3 t T) as [P1 P2]. auto.
    + pose proof (CP h1 0 q WN K1) as C1.
      destruct (h_copy h1 nb 0 q) as [h2| |] eqn:E1; [|cbn [bind]; rewrite C1; reflexivity|exact C1].
      destruct C1 as (G1 & W2 & K2). cbn [bind]. rewrite G1. cbn [bind].
      pose proof (CP h2 (hd_off s - hd_off d) p W2 K2) as C2.
      destruct (h_copy h2 nb (hd_off s - hd_off d) p) as [h3| |] eqn:E2; [|cbn [bind]; rewrite C2; reflexivity|exact C2].
      destruct C2 as (G2 & W3 & K3). cbn [bind]. rewrite G2. cbn [bind hd_sl].
      split; [reflexivity|]. split; [exact W3|].
      intros t T A. destruct (K3 t T) as [P1 P2]. split; [exact P1|]. split; [exact P2|]. apply KN. exact T.
Qed.

Lemma kept_refl : forall h d, kept h h d d.
Proof. intros h d t T A. auto. Qed.

Lemma kept_trans : forall h1 h2 h3 d1 d2 d3, kept h1 h2 d1 d2 -> kept h2 h3 d2 d3 -> kept h1 h3 d1 d3.
Proof.
  intros h1 h2 h3 d1 d2 d3 A B t T P. destruct (A t T P) as (A1 & A2 & A3). destruct (B t A2 A3) as (B1 & B2 & B3).
  rewrite B1. auto.
Qed.

Lemma kept_views : forall h h' d d' l, kept h h' d d' -> Forall (fun e => wf_sl h (hd_sl e)) l ->
  Forall (fun e => apart d (hd_sl e)) l ->
  map (view_diff h') l = map (view_diff h) l /\ Forall (fun e => wf_sl h' (hd_sl e)) l /\
  Forall (fun e => apart d' (hd_sl e)) l.
Proof.
  intros h h' d d' l K. induction l as [|e l IH]; intros W A; [auto|].
  inversion W; subst. inversion A; subst. destruct (IH H2 H4) as (I1 & I2 & I3).
  destruct (K (hd_sl e) H1 H3) as (K1 & K2 & K3). cbn [map]. rewrite I1. unfold view_diff at 1. rewrite K1. auto.
Qed.

Lemma merge_list_view : forall l h d, wf_sl h (hd_sl d) -> Forall (fun e => wf_sl h (hd_sl e)) l ->
  Forall (fun e => apart (hd_sl d) (hd_sl e)) l ->
  match h_merge_list h d l with
  | Ok (h', d') => merge_list (view_diff h d) (map (view_diff h) l) = Ok (view_diff h' d') /\ wf_sl h' (hd_sl d') /\
      kept h h' (hd_sl d) (hd_sl d')
  | Panic => merge_list (view_diff h d) (map (view_diff h) l) = Panic
  | OutOfFuel => False
  end.
Proof.
  induction l as [|s l IH]; intros h d WD WL AL; cbn [h_merge_list merge_list map].
  - split; [reflexivity|]. split; [exact WD|apply kept_refl].
  - inversion WL; subst. inversion AL; subst. pose proof (merge_view h d s WD H1 H3) as M.
    destruct (h_diff_merge h d s) as [[h1 d1]| |]; cbn [bind]; [|rewrite M; reflexivity|exact M].
    destruct M as (M1 & M2 & M3). rewrite M1. cbn [bind].
    destruct (kept_views h h1 _ _ l M3 H2 H4) as (V1 & V2 & V3). rewrite <- V1. specialize (IH h1 d1 M2 V2 V3).
    destruct (h_merge_list h1 d1 l) as [[h2 d2]| |]; [|exact IH|exact IH].
    destruct IH as (I1 & I2 & I3). split; [exact I1|]. split; [exact I2|]. eapply kept_trans; eassumption.
Qed.

Lemma hd_merge_view : forall h b, wf h b -> own_first b ->
  match hd_merge h b with
  | Ok (h', b') => dl_merge (view_base h b) = Ok (view_base h' b') /\ wf h' b' /\ own_first b'
  | Panic => dl_merge (view_base h b) = Panic
  | OutOfFuel => False
  end.
Proof.
  intros h b W OF. unfold hd_merge, dl_merge. cbn [view_base b_diffs b_rdiffs].
  destruct (hb_diffs b) as [|d [|e l]] eqn:D; cbn [map]; [auto|auto|].
  destruct W as (WB & WD & WR). rewrite D in WD. inversion WD; subst. unfold own_first in OF. rewrite D in OF.
  destruct OF as [OB OL]. apply Forall_app in OL. destruct OL as [OL OR].
  pose proof (merge_list_view (hb_rdiffs b) h d H1 WR OR) as M1.
  destruct (h_merge_list h d (hb_rdiffs b)) as [[h1 d1]| |]; cbn [bind]; [|rewrite M1; reflexivity|exact M1].
  destruct M1 as (A1 & A2 & A3). rewrite A1. cbn [bind tl].
  destruct (kept_views h h1 _ _ (e :: l) A3 H2 OL) as (V1 & V2 & V3).
  change (view_diff h e :: map (view_diff h) l) with (map (view_diff h) (e :: l)). rewrite <- V1.
  pose proof (merge_list_view (e :: l) h1 d1 A2 V2 V3) as M2.
  destruct (h_merge_list h1 d1 (e :: l)) as [[h2 d2]| |]; cbn [bind]; [|rewrite M2; reflexivity|exact M2].
  destruct M2 as (B1 & B2 & B3). rewrite B1. cbn [bind].
  pose proof (kept_trans _ _ _ _ _ _ A3 B3) as K.
  destruct (kept_views h h2 _ _ (e :: l) K H2 OL) as (P1 & P2 & P3).
  destruct (kept_views h h2 _ _ (hb_rdiffs b) K WR OR) as (Q1 & Q2 & Q3).
  destruct (K (hb_bytes b) WB OB) as (R1 & R2 & R3).
  split; [|split].
  - f_equal. unfold set_diffs, view_base, hset_diffs. cbn [b_bytes b_rdiffs b_check b_seek hb_bytes hb_rdiffs hb_diffs hb_check hb_seek].
    rewrite R1, Q1, V1. change (map (view_diff h2) (d2 :: e :: l)) with (view_diff h2 d2 :: map (view_diff h2) (e :: l)).
    rewrite P1. reflexivity.
  - unfold wf, hset_diffs. cbn [hb_bytes hb_diffs hb_rdiffs]. split; [exact R2|]. split; [constructor; assumption|exact Q2].
  - unfold own_first, hset_diffs. cbn [hb_bytes hb_diffs hb_rdiffs]. split; [exact R3|]. apply Forall_app. auto.
Qed.

Lemma reads_view : forall h b off req, wf h b -> own_first b ->
  match hd_r h b off req with
  | Ok (h', b', s) => dl_r (view_base h b) off req = Ok (view_base h' b', s) /\ wf h' b' /\ own_first b'
  | Panic => dl_r (view_base h b) off req = Panic
  | OutOfFuel => dl_r (view_base h b) off req = OutOfFuel
  end.
Proof.
  intros h b off req W OF. unfold hd_r, dl_r. pose proof (hd_merge_view h b W OF) as M.
  destruct (hd_merge h b) as [[h' b']| |]; cbn [bind]; [|rewrite M; reflexivity|destruct M].
  destruct M as (M1 & M2 & M3). rewrite M1. cbn [bind].
  destruct (nl_r (view_base h' b') off req); cbn [bind]; auto.
Qed.

Lemma gap_free_shows : forall h b d l m, wf h b -> own_first b -> in_memory (view_base h b) ->
  map (view_diff h) (hb_diffs b) = d :: l -> gap_free d l -> shows (view_base h b) m -> hd_shows h b m.
Proof.
  intros h b d l m W OF IM E G SH i Hi. destruct (dl_read_keeps (view_base h b) d l IM E G m i SH Hi) as (b' & s & R & _ & S).
  pose proof (reads_view h b i 1 W OF) as V. rewrite R in V.
  destruct (hd_r h b i 1) as [[[h1 b1] s1]| |]; try discriminate. destruct V as [V _]. injection V as _ <-.
  exists h1, b1, s. auto.
Qed.

(** ** At most one entry *)

Lemma merge_one : forall h b, (length (hb_diffs b) <= 1)%nat -> hd_merge h b = Ok (h, b).
Proof. intros h b L. unfold hd_merge. destruct (hb_diffs b) as [|d [|e l]]; cbn in L; try lia; reflexivity. Qed.

Lemma one_shows : forall h b m, in_memory (view_base h b) -> (length (hb_diffs b) <= 1)%nat ->
  (hd_shows h b m <-> shows (view_base h b) m).
Proof.
  intros h b m IM L. unfold hd_shows, shows, peek, hd_r. rewrite (merge_one h b L). cbn [bind].
  split; intros S i Hi; specialize (S i Hi); rewrite nl_r_base in * by (auto; lia).
  - destruct S as (h' & b' & s & E & H). destruct (base_r (view_base h b) i 1) as [s'| |]; try discriminate.
    cbn [bind] in *. injection E as <- <- <-. rewrite H. reflexivity.
  - destruct (base_r (view_base h b) i 1) as [s'| |]; try discriminate. cbn [bind] in *. injection S as S.
    exists h, b, s'. auto.
Qed.

Lemma one_update : forall h b off p, wf h b -> in_memory (view_base h b) -> tidy b -> (length (hb_diffs b) <= 1)%nat ->
  0 <= off -> roomy b off (zlen p) ->
  exists h' b', hd_u h b off (zlen p) p = Ok (h', b') /\ wf h' b' /\ in_memory (view_base h' b') /\
    ((length (hb_diffs b') <= 1)%nat -> forall m, hd_shows h b m -> hd_shows h' b' (img_write m off p)).
Proof.
  intros h b off p W IM TD L Ho RM. destruct (nl_update h b off p W IM TD Ho RM) as (h' & b' & E & W' & IM' & S).
  exists h', b'. unfold hd_u. rewrite (merge_one h b L). cbn [bind]. split; [exact E|]. split; [exact W'|]. split; [exact IM'|].
  intros L' m SH. apply one_shows; auto. apply S. apply one_shows; auto.
Qed.

Lemma stays_roomy : forall h b u, wf h b -> tidy b -> (length (hb_diffs b) <= 1)%nat -> stays b u ->
  roomy b (fst u) (zlen (snd u)).
Proof.
  intros h b [off p] (W1 & W2 & _) [T1 _] L (S1 & S2 & S3). cbn [fst snd] in *.
  destruct W1 as (A1 & A2 & A3).
  destruct S3 as [S3|(d & I & O1 & O2)].
  - split; [|left; lia]. intros e Ie He. destruct (T1 e Ie) as [_ T]. lia.
  - destruct (T1 d I) as [_ T]. split; [|right; lia]. intros e Ie He.
    assert (e = d) as ->; [|lia]. destruct (hb_diffs b) as [|x [|y l]]; cbn in L; try lia; [destruct I|].
    destruct I as [<-|[]]. destruct Ie as [<-|[]]. reflexivity.
Qed.

Lemma stays_same : forall h b u h' b', wf h b -> tidy b -> (length (hb_diffs b) <= 1)%nat -> stays b u ->
  hn_u h b (fst u) (zlen (snd u)) (snd u) = Ok (h', b') -> b' = b.
Proof.
  intros h b [off p] h' b' (W1 & W2 & _) [T1 _] L (S1 & S2 & S3) E. cbn [fst snd] in *.
  destruct W1 as (A1 & A2 & A3). unfold hn_u in E. rewrite Z.ltb_irrefl in E.
  destruct (hb_diffs b) as [|d [|y l]] eqn:D; cbn [length] in L; try lia.
  - destruct S3 as [S3|(e & [] & _)]. cbn [last_index last_index_from] in E.
    destruct (off + zlen p <=? a_len (hb_bytes b)) eqn:F; [|lia].
    destruct (hs_from (hb_bytes b) off); cbn [bind] in E; try discriminate. injection E as _ <-. reflexivity.
  - destruct (T1 d (or_introl eq_refl)) as [_ T]. pose proof (Forall_inv W2) as (B1 & B2 & B3). cbn [last_index last_index_from] in E.
    destruct S3 as [S3|(e & [<-|[]] & O1 & O2)].
    + unfold hcap_covers in E. destruct (hd_off d <=? off) eqn:F; [lia|]. cbn [andb] in E.
      destruct (off + zlen p <=? a_len (hb_bytes b)) eqn:F2; [|lia].
      destruct (hs_from (hb_bytes b) off); cbn [bind] in E; try discriminate. injection E as _ <-. reflexivity.
    + assert (C : hcap_covers off d = true) by (unfold hcap_covers; lia). rewrite C in E. cbn [nth_error] in E.
      destruct (hd_off d =? off) eqn:F.
      * destruct (a_cap (hd_sl d) <? zlen p) eqn:F1; [lia|]. destruct (a_len (hd_sl d) <? zlen p) eqn:F2; [lia|].
        cbn [bind firstn skipn app] in E. injection E as _ <-. destruct b, d. unfold hset_diffs. cbn in *. subst.
        f_equal. f_equal. f_equal. lia.
      * destruct (hs_range (hd_sl d) (off - hd_off d) (off - hd_off d + zlen p)); cbn [bind] in E; try discriminate.
        injection E as _ <-. reflexivity.
Qed.

Lemma double_runs : forall us h b, wf h b -> in_memory (view_base h b) -> tidy b -> (length (hb_diffs b) <= 1)%nat ->
  Forall (stays b) us ->
  exists h', run_doubles h b us = Ok (h', b) /\ wf h' b /\
    forall m, hd_shows h b m -> hd_shows h' b (img_writes m us).
Proof.
  induction us as [|[off p] us IH]; intros h b W IM TD L F.
  - exists h. cbn. auto.
  - inversion F; subst. pose proof (stays_roomy h b (off, p) W TD L H1) as RM. cbn [fst snd] in RM.
    destruct (one_update h b off p W IM TD L (proj1 H1) RM) as (h1 & b1 & E & W1 & IM1 & S).
    assert (b1 = b) as ->.
    { apply (stays_same h b (off, p) h1 b1); auto. unfold hd_u in E. rewrite (merge_one h b L) in E. exact E. }
    destruct (IH h1 b W1 IM1 TD L H2) as (h2 & E2 & W2 & S2). exists h2. cbn [run_doubles]. rewrite E. cbn [bind].
    split; [exact E2|]. split; [exact W2|]. intros m SH. cbn [img_writes fold_left fst snd].
    apply (S2 (img_write m off p)). apply S; assumption.
Qed.

(** Without entries, inside the capacity *)
Lemma double_plain_runs : forall us h b, wf h b -> hplain b -> fits (a_len (hb_bytes b)) (a_cap (hb_bytes b)) us ->
  exists h' b', run_doubles h b us = Ok (h', b') /\ wf h' b' /\ hplain b' /\
    forall m, hd_shows h b m -> hd_shows h' b' (img_writes m us).
Proof.
  induction us as [|[off p] us IH]; intros h b W P F.
  - exists h, b. cbn. auto.
  - cbn [fits] in F. destruct F as (F1 & F2 & F3). pose proof (zlen_nonneg p) as PN.
    assert (L : forall c, hplain c -> (length (hb_diffs c) <= 1)%nat) by (intros c [D _]; rewrite D; cbn; lia).
    destruct (one_update h b off p W (hplain_memory h b P) (hplain_tidy b P) (L b P) ltac:(lia)) as (h1 & b1 & E & W1 & _ & S).
    { split; [|left; lia]. destruct P as [D _]. rewrite D. intros d []. }
    assert (E' : hn_u h b off (zlen p) p = Ok (h1, b1)).
    { unfold hd_u in E. rewrite (merge_one h b (L b P)) in E. exact E. }
    destruct (plain_update h b off p h1 b1 P ltac:(lia) ltac:(lia) E') as (P1 & L1 & C1).
    rewrite <- L1, <- C1 in F3. destruct (IH h1 b1 W1 P1 F3) as (h2 & b2 & E2 & W2 & P2 & S2).
    exists h2, b2. cbn [run_doubles]. rewrite E. cbn [bind]. split; [exact E2|]. split; [exact W2|]. split; [exact P2|].
    intros m SH. cbn [img_writes fold_left fst snd]. apply (S2 (img_write m off p)). apply S; auto.
Qed.

(** Any first update of a buffer on nothing, then updates inside it *)
Lemma double_first : forall off p us, 0 <= off -> 1 <= zlen p ->
  Forall (fun u => 1 <= zlen (snd u) /\ off <= fst u /\ fst u + zlen (snd u) <= off + zlen p) us ->
  exists h b, run_doubles [] hempty ((off, p) :: us) = Ok (h, b) /\
    hd_shows h b (img_writes (fun _ => None) ((off, p) :: us)).
Proof.
  intros off p us Ho Hp F.
  assert (W0 : wf [] hempty) by (split; [vm_compute; repeat split; discriminate|split; constructor]).
  assert (P0 : hplain hempty) by (split; reflexivity).
  destruct (one_update [] hempty off p W0 (hplain_memory _ _ P0) (hplain_tidy _ P0) ltac:(cbn; lia) Ho) as (h1 & b1 & E & W1 & M1 & S1).
  { split; [intros d []|]. right. cbn [hempty hb_bytes nil_hsl a_cap]. lia. }
  assert (E' : hn_u [] hempty off (zlen p) p = Ok (h1, b1)).
  { unfold hd_u in E. rewrite merge_one in E by (cbn; lia). exact E. }
  unfold hn_u in E'. rewrite Z.ltb_irrefl in E'. cbn [hempty hb_diffs hb_bytes last_index last_index_from nil_hsl a_len a_cap] in E'.
  destruct (off + zlen p <=? 0) eqn:X; [lia|]. cbn [h_new] in E'.
  set (s1 := mkHsl (length (@nil (list byte))) 0 (zlen p) (zlen (zeros (Z.max default_buf_cap (zlen p))))) in *.
  injection E' as E1 E2. assert (DB : hb_diffs b1 = [mkHdiff off s1]) by (rewrite <- E2; reflexivity).
  assert (BB : hb_bytes b1 = nil_hsl) by (rewrite <- E2; reflexivity).
  assert (L1 : (length (hb_diffs b1) <= 1)%nat) by (rewrite DB; cbn; lia).
  assert (S0 : hd_shows [] hempty (fun _ => None)).
  { apply one_shows; [apply hplain_memory; exact P0|cbn; lia|]. intros i Hi.
    rewrite peek_content by (auto; apply hplain_memory; exact P0). apply (f_equal Ok). apply zget_nil. }
  assert (T1 : tidy b1).
  { split; rewrite DB, ?BB.
    - intros d [<-|[]]. split; [|cbn [nil_hsl a_cap hd_off]; lia]. right. left. cbn. lia.
    - intros [|x [|y l1]] d l2 e l3 Q; try discriminate. injection Q as _ Q. destruct l2; discriminate. }
  destruct (double_runs us h1 b1 W1 M1 T1 L1) as (h2 & R2 & _ & S2).
  { eapply Forall_impl; [|exact F]. intros [o q] (A1 & A2 & A3). unfold fst, snd in *. split; [unfold fst; lia|]. split; [exact A1|].
    right. exists (mkHdiff off s1). rewrite DB. split; [left; reflexivity|]. cbn [hd_off hd_sl s1 a_len fst snd]. lia. }
  exists h2, b1. cbn [run_doubles]. rewrite E. cbn [bind]. split; [exact R2|]. cbn [img_writes fold_left fst snd].
  apply (S2 (img_write (fun _ => None) off p)). apply S1; assumption.
Qed.

(** ** Two entries *)

Lemma lost_update :
  map (shown_at (run_doubles [] hempty [(600, [x11; x12])])) [600; 601; 11] = [Ok (Some x11); Ok (Some x12); Ok None] /\
  map (shown_at (run_doubles [] hempty [(600, [x11; x12]); (10, [x21])])) [600; 601; 10; 11] =
    [Ok None; Ok None; Ok (Some x21); Ok (Some x12)].
Proof. split; vm_compute; reflexivity. Qed.

Lemma zero_gap :
  map (shown_at (run_doubles [] hempty [(10, [x11; x12])])) [11; 12; 599] = [Ok (Some x12); Ok None; Ok None] /\
  map (shown_at (run_doubles [] hempty [(10, [x11; x12]); (600, [x21])])) [11; 12; 599; 600] =
    [Ok (Some x12); Ok (Some x00); Ok (Some x00); Ok (Some x21)].
Proof. split; vm_compute; reflexivity. Qed.
