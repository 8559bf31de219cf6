(** Updates through NoLayer. *)
From Coq Require Import ZArith List Bool Lia.
From Coq Require Import Strings.Byte.
From Verif Require Import GoLib GoLemmas BaseModel BaseSpec BaseProofs HeapModel HeapSpec.
From Verif Require Import HeapProofs HeapProofs2 HeapProofs3.
Import ListNotations.
Open Scope Z_scope.

Definition val (h : heap) (d : hdiff) (i : Z) : option byte :=
  zget (sl_data (view h (hd_sl d))) (i - hd_off d).

Lemma hover : forall h ds m i, Forall (fun d => wf_sl h (hd_sl d)) ds ->
  over (map (view_diff h) ds) m i =
  match find_last (hcovers i) ds with Some d => val h d i | None => m i end.
Proof.
  intros h ds m i F. unfold over. rewrite Forall_forall in F.
  assert (E : find_last (covers i) (map (view_diff h) ds) = option_map (view_diff h) (find_last (hcovers i) ds)).
  { rewrite find_last_map. f_equal. apply find_last_ext. intros d Hd.
    unfold covers, hcovers. rewrite d_len_view by auto. reflexivity. }
  rewrite E. destruct (find_last (hcovers i) ds) as [d|]; reflexivity.
Qed.

Lemma hcontent : forall h b i, wf h b ->
  content (view_base h b) i =
  match find_last (hcovers i) (hb_diffs b) with
  | Some d => val h d i
  | None => zget (sl_data (view h (hb_bytes b))) i
  end.
Proof. intros h b i (W1 & W2 & W3). unfold content. cbn [view_base b_diffs b_bytes]. apply hover. exact W2. Qed.

Lemma put_view_in : forall h s p t i, wf_sl h s -> wf_sl h t -> a_id s = a_id t ->
  a_off t <= a_off s -> zlen p <= a_len s ->
  zget (sl_data (view (h_put h s p) t)) i =
  if (a_off s - a_off t <=? i) && (i <? a_off s - a_off t + zlen p) && (i <? a_len t)
  then zget p (i - (a_off s - a_off t)) else zget (sl_data (view h t)) i.
Proof.
  intros h s p t i W T I O L. pose proof (zlen_nonneg p) as PN.
  assert (ZF : zfirst (a_len s) p = p) by (apply zfirst_all; lia).
  destruct (Z.eq_dec (zlen p) 0) as [E|E].
  { rewrite h_put_none by (rewrite ZF; exact E).
    replace ((a_off s - a_off t <=? i) && (i <? a_off s - a_off t + zlen p) && (i <? a_len t)) with false; [reflexivity|].
    symmetry. zif; try reflexivity; lia. }
  pose proof (h_put_wf h s p t W T) as T'.
  rewrite !view_get by auto.
  assert (A : array (h_put h s p) t = copy_at (array h t) (a_off s) p).
  { unfold array at 1. rewrite <- I, h_put_array by (rewrite ?ZF; auto; lia). rewrite ZF.
    unfold array. rewrite I. reflexivity. }
  rewrite A. destruct W as (W1 & W2 & W3). destruct T as (T1 & T2 & T3).
  assert (AS : array h s = array h t) by (unfold array; rewrite I; reflexivity). rewrite AS in W3.
  rewrite zget_copy_at by lia.
  zif; try lia; try reflexivity; f_equal; lia.
Qed.

Lemma covers_cap : forall i d, 0 <= a_len (hd_sl d) <= a_cap (hd_sl d) -> hcovers i d = true ->
  hd_off d <= i < hd_off d + a_len (hd_sl d).
Proof. intros i d H C. unfold hcovers in C. lia. Qed.

Lemma hcovers_iff : forall i d, hcovers i d = true <-> hd_off d <= i < hd_off d + a_len (hd_sl d).
Proof. intros. unfold hcovers. lia. Qed.

Lemma hcap_covers_iff : forall i d, hcap_covers i d = true <-> hd_off d <= i < hd_off d + a_cap (hd_sl d).
Proof. intros. unfold hcap_covers. lia. Qed.

Lemma find_last_mid : forall A (p : A -> bool) l1 x l2,
  find_last p (l1 ++ x :: l2) =
  match find_last p l2 with Some y => Some y | None => if p x then Some x else find_last p l1 end.
Proof.
  intros. rewrite find_last_app. cbn [find_last]. destruct (find_last p l2); [reflexivity|].
  destruct (p x); reflexivity.
Qed.

(** What tidiness says about the entries around one of them. *)
Lemma tidy_after : forall b l1 d l2, tidy b -> hb_diffs b = l1 ++ d :: l2 ->
  forall e, In e l2 -> apart (hd_sl d) (hd_sl e) /\
    (hd_off d + a_cap (hd_sl d) <= hd_off e \/ hd_off e + a_cap (hd_sl e) <= hd_off d).
Proof.
  intros b l1 d l2 [_ T] E e He. apply in_split in He. destruct He as (x & y & ->).
  exact (T l1 d x e y E).
Qed.

Lemma tidy_before : forall b l1 d l2, tidy b -> hb_diffs b = l1 ++ d :: l2 ->
  forall e, In e l1 -> apart (hd_sl e) (hd_sl d) /\
    (hd_off e + a_cap (hd_sl e) <= hd_off d \/ hd_off d + a_cap (hd_sl d) <= hd_off e).
Proof.
  intros b l1 d l2 [_ T] E e He. apply in_split in He. destruct He as (x & y & ->).
  rewrite <- app_assoc in E. exact (T x e y d l2 E).
Qed.

Lemma apart_put : forall h s p t d, wf_sl h s -> wf_sl h t -> apart d t ->
  a_id s = a_id d -> a_off d <= a_off s -> a_off s + a_len s <= a_off d + a_cap d ->
  view (h_put h s p) t = view h t.
Proof.
  intros h s p t d W T A I O L. apply h_put_apart; auto. unfold apart in A. rewrite I. lia.
Qed.

Lemma apart_sym : forall s t, apart s t -> apart t s.
Proof. unfold apart. intros s t H. intuition. Qed.

(** Values of entries whose window is seen unchanged. *)
Lemma val_ext : forall h h' d i, view h' (hd_sl d) = view h (hd_sl d) -> val h' d i = val h d i.
Proof. intros. unfold val. rewrite H. reflexivity. Qed.

Lemma img_write_eq : forall m off p i, img_write m off p i =
  if (off <=? i) && (i <? off + zlen p) then zget p (i - off) else m i.
Proof. reflexivity. Qed.

Lemma nl_update : forall h b off p, wf h b -> in_memory (view_base h b) -> tidy b ->
  0 <= off -> roomy b off (zlen p) ->
  exists h' b', hn_u h b off (zlen p) p = Ok (h', b') /\ wf h' b' /\ in_memory (view_base h' b') /\
    forall m, shows (view_base h b) m -> shows (view_base h' b') (img_write m off p).
Proof.
  intros h b off p W IM TD Ho RM. pose proof W as (W1 & W2 & W3).
  pose proof (zlen_nonneg p) as PN.
  assert (KEY : exists h' b', hn_u h b off (zlen p) p = Ok (h', b') /\ in_memory (view_base h' b') /\
    (wf h' b' -> forall i, 0 <= i -> content (view_base h' b') i = img_write (content (view_base h b)) off p i)).
  2:{ destruct KEY as (h' & b' & E & IM' & C). exists h', b'. split; [exact E|].
      assert (W' : wf h' b') by (eapply hn_u_frame; eauto). split; [exact W'|]. split; [exact IM'|].
      intros m SH i Hi. rewrite peek_content by auto. f_equal. rewrite C by auto.
      apply img_write_ext. specialize (SH i Hi). rewrite peek_content in SH by auto. congruence. }
  destruct IM as [IR IO]. cbn [view_base b_rdiffs b_diffs] in IR, IO.
  assert (IO' : forall d, In d (hb_diffs b) -> 0 <= hd_off d).
  { intros d Hd. rewrite Forall_forall in IO. apply (IO (view_diff h d)). apply in_map. exact Hd. }
  assert (IMK : forall h' bs ds, (forall d, In d ds -> 0 <= hd_off d) ->
    in_memory (view_base h' (mkHbase bs (hb_rdiffs b) ds (hb_check b) (hb_seek b)))).
  { intros h' bs ds H. split; cbn [view_base b_rdiffs b_diffs hb_rdiffs hb_diffs].
    - destruct (hb_rdiffs b); [reflexivity|discriminate].
    - rewrite Forall_forall. intros x Hx. apply in_map_iff in Hx. destruct Hx as (d & <- & Hd).
      cbn. auto. }
  assert (WD : forall d, In d (hb_diffs b) -> wf_sl h (hd_sl d)) by (rewrite Forall_forall in W2; exact W2).
  unfold hn_u. destruct (Z.ltb_spec (zlen p) (zlen p)); [lia|].
  destruct (last_index (hcap_covers off) (hb_diffs b)) as [n|] eqn:L.
  - destruct (last_index_some _ _ _ _ L) as (l1 & d & l2 & E & Hn & C & NC).
    assert (ND : nth_error (hb_diffs b) n = Some d) by (rewrite E, <- Hn; apply nth_error_mid).
    rewrite ND. apply hcap_covers_iff in C.
    assert (ID : In d (hb_diffs b)) by (rewrite E; apply in_app_iff; right; left; reflexivity).
    pose proof (WD d ID) as Wd. pose proof Wd as (D1 & D2 & D3).
    assert (AFT := tidy_after b l1 d l2 TD E). assert (BEF := tidy_before b l1 d l2 TD E).
    assert (INL1 : forall e, In e l1 -> In e (hb_diffs b)) by (intros; rewrite E; apply in_app_iff; auto).
    assert (INL2 : forall e, In e l2 -> In e (hb_diffs b)) by (intros; rewrite E; apply in_app_iff; right; right; auto).
    (* nothing else covers a position in the room of d *)
    assert (F2 : forall i, hd_off d <= i < hd_off d + a_cap (hd_sl d) -> find_last (hcovers i) l2 = None).
    { intros i Hi. apply find_last_none_iff. intros e He. destruct (hcovers i e) eqn:X; [|reflexivity].
      apply hcovers_iff in X. destruct (AFT e He) as [_ A]. pose proof (WD e (INL2 e He)) as (_ & Q & _). lia. }
    assert (F1 : forall i, hd_off d <= i < hd_off d + a_cap (hd_sl d) -> find_last (hcovers i) l1 = None).
    { intros i Hi. apply find_last_none_iff. intros e He. destruct (hcovers i e) eqn:X; [|reflexivity].
      apply hcovers_iff in X. destruct (BEF e He) as [_ A]. pose proof (WD e (INL1 e He)) as (_ & Q & _). lia. }
    destruct (Z.eqb_spec (hd_off d) off) as [Eo|No].
    + (* the entry that starts at off *)
      subst off.
      assert (REST : firstn n (hb_diffs b) ++ skipn (S n) (hb_diffs b) = l1 ++ l2).
      { rewrite E, <- Hn, firstn_mid, skipn_mid_S. reflexivity. }
      rewrite REST.
      assert (NEWIM : forall h' s, in_memory (view_base h' (hset_diffs b ((l1 ++ l2) ++ [mkHdiff (hd_off d) s])))).
      { intros h' s. apply IMK. intros e He. apply in_app_iff in He. destruct He as [He|[<-|[]]]; [|auto].
        apply in_app_iff in He. destruct He; auto. }
      (* reduce the claim to the window written *)
      assert (RED : forall h' s, wf h' (hset_diffs b ((l1 ++ l2) ++ [mkHdiff (hd_off d) s])) ->
        zlen p <= a_len s -> (a_len s = zlen p \/ a_len s = a_len (hd_sl d)) ->
        (a_len (hd_sl d) <= a_len s) ->
        (forall e, In e (l1 ++ l2) -> view h' (hd_sl e) = view h (hd_sl e)) ->
        view h' (hb_bytes b) = view h (hb_bytes b) ->
        (forall k, 0 <= k < a_len s -> zget (sl_data (view h' s)) k =
           if k <? zlen p then zget p k else zget (sl_data (view h (hd_sl d))) k) ->
        forall i, 0 <= i -> content (view_base h' (hset_diffs b ((l1 ++ l2) ++ [mkHdiff (hd_off d) s]))) i =
          img_write (content (view_base h b)) (hd_off d) p i).
      { intros h' s WN LS LS2 LS3 VE VB VD i Hi. rewrite (hcontent _ _ _ WN), img_write_eq, (hcontent _ _ _ W).
        cbn [hset_diffs hb_diffs hb_bytes]. rewrite VB.
        rewrite find_last_app. cbn [find_last]. unfold hcovers at 1. cbn [hd_off hd_sl].
        rewrite E, find_last_mid.
        destruct ((hd_off d <=? i) && (i <? hd_off d + a_len s)) eqn:X.
        - unfold val at 1. cbn [hd_off hd_sl]. rewrite VD by lia.
          destruct (Z.ltb_spec (i - hd_off d) (zlen p)).
          + replace ((hd_off d <=? i) && (i <? hd_off d + zlen p)) with true by lia. reflexivity.
          + replace ((hd_off d <=? i) && (i <? hd_off d + zlen p)) with false by lia.
            destruct LS2 as [LS2|LS2]; [lia|].
            rewrite F2 by lia.
            replace (hcovers i d) with true by (symmetry; apply hcovers_iff; lia). reflexivity.
        - replace ((hd_off d <=? i) && (i <? hd_off d + zlen p)) with false by lia.
          replace (hcovers i d) with false.
          2:{ symmetry. destruct (hcovers i d) eqn:Y; [|reflexivity]. apply hcovers_iff in Y. lia. }
          rewrite find_last_app.
          destruct (find_last (hcovers i) l2) as [e|] eqn:Q.
          { apply find_last_some in Q. destruct Q as [Q _]. apply val_ext. apply VE. apply in_app_iff. auto. }
          destruct (find_last (hcovers i) l1) as [e|] eqn:Q1; [|reflexivity].
          apply find_last_some in Q1. destruct Q1 as [Q1 _]. apply val_ext. apply VE. apply in_app_iff. auto. }
      destruct (Z.ltb_spec (a_cap (hd_sl d)) (zlen p)) as [K|K].
      * unfold h_new. cbn [bind].
        destruct (new_put h (zlen p) (zlen p) p ltac:(lia) ltac:(lia)) as (l & PUT & LL & LE). rewrite PUT.
        do 2 eexists. split; [reflexivity|]. split; [apply NEWIM|]. intros W'.
        assert (ZZ : zlen (zeros (zlen p)) = zlen p) by (rewrite zlen_zeros; lia).
        apply RED; [exact W'|cbn; lia|left; reflexivity|cbn; lia| | |].
        -- intros e He. apply wf_extends; [apply extends_last|]; apply WD. apply in_app_iff in He. destruct He; auto.
        -- apply wf_extends; [apply extends_last|auto].
        -- intros k Hk. cbn [a_len] in Hk. rewrite ZZ.
           destruct (view_last h l ltac:(lia)) as [_ VL]. rewrite LL in VL. rewrite VL. cbn [gs_of sl_data].
           rewrite LE. rewrite copy_at_full by lia. replace (k <? zlen p) with true by lia. reflexivity.
      * assert (INP : forall s, wf_sl h s -> a_id s = a_id (hd_sl d) -> a_off s = a_off (hd_sl d) ->
          a_cap s <= a_cap (hd_sl d) -> zlen p <= a_len s ->
          (a_len s = zlen p \/ a_len s = a_len (hd_sl d)) -> (a_len (hd_sl d) <= a_len s) ->
          exists h' b', Ok (h_put h s p, hset_diffs b ((l1 ++ l2) ++ [mkHdiff (hd_off d) s])) = Ok (h', b') /\
            in_memory (view_base h' b') /\ (wf h' b' -> forall i, 0 <= i ->
              content (view_base h' b') i = img_write (content (view_base h b)) (hd_off d) p i)).
        { intros s Ws I O Cs LS LS2 LS3. pose proof Ws as (_ & Q0 & _). do 2 eexists. split; [reflexivity|]. split; [apply NEWIM|].
          intros W'. apply RED; auto.
          - intros e He. eapply apart_put with (d := hd_sl d); auto; try lia.
            + apply WD. apply in_app_iff in He. destruct He; auto.
            + apply in_app_iff in He. destruct He as [He|He]; [apply apart_sym; apply BEF; exact He|apply AFT; exact He].
          - eapply apart_put with (d := hd_sl d); auto; try lia.
            + apply apart_sym. apply TD. exact ID.
          - intros k Hk. rewrite put_view_in by (auto; lia).
            replace (a_off s - a_off s) with 0 by lia.
            destruct (Z.ltb_spec k (zlen p)).
            + replace ((0 <=? k) && (k <? 0 + zlen p) && (k <? a_len s)) with true by lia.
              f_equal. lia.
            + replace ((0 <=? k) && (k <? 0 + zlen p) && (k <? a_len s)) with false by lia.
              destruct LS2 as [LS2|LS2]; [lia|].
              rewrite !view_get by auto. rewrite LS2, O. unfold array. rewrite I. reflexivity. }
        destruct (Z.ltb_spec (a_len (hd_sl d)) (zlen p)) as [K2|K2].
        -- unfold hs_upto3. replace ((0 <=? zlen p) && (zlen p <=? zlen p) && (zlen p <=? a_cap (hd_sl d))) with true by lia.
           cbn [bind]. apply INP; cbn [a_id a_off a_len a_cap]; auto; try lia.
           unfold wf_sl, array in *. cbn [a_id a_off a_len a_cap]. lia.
        -- cbn [bind]. apply INP; auto; try lia.
    + (* inside an entry *)
      assert (R1 : off + zlen p <= hd_off d + a_len (hd_sl d)).
      { destruct RM as [RM _]. apply (RM d ID). lia. }
      unfold hs_range.
      replace ((0 <=? off - hd_off d) && (off - hd_off d <=? off - hd_off d + zlen p) &&
               (off - hd_off d + zlen p <=? a_cap (hd_sl d))) with true by lia.
      cbn [bind]. set (s := mkHsl (a_id (hd_sl d)) (a_off (hd_sl d) + (off - hd_off d))
        (off - hd_off d + zlen p - (off - hd_off d)) (a_cap (hd_sl d) - (off - hd_off d))).
      assert (Ws : wf_sl h s).
      { apply (hs_range_wf h (hd_sl d) (off - hd_off d) (off - hd_off d + zlen p) s Wd).
        unfold hs_range.
        replace ((0 <=? off - hd_off d) && (off - hd_off d <=? off - hd_off d + zlen p) &&
               (off - hd_off d + zlen p <=? a_cap (hd_sl d))) with true by lia. reflexivity. }
      do 2 eexists. split; [reflexivity|]. split.
      { apply (IMK _ (hb_bytes b) (hb_diffs b)). exact IO'. }
      intros W' i Hi. rewrite (hcontent _ _ _ W'), img_write_eq, (hcontent _ _ _ W).
      assert (VB : view (h_put h s p) (hb_bytes b) = view h (hb_bytes b)).
      { eapply apart_put with (d := hd_sl d); auto; try (unfold s; cbn; lia).
        apply apart_sym. apply TD. exact ID. }
      assert (VE : forall e, In e l1 \/ In e l2 -> view (h_put h s p) (hd_sl e) = view h (hd_sl e)).
      { intros e He. eapply apart_put with (d := hd_sl d); auto; try (unfold s; cbn; lia).
        - apply WD. destruct He; auto.
        - destruct He as [He|He]; [apply apart_sym; apply BEF; exact He|apply AFT; exact He]. }
      rewrite VB, E, find_last_mid.
      destruct (find_last (hcovers i) l2) as [e|] eqn:Q.
      { pose proof Q as Q'. apply find_last_some in Q'. destruct Q' as [Qi Qc].
        replace ((off <=? i) && (i <? off + zlen p)) with false.
        - apply val_ext. apply VE. auto.
        - symmetry. destruct ((off <=? i) && (i <? off + zlen p)) eqn:X; [|reflexivity].
          rewrite F2 in Q by lia. discriminate. }
      destruct (hcovers i d) eqn:Cd.
      * apply hcovers_iff in Cd. unfold val. rewrite put_view_in; auto; try (unfold s; cbn; lia).
        replace (a_off s - a_off (hd_sl d)) with (off - hd_off d) by (unfold s; cbn; lia).
        destruct ((off <=? i) && (i <? off + zlen p)) eqn:X.
        -- replace ((off - hd_off d <=? i - hd_off d) && (i - hd_off d <? off - hd_off d + zlen p) &&
             (i - hd_off d <? a_len (hd_sl d))) with true by lia. f_equal. lia.
        -- replace ((off - hd_off d <=? i - hd_off d) && (i - hd_off d <? off - hd_off d + zlen p) &&
             (i - hd_off d <? a_len (hd_sl d))) with false by lia. reflexivity.
      * replace ((off <=? i) && (i <? off + zlen p)) with false.
        2:{ symmetry. destruct ((off <=? i) && (i <? off + zlen p)) eqn:X; [|reflexivity].
            assert (hcovers i d = true) by (apply hcovers_iff; lia). congruence. }
        destruct (find_last (hcovers i) l1) as [e|] eqn:Q1; [|reflexivity].
        apply find_last_some in Q1. destruct Q1 as [Q1 _]. apply val_ext. apply VE. auto.
  - (* no entry *)
    assert (NC : forall d, In d (hb_diffs b) -> ~ (hd_off d <= off < hd_off d + a_cap (hd_sl d))).
    { intros d Hd C. apply hcap_covers_iff in C. rewrite (find_last_none _ _ _ _ (last_index_none _ _ _ L) Hd) in C. discriminate. }
    pose proof W1 as (B1 & B2 & B3).
    assert (NB : forall i, i < a_cap (hb_bytes b) -> find_last (hcovers i) (hb_diffs b) = None).
    { intros i Hi. apply find_last_none_iff. intros e He. destruct (hcovers i e) eqn:X; [|reflexivity].
      apply hcovers_iff in X. destruct TD as [TD _]. destruct (TD e He) as [_ Q]. lia. }
    destruct (Z.leb_spec (off + zlen p) (a_len (hb_bytes b))) as [K|K].
    + unfold hs_from. replace ((0 <=? off) && (off <=? a_len (hb_bytes b))) with true by lia. cbn [bind].
      set (s := mkHsl (a_id (hb_bytes b)) (a_off (hb_bytes b) + off) (a_len (hb_bytes b) - off) (a_cap (hb_bytes b) - off)).
      assert (Ws : wf_sl h s) by (unfold wf_sl, array in *; unfold s; cbn; lia).
      do 2 eexists. split; [reflexivity|]. split.
      { apply (IMK _ (hb_bytes b) (hb_diffs b)). exact IO'. }
      intros W' i Hi. rewrite (hcontent _ _ _ W'), img_write_eq, (hcontent _ _ _ W).
      destruct (find_last (hcovers i) (hb_diffs b)) as [e|] eqn:Q.
      * pose proof Q as Q'. apply find_last_some in Q'. destruct Q' as [Qi Qc].
        replace ((off <=? i) && (i <? off + zlen p)) with false.
        -- apply val_ext. eapply apart_put with (d := hb_bytes b); auto; try (unfold s; cbn; lia).
           apply TD. exact Qi.
        -- symmetry. destruct ((off <=? i) && (i <? off + zlen p)) eqn:X; [|reflexivity].
           rewrite NB in Q by lia. discriminate.
      * rewrite put_view_in; auto; try (unfold s; cbn; lia).
        replace (a_off s - a_off (hb_bytes b)) with off by (unfold s; cbn; lia).
        destruct ((off <=? i) && (i <? off + zlen p)) eqn:X.
        -- replace (i <? a_len (hb_bytes b)) with true by lia. cbn [andb]. reflexivity.
        -- cbn [andb]. reflexivity.
    + destruct (Z.leb_spec (off + zlen p) (a_cap (hb_bytes b))) as [K2|K2].
      * assert (OL : off <= a_len (hb_bytes b)) by (destruct RM as [_ [R|R]]; lia).
        unfold hs_upto, hs_range.
        replace ((0 <=? 0) && (0 <=? off + zlen p) && (off + zlen p <=? a_cap (hb_bytes b))) with true by lia.
        cbn [bind]. unfold hs_from. cbn [a_id a_off a_len a_cap].
        replace ((0 <=? off) && (off <=? off + zlen p - 0)) with true by lia. cbn [bind].
        set (bs := mkHsl (a_id (hb_bytes b)) (a_off (hb_bytes b) + 0) (off + zlen p - 0) (a_cap (hb_bytes b) - 0)).
        set (s := mkHsl (a_id (hb_bytes b)) (a_off (hb_bytes b) + 0 + off) (off + zlen p - 0 - off) (a_cap (hb_bytes b) - 0 - off)).
        assert (Ws : wf_sl h s) by (unfold wf_sl, array in *; unfold s; cbn; lia).
        assert (Wb : wf_sl h bs) by (unfold wf_sl, array in *; unfold bs; cbn; lia).
        do 2 eexists. split; [reflexivity|]. split.
        { apply (IMK _ bs (hb_diffs b)). exact IO'. }
        intros W' i Hi. rewrite (hcontent _ _ _ W'), img_write_eq, (hcontent _ _ _ W).
        cbn [hset_bytes hb_diffs hb_bytes].
        destruct (find_last (hcovers i) (hb_diffs b)) as [e|] eqn:Q.
        -- pose proof Q as Q'. apply find_last_some in Q'. destruct Q' as [Qi Qc].
           replace ((off <=? i) && (i <? off + zlen p)) with false.
           ++ apply val_ext. eapply apart_put with (d := hb_bytes b); auto; try (unfold s; cbn; lia).
              apply TD. exact Qi.
           ++ symmetry. destruct ((off <=? i) && (i <? off + zlen p)) eqn:X; [|reflexivity].
              rewrite NB in Q by lia. discriminate.
        -- rewrite put_view_in; auto; try (unfold s, bs; cbn; lia).
           replace (a_off s - a_off bs) with off by (unfold s, bs; cbn; lia).
           change (a_len bs) with (off + zlen p - 0).
           destruct ((off <=? i) && (i <? off + zlen p)) eqn:X.
           ++ replace (i <? off + zlen p - 0) with true by lia. cbn [andb]. reflexivity.
           ++ cbn [andb]. rewrite !view_get by auto. unfold bs. cbn [a_len a_off].
              change (array h (mkHsl (a_id (hb_bytes b)) (a_off (hb_bytes b) + 0) (off + zlen p - 0) (a_cap (hb_bytes b) - 0))) with (array h (hb_bytes b)).
              zif; try lia; try reflexivity; f_equal; lia.
      * unfold h_new.
        destruct (new_put h (zlen p) (Z.max default_buf_cap (zlen p)) p ltac:(lia) ltac:(lia)) as (l & PUT & LL & LE).
        rewrite PUT. do 2 eexists. split; [reflexivity|].
        assert (ZZ : zlen (zeros (Z.max default_buf_cap (zlen p))) = Z.max default_buf_cap (zlen p)).
        { rewrite zlen_zeros. lia. }
        rewrite ZZ. rewrite <- LL.
        destruct (h_new_spec h l (zlen p) (h ++ [l]) (mkHsl (length h) 0 (zlen p) (zlen l))) as (EX & WL & VL).
        { lia. } { reflexivity. }
        split.
        { apply (IMK _ (hb_bytes b)). intros e He. apply in_app_iff in He. destruct He as [He|[<-|[]]]; auto. }
        intros W' i Hi. rewrite (hcontent _ _ _ W'), img_write_eq, (hcontent _ _ _ W).
        cbn [hset_diffs hb_diffs hb_bytes]. rewrite find_last_app. cbn [find_last].
        unfold hcovers at 1. cbn [hd_off hd_sl a_len].
        destruct ((off <=? i) && (i <? off + zlen p)) eqn:X.
        -- unfold val. cbn [hd_off hd_sl]. rewrite VL. cbn [sl_data]. rewrite zget_zfirst.
           replace (i - off <? zlen p) with true by lia. rewrite LE.
           rewrite zget_copy_at by lia. rewrite ZZ.
           replace ((0 <=? i - off) && (i - off <? 0 + zlen p) && (i - off <? Z.max default_buf_cap (zlen p))) with true by lia.
           f_equal. lia.
        -- destruct (find_last (hcovers i) (hb_diffs b)) as [e|] eqn:Q.
           ++ apply find_last_some in Q. destruct Q as [Q _]. apply val_ext. apply wf_extends; auto.
           ++ f_equal. f_equal. apply wf_extends; auto.
Qed.
