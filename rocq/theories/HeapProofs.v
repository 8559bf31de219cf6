(** Proofs about buffers over shared arrays: BaseImpl only allocates. *)
From Coq Require Import ZArith List Bool Lia.
From Coq Require Import Strings.Byte.
From Verif Require Import GoLib GoLemmas BaseModel BaseSpec BaseProofs HeapModel HeapSpec.
Import ListNotations.
Open Scope Z_scope.

Definition res_map {A B} (f : A -> B) (m : res A) : res B :=
  match m with Ok a => Ok (f a) | Panic => Panic | OutOfFuel => OutOfFuel end.

(** ** Views of slices *)
Lemma view_len : forall h s, wf_sl h s -> gs_len (view h s) = a_len s.
Proof.
  intros h s (H1 & H2 & H3). unfold view, gs_len. cbn [sl_data].
  rewrite !zlen_zfirst, zlen_zskip. lia.
Qed.

Lemma view_cap : forall h s, wf_sl h s -> gs_cap (view h s) = a_cap s.
Proof.
  intros h s (H1 & H2 & H3). unfold view, gs_cap. cbn [sl_data sl_spare].
  rewrite !zlen_zfirst, !zlen_zskip, zlen_zfirst, zlen_zskip. lia.
Qed.

Lemma view_get : forall h s i, wf_sl h s ->
  zget (sl_data (view h s)) i = if (0 <=? i) && (i <? a_len s) then zget (array h s) (a_off s + i) else None.
Proof.
  intros h s i (H1 & H2 & H3). unfold view. cbn [sl_data].
  rewrite !zget_zfirst, zget_zskip by lia.
  destruct (Z.ltb_spec i (a_len s)); [|rewrite andb_false_r; reflexivity].
  destruct (Z.leb_spec 0 i); cbn [andb].
  - destruct (Z.ltb_spec i (a_cap s)); [|lia]. destruct (Z.ltb_spec i 0); [lia|reflexivity].
  - destruct (Z.ltb_spec i (a_cap s)); [|lia]. destruct (Z.ltb_spec i 0); [reflexivity|lia].
Qed.

Lemma spare_get : forall h s i, wf_sl h s ->
  zget (sl_spare (view h s)) i = if (0 <=? i) && (a_len s + i <? a_cap s) then zget (array h s) (a_off s + a_len s + i) else None.
Proof.
  intros h s i (H1 & H2 & H3). unfold view. cbn [sl_spare].
  rewrite zget_zskip, zget_zfirst by lia.
  destruct (Z.ltb_spec i 0); [destruct (Z.leb_spec 0 i); [lia|reflexivity]|].
  destruct (Z.leb_spec 0 i); [|lia]. cbn [andb].
  destruct (Z.ltb_spec (a_len s + i) (a_cap s)).
  - rewrite zget_zskip by lia. replace (a_len s + i <? 0) with false by lia. f_equal. lia.
  - reflexivity.
Qed.

Lemma gslice_ext : forall s t, (forall i, zget (sl_data s) i = zget (sl_data t) i) ->
  (forall i, zget (sl_spare s) i = zget (sl_spare t) i) -> s = t.
Proof.
  intros [a b] [c d] H1 H2. cbn in *. f_equal; apply zget_ext; auto.
Qed.

Ltac zif := repeat match goal with
  | |- context [Z.ltb ?a ?b] => destruct (Z.ltb_spec a b)
  | |- context [Z.leb ?a ?b] => destruct (Z.leb_spec a b)
  end; cbn [andb].

Lemma hs_from_wf : forall h s a t, wf_sl h s -> hs_from s a = Ok t -> wf_sl h t.
Proof.
  intros h s a t (H1 & H2 & H3) E. unfold hs_from in E.
  destruct ((0 <=? a) && (a <=? a_len s)) eqn:X; [|discriminate]. injection E as <-.
  unfold wf_sl, array in *. cbn [a_id a_off a_len a_cap]. lia.
Qed.

Lemma hs_range_wf : forall h s a b t, wf_sl h s -> hs_range s a b = Ok t -> wf_sl h t.
Proof.
  intros h s a b t (H1 & H2 & H3) E. unfold hs_range in E.
  destruct ((0 <=? a) && (a <=? b) && (b <=? a_cap s)) eqn:X; [|discriminate]. injection E as <-.
  unfold wf_sl, array in *. cbn [a_id a_off a_len a_cap]. lia.
Qed.

Lemma hs_upto3_wf : forall h s b c t, wf_sl h s -> hs_upto3 s b c = Ok t -> wf_sl h t.
Proof.
  intros h s b c t (H1 & H2 & H3) E. unfold hs_upto3 in E.
  destruct ((0 <=? b) && (b <=? c) && (c <=? a_cap s)) eqn:X; [|discriminate]. injection E as <-.
  unfold wf_sl, array in *. cbn [a_id a_off a_len a_cap]. lia.
Qed.

Lemma full_get : forall h s i, wf_sl h s ->
  zget (sl_data (view h s) ++ sl_spare (view h s)) i =
  if (0 <=? i) && (i <? a_cap s) then zget (array h s) (a_off s + i) else None.
Proof.
  intros h s i W. pose proof (view_len h s W) as L. unfold gs_len in L. destruct W as (H1 & H2 & H3).
  rewrite zget_app, L, view_get, spare_get by (unfold wf_sl; lia).
  zif; try lia; try reflexivity; f_equal; lia.
Qed.

Lemma view_from : forall h s a, wf_sl h s ->
  gs_from (view h s) a = res_map (view h) (hs_from s a).
Proof.
  intros h s a W. unfold gs_from, hs_from. rewrite view_len by auto.
  destruct ((0 <=? a) && (a <=? a_len s)) eqn:X; [|reflexivity]. cbn [res_map]. f_equal.
  assert (W' : wf_sl h (mkHsl (a_id s) (a_off s + a) (a_len s - a) (a_cap s - a))).
  { eapply hs_from_wf; [exact W|]. unfold hs_from. rewrite X. reflexivity. }
  apply gslice_ext; intros i; cbn [sl_data sl_spare].
  - rewrite zget_zskip, !view_get by (auto; lia). cbn [a_id a_off a_len a_cap].
    change (array h (mkHsl (a_id s) (a_off s + a) (a_len s - a) (a_cap s - a))) with (array h s).
    zif; try lia; try reflexivity; f_equal; lia.
  - rewrite !spare_get by auto. cbn [a_id a_off a_len a_cap].
    change (array h (mkHsl (a_id s) (a_off s + a) (a_len s - a) (a_cap s - a))) with (array h s).
    zif; try lia; try reflexivity; f_equal; lia.
Qed.

Lemma view_range : forall h s a b, wf_sl h s ->
  gs_range (view h s) a b = res_map (view h) (hs_range s a b).
Proof.
  intros h s a b W. unfold gs_range, hs_range. rewrite view_cap by auto.
  destruct ((0 <=? a) && (a <=? b) && (b <=? a_cap s)) eqn:X; [|reflexivity]. cbn [res_map]. f_equal.
  assert (W' : wf_sl h (mkHsl (a_id s) (a_off s + a) (b - a) (a_cap s - a))).
  { eapply hs_range_wf; [exact W|]. unfold hs_range. rewrite X. reflexivity. }
  apply gslice_ext; intros i; cbn [sl_data sl_spare].
  - rewrite zget_zskip, zget_zfirst, full_get, view_get by (auto; lia). cbn [a_id a_off a_len a_cap].
    change (array h (mkHsl (a_id s) (a_off s + a) (b - a) (a_cap s - a))) with (array h s).
    zif; try lia; try reflexivity; f_equal; lia.
  - rewrite zget_zskip, full_get, spare_get by (auto; lia). cbn [a_id a_off a_len a_cap].
    change (array h (mkHsl (a_id s) (a_off s + a) (b - a) (a_cap s - a))) with (array h s).
    zif; try lia; try reflexivity; f_equal; lia.
Qed.

Lemma view_upto3 : forall h s b c, wf_sl h s ->
  gs_upto3 (view h s) b c = res_map (view h) (hs_upto3 s b c).
Proof.
  intros h s b c W. unfold gs_upto3, hs_upto3. rewrite view_cap by auto.
  destruct ((0 <=? b) && (b <=? c) && (c <=? a_cap s)) eqn:X; [|reflexivity]. cbn [res_map]. f_equal.
  assert (W' : wf_sl h (mkHsl (a_id s) (a_off s) b c)).
  { eapply hs_upto3_wf; [exact W|]. unfold hs_upto3. rewrite X. reflexivity. }
  apply gslice_ext; intros i; cbn [sl_data sl_spare].
  - rewrite zget_zfirst, full_get, view_get by (auto; lia). cbn [a_id a_off a_len a_cap].
    change (array h (mkHsl (a_id s) (a_off s) b c)) with (array h s).
    zif; try lia; try reflexivity; f_equal; lia.
  - rewrite zget_zskip, zget_zfirst, full_get, spare_get by (auto; lia). cbn [a_id a_off a_len a_cap].
    change (array h (mkHsl (a_id s) (a_off s) b c)) with (array h s).
    zif; try lia; try reflexivity; f_equal; lia.
Qed.

(** ** Growing the heap *)
Definition extends (h h' : heap) : Prop := exists t, h' = h ++ t.

Lemma extends_refl : forall h, extends h h.
Proof. intros. exists []. rewrite app_nil_r. reflexivity. Qed.

Lemma extends_trans : forall a b c, extends a b -> extends b c -> extends a c.
Proof. intros a b c [t ->] [u ->]. exists (t ++ u). rewrite app_assoc. reflexivity. Qed.

Lemma array_old : forall h t s, (a_id s < length h)%nat -> array (h ++ t) s = array h s.
Proof. intros. unfold array. apply app_nth1. auto. Qed.

(** A window with room lies in an existing array. *)
Lemma wf_id : forall h s, wf_sl h s -> 0 < a_cap s -> (a_id s < length h)%nat.
Proof.
  intros h s (H1 & H2 & H3) H. destruct (Nat.lt_ge_cases (a_id s) (length h)); [auto|].
  unfold array in H3. rewrite nth_overflow in H3 by auto. rewrite zlen_nil in H3. lia.
Qed.

Lemma view_empty : forall h s, a_cap s <= 0 -> view h s = gs_of nil.
Proof.
  intros h s H. unfold view. replace (zfirst (a_cap s) (zskip (a_off s) (array h s))) with (@nil byte).
  - unfold zfirst, zskip. rewrite firstn_nil, skipn_nil. reflexivity.
  - unfold zfirst. replace (Z.to_nat (a_cap s)) with 0%nat by lia. reflexivity.
Qed.

Lemma wf_extends : forall h h' s, extends h h' -> wf_sl h s ->
  wf_sl h' s /\ view h' s = view h s.
Proof.
  intros h h' s [t ->] W. destruct (Nat.lt_ge_cases (a_id s) (length h)).
  - unfold wf_sl, view in *. rewrite array_old by auto. auto.
  - destruct (Z.lt_ge_cases 0 (a_cap s)) as [C|C]; [pose proof (wf_id h s W C); lia|].
    rewrite !view_empty by auto. split; [|reflexivity].
    destruct W as (W1 & W2 & W3). unfold array in W3. rewrite nth_overflow in W3 by auto.
    rewrite zlen_nil in W3. pose proof (zlen_nonneg (array (h ++ t) s)). unfold wf_sl. lia.
Qed.

Lemma view_diff_extends : forall h h' ds, extends h h' -> Forall (fun d => wf_sl h (hd_sl d)) ds ->
  map (view_diff h') ds = map (view_diff h) ds /\ Forall (fun d => wf_sl h' (hd_sl d)) ds.
Proof.
  intros h h' ds E F. induction F as [|d ds W F IH]; cbn [map]; [auto|].
  destruct IH as [IH1 IH2]. destruct (wf_extends h h' (hd_sl d) E W) as [W' V].
  split; [|constructor; auto]. rewrite IH1. unfold view_diff at 1 3. rewrite V. reflexivity.
Qed.

Lemma view_base_extends : forall h h' b, extends h h' -> wf h b ->
  view_base h' b = view_base h b /\ wf h' b.
Proof.
  intros h h' b E (W1 & W2 & W3).
  destruct (wf_extends _ _ _ E W1) as [V1 V2].
  destruct (view_diff_extends _ _ _ E W2) as [V3 V4].
  destruct (view_diff_extends _ _ _ E W3) as [V5 V6].
  split; [|split; auto]. unfold view_base. rewrite V2, V3, V5. reflexivity.
Qed.

Lemma h_new_spec : forall h l n h' s, 0 <= n <= zlen l -> h_new h l n = (h', s) ->
  extends h h' /\ wf_sl h' s /\ view h' s = mkSlice (zfirst n l) (zskip n l).
Proof.
  intros h l n h' s Hn E. unfold h_new in E. injection E as <- <-.
  split; [exists [l]; reflexivity|].
  assert (A : array (h ++ [l]) (mkHsl (length h) 0 n (zlen l)) = l).
  { unfold array. cbn [a_id]. rewrite app_nth2, Nat.sub_diag by lia. reflexivity. }
  split; [unfold wf_sl; rewrite A; cbn [a_off a_len a_cap]; lia|].
  unfold view. rewrite A. cbn [a_off a_len a_cap]. rewrite zskip_0, (zfirst_all l (zlen l)) by lia. reflexivity.
Qed.

(** ** Reading *)
Lemma last_index_map : forall A B (f : A -> B) (p : B -> bool) (q : A -> bool) l,
  (forall x, In x l -> p (f x) = q x) -> last_index p (map f l) = last_index q l.
Proof.
  intros A B f p q l. unfold last_index. generalize 0%nat.
  induction l as [|x l IH]; intros n H; [reflexivity|]. cbn [map last_index_from].
  rewrite IH by (intros; apply H; right; auto). rewrite H by (left; reflexivity). reflexivity.
Qed.

Lemma d_len_view : forall h d, wf_sl h (hd_sl d) -> d_len (view_diff h d) = a_len (hd_sl d).
Proof. intros. unfold d_len. cbn [view_diff d_sl]. apply view_len. auto. Qed.

Lemma min_offset_view : forall h ds off acc,
  min_offset_gt off (map (view_diff h) ds) acc = hmin_offset_gt off ds acc.
Proof.
  induction ds as [|d ds IH]; intros off acc; [reflexivity|]. cbn [map min_offset_gt hmin_offset_gt].
  cbn [view_diff d_off]. destruct (off <? hd_off d); apply IH.
Qed.

Lemma bind_from : forall h s a (B : Type) (f : gslice -> res B), wf_sl h s ->
  bind (gs_from (view h s) a) f = bind (hs_from s a) (fun t => f (view h t)).
Proof. intros. rewrite view_from by auto. destruct (hs_from s a); reflexivity. Qed.

Lemma bind_range : forall h s a b (B : Type) (f : gslice -> res B), wf_sl h s ->
  bind (gs_range (view h s) a b) f = bind (hs_range s a b) (fun t => f (view h t)).
Proof. intros. rewrite view_range by auto. destruct (hs_range s a b); reflexivity. Qed.

Lemma bind_upto3 : forall h s a b (B : Type) (f : gslice -> res B), wf_sl h s ->
  bind (gs_upto3 (view h s) a b) f = bind (hs_upto3 s a b) (fun t => f (view h t)).
Proof. intros. rewrite view_upto3 by auto. destruct (hs_upto3 s a b); reflexivity. Qed.

Lemma hwriter_r_view : forall h b off, wf h b ->
  writer_r (view_base h b) off = res_map (option_map (view h)) (hwriter_r b off) /\
  (forall s, hwriter_r b off = Ok (Some s) -> wf_sl h s).
Proof.
  intros h b off (W1 & W2 & W3). unfold writer_r, hwriter_r. cbn [view_base b_diffs b_bytes].
  rewrite Forall_forall in W2.
  rewrite (last_index_map _ _ (view_diff h) (covers off) (hcovers off)).
  2:{ intros d Hd. unfold covers, hcovers. rewrite d_len_view by auto. reflexivity. }
  rewrite view_len by auto.
  destruct (last_index (hcovers off) (hb_diffs b)) as [n|] eqn:L.
  - rewrite nth_error_map. destruct (nth_error (hb_diffs b) n) as [d|] eqn:N; cbn [option_map].
    2:{ split; [reflexivity|]. intros; discriminate. }
    pose proof (W2 d (nth_error_In _ _ N)) as Wd.
    cbn [view_diff d_sl d_off]. rewrite bind_from by auto.
    destruct (hs_from (hd_sl d) (off - hd_off d)) as [t| |] eqn:F; cbn [bind res_map option_map];
      (split; [reflexivity|]); intros s E; try discriminate.
    injection E as <-. eapply hs_from_wf; eauto.
  - destruct (a_len (hb_bytes b) <? off); [split; [reflexivity|intros; discriminate]|].
    rewrite min_offset_view.
    destruct (hb_diffs b) as [|d0 ds]; cbn [map].
    + rewrite bind_from by auto. destruct (hs_from (hb_bytes b) off) as [t| |] eqn:F;
        cbn [bind res_map option_map]; (split; [reflexivity|]); intros s E; try discriminate.
      injection E as <-. eapply hs_from_wf; eauto.
    + destruct (hmin_offset_gt off (d0 :: ds) (-1) <? 0).
      * rewrite bind_from by auto. destruct (hs_from (hb_bytes b) off) as [t| |] eqn:F;
          cbn [bind res_map option_map]; (split; [reflexivity|]); intros s E; try discriminate.
        injection E as <-. eapply hs_from_wf; eauto.
      * rewrite bind_from by auto. destruct (hs_from (hb_bytes b) off) as [t| |] eqn:F;
          cbn [bind res_map option_map]; try (split; [reflexivity|]; intros; discriminate).
        rewrite view_len by (eapply hs_from_wf; eauto). rewrite bind_range by auto.
        destruct (hs_range (hb_bytes b) off (Z.min (off + a_len t) (hmin_offset_gt off (d0 :: ds) (-1)))) as [u| |] eqn:G;
          cbn [bind res_map option_map]; (split; [reflexivity|]); intros s E; try discriminate.
        injection E as <-. eapply hs_range_wf; eauto.
Qed.

Lemma hreader_r0_view : forall h b off req, wf h b ->
  reader_r0 (view_base h b) off req = res_map (option_map (view h)) (hreader_r0 b off req) /\
  (forall s, hreader_r0 b off req = Ok (Some s) -> wf_sl h s).
Proof.
  intros h b off req (W1 & W2 & W3). unfold reader_r0, hreader_r0. cbn [view_base b_rdiffs b_bytes].
  rewrite Forall_forall in W3.
  rewrite (last_index_map _ _ (view_diff h) (rcovers off req) (hrcovers off req)).
  2:{ intros d Hd. unfold rcovers, hrcovers. rewrite d_len_view by auto. reflexivity. }
  rewrite view_len by auto.
  destruct (last_index (hrcovers off req) (hb_rdiffs b)) as [n|] eqn:L.
  - rewrite nth_error_map. destruct (nth_error (hb_rdiffs b) n) as [d|] eqn:N; cbn [option_map].
    2:{ split; [reflexivity|]. intros; discriminate. }
    pose proof (W3 d (nth_error_In _ _ N)) as Wd.
    cbn [view_diff d_sl d_off]. rewrite bind_from by auto.
    destruct (hs_from (hd_sl d) (off - hd_off d)) as [t| |] eqn:F; cbn [bind res_map option_map];
      (split; [reflexivity|]); intros s E; try discriminate.
    injection E as <-. eapply hs_from_wf; eauto.
  - assert (G : (do s <- gs_from (view h (hb_bytes b)) off; Ok (Some s)) =
        res_map (option_map (view h)) (do s <- hs_from (hb_bytes b) off; Ok (Some s)) /\
        (forall s, (do s <- hs_from (hb_bytes b) off; Ok (Some s)) = Ok (Some s) -> wf_sl h s)).
    { rewrite bind_from by auto. destruct (hs_from (hb_bytes b) off) as [t| |] eqn:F;
        cbn [bind res_map option_map]; (split; [reflexivity|]); intros s E; try discriminate.
      injection E as <-. eapply hs_from_wf; eauto. }
    destruct (a_len (hb_bytes b) <? off + req); [|exact G].
    destruct (off + Z.max 1 req <=? a_len (hb_bytes b)); [exact G|].
    split; [reflexivity|]. intros; discriminate.
Qed.

Lemma hb_r_view : forall h b off req, wf h b ->
  base_r (view_base h b) off req = res_map (option_map (view h)) (hb_r b off req) /\
  (forall s, hb_r b off req = Ok (Some s) -> wf_sl h s).
Proof.
  intros h b off req W. unfold base_r, hb_r.
  destruct (hwriter_r_view h b off W) as [E1 E2]. rewrite E1.
  destruct (hwriter_r b off) as [s| |]; cbn [res_map bind]; try (split; [reflexivity|intros; discriminate]).
  replace (opt_len (option_map (view h) s)) with (hopt_len s).
  2:{ destruct s as [s|]; [|reflexivity]. cbn. symmetry. apply view_len. auto. }
  destruct (hopt_len s =? 0); [apply hreader_r0_view; auto|].
  split; [reflexivity|]. intros t E. apply E2. exact E.
Qed.
