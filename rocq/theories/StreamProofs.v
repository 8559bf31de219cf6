(** Lemmas about the read cache. *)
From Coq Require Import ZArith List Bool Lia Permutation.
From Coq Require Import Strings.Byte.
From Verif Require Import GoLib GoLemmas BaseModel BaseSpec BaseProofs VariantModel StreamModel StreamSpec.
Import ListNotations.
Open Scope Z_scope.

Lemma read_full : forall s eof n off, 0 <= n -> 0 <= off -> off + n <= zlen s ->
  exists d e, read_src (Random s eof) n off = (d, e, Random s eof) /\ zlen d = n /\
    slice_of_image (img_bytes s) off d /\ (e = REof \/ e = RNone) /\ (eof n off = false -> e = RNone).
Proof.
  intros s eof n off Hn Ho L. cbn [read_src]. destruct (Z.ltb_spec off 0); [lia|].
  do 2 eexists. split; [reflexivity|].
  assert (E : zlen (zfirst n (zskip off s)) = n) by (rewrite zlen_zfirst, zlen_zskip; lia).
  split; [exact E|]. split.
  - intros k Hk. rewrite E in Hk. rewrite zget_zfirst, zget_zskip by lia.
    replace (k <? n) with true by lia. replace (k <? 0) with false by lia. reflexivity.
  - rewrite E, Z.ltb_irrefl. cbn [orb]. destruct (eof n off); auto. split; [auto|discriminate].
Qed.

Lemma gs_upto_ok : forall s b, 0 <= b -> b <= gs_cap s ->
  gs_upto s b = Ok (mkSlice (zfirst b (sl_data s ++ sl_spare s)) (zskip b (sl_data s ++ sl_spare s))).
Proof. intros s b H1 H2. unfold gs_upto. rewrite gs_range_ok by lia. rewrite zskip_0. reflexivity. Qed.

Lemma gs_upto_inv : forall s b t, gs_upto s b = Ok t -> 0 <= b <= gs_cap s /\ gs_len t = b /\
  (forall i, zget (sl_data t) i = if i <? b then zget (sl_data s ++ sl_spare s) i else None) /\
  sl_data t ++ sl_spare t = sl_data s ++ sl_spare s.
Proof.
  intros s b t H. unfold gs_upto, gs_range in H.
  destruct ((0 <=? 0) && (0 <=? b) && (b <=? gs_cap s)) eqn:C; [|discriminate].
  injection H as <-. unfold gs_cap in *. unfold gs_len. cbn [sl_data sl_spare]. rewrite zskip_0.
  split; [lia|]. split; [rewrite zlen_zfirst, zlen_app; lia|]. split.
  - intros i. apply zget_zfirst.
  - unfold zfirst, zskip. apply firstn_skipn.
Qed.

Lemma gs_from_inv : forall s a t, gs_from s a = Ok t -> 0 <= a <= gs_len s /\
  gs_len t = gs_len s - a /\ sl_data t = zskip a (sl_data s).
Proof.
  intros s a t H. unfold gs_from in H. destruct ((0 <=? a) && (a <=? gs_len s)) eqn:C; [|discriminate].
  injection H as <-. unfold gs_len in *. cbn [sl_data]. rewrite zlen_zskip.
  split; [lia|]. split; [lia|reflexivity].
Qed.

Lemma gs_upto3_inv : forall s b c t, gs_upto3 s b c = Ok t -> 0 <= b <= c /\ c <= gs_cap s /\
  gs_len t = b /\ gs_cap t = c /\ sl_data t = zfirst b (sl_data s ++ sl_spare s).
Proof.
  intros s b c t H. unfold gs_upto3 in H.
  destruct ((0 <=? b) && (b <=? c) && (c <=? gs_cap s)) eqn:C; [|discriminate].
  injection H as <-. unfold gs_cap, gs_len in *. cbn [sl_data sl_spare].
  rewrite zlen_zskip, !zlen_zfirst, zlen_app. repeat split; try lia.
Qed.

Lemma slice_skip : forall m off l a, 0 <= a -> slice_of_image m off l -> slice_of_image m (off + a) (zskip a l).
Proof.
  intros m off l a Ha S k Hk. rewrite zlen_zskip in Hk. rewrite zget_zskip by lia.
  replace (k <? 0) with false by lia. rewrite S by lia. f_equal. lia.
Qed.

Lemma slice_first : forall m off l l' b, slice_of_image m off l ->  b <= zlen l ->
  slice_of_image m off (zfirst b (l ++ l')).
Proof.
  intros m off l l' b S Hb k Hk. rewrite zlen_zfirst, zlen_app in Hk. rewrite zget_zfirst, zget_app.
  replace (k <? b) with true by lia. replace (k <? zlen l) with true by lia. apply S. lia.
Qed.

Lemma slice_put : forall m off l p a, slice_of_image m off (zfirst a l) -> slice_of_image m (off + a) p ->
  0 <= a <= zlen l -> a + zlen p = zlen l -> slice_of_image m off (copy_at l a p).
Proof.
  intros m off l p a S P Ha L k Hk. rewrite zlen_copy_at in Hk by lia. rewrite zget_copy_at by lia.
  destruct (Z.leb_spec a k).
  - replace ((k <? a + zlen p) && (k <? zlen l)) with true by lia.
    cbn [andb]. replace (k <? a + zlen p) with true by lia. replace (k <? zlen l) with true by lia.
    cbn [andb]. rewrite P by lia. f_equal. lia.
  - cbn [andb]. rewrite <- S; [|rewrite zlen_zfirst; lia]. rewrite zget_zfirst.
    replace (k <? a) with true by lia. reflexivity.
Qed.

Lemma Forall_set_nth : forall (P : diff -> Prop) rs n d, Forall P rs -> P d -> Forall P (set_nth rs n d).
Proof.
  intros P rs n d F H. unfold set_nth. rewrite Forall_forall in *. intros x Hx.
  apply in_app_iff in Hx. destruct Hx as [Hx|[<-|Hx]]; auto.
  - apply F. rewrite <- (firstn_skipn n rs). apply in_app_iff. auto.
  - apply F. rewrite <- (firstn_skipn (S n) rs). apply in_app_iff. auto.
Qed.

Lemma Forall_add : forall (P : diff -> Prop) srt rs d, keeps srt -> Forall P rs -> P d ->
  Forall P (add_rdiff srt rs d).
Proof.
  intros P srt rs d K F H.
  assert (G : Forall P (srt (rs ++ [d]))).
  { rewrite Forall_forall in *. intros x Hx. apply (Permutation_in _ (K _)) in Hx.
    apply in_app_iff in Hx. destruct Hx as [Hx|[<-|[]]]; auto. }
  unfold add_rdiff. destruct (last_index _ rs) as [n|]; [|exact G].
  destruct (nth_error rs n) as [x|]; [|exact G]. destruct (_ <? _); [exact F|exact G].
Qed.

Lemma calc_le : forall n, 0 <= n -> 0 < calc_buf_size n.
Proof.
  intros n H. unfold calc_buf_size. rewrite Z.quot_div_nonneg by lia.
  assert (Q : 0 <= n / 4096) by (apply Z.div_pos; lia). rewrite Z.rem_mod_nonneg by lia.
  destruct (Z.eqb_spec ((n / 4096) mod 4096) 0).
  - destruct (Z.eqb_spec (n / 4096) 0); lia.
  - destruct (Z.eqb_spec (n / 4096 + 1) 0); lia.
Qed.

(** What a load leaves behind. *)
Definition loaded (s : list byte) (b : base) (r : res (base * source * rerr)) (src : source) : Prop :=
  match r with
  | Ok (b', src', e) => src' = src /\ agrees s b' /\ b_diffs b' = b_diffs b /\ (e = REof \/ e = RNone)
  | Panic => True
  | OutOfFuel => False
  end.

Lemma load_new_agrees : forall f srt s eof b offset size rq cl, keeps srt -> agrees s b ->
  0 <= offset -> rq <= size -> offset + size <= zlen s ->
  loaded s b (load_new (S f) srt b (Random s eof) offset size rq cl) (Random s eof).
Proof.
  intros f srt s eof b offset size rq cl K [A1 A2] Ho Hr L. cbn [load_new].
  set (ncap := if (0 <? cl) && (cl <? (if size =? rq then calc_buf_size (Z.max size 512) else rq)) then cl
               else if size =? rq then calc_buf_size (Z.max size 512) else rq).
  destruct (Z.ltb_spec (Z.min rq ncap) 0); [exact I|].
  destruct (read_full s eof (Z.min rq ncap) offset ltac:(lia) Ho ltac:(lia)) as (d & e & R & Ld & Sd & Ee & _).
  rewrite R.
  assert (G : forall sl, slice_of_image (img_bytes s) offset (sl_data sl) ->
    loaded s b (Ok (set_rdiffs b (add_rdiff srt (b_rdiffs b) (mkDiff offset sl)), Random s eof, e)) (Random s eof)).
  { intros sl Hs. cbn [loaded]. split; [reflexivity|]. split; [|split; [reflexivity|exact Ee]].
    split; [exact A1|]. cbn [set_rdiffs b_rdiffs]. apply Forall_add; auto. split; auto. }
  assert (P0 : slice_of_image (img_bytes s) offset (copy_at (zeros (Z.min rq ncap)) 0 d)).
  { rewrite copy_at_full by (rewrite zlen_zeros; lia). exact Sd. }
  destruct e as [| | |o z|]; try (destruct Ee; discriminate).
  - destruct (0 <? zlen d).
    + destruct (gs_upto _ (zlen d)) as [sl| |] eqn:U; cbn [bind]; [|exact I|unfold gs_upto, gs_range in U; destruct (_ && _) in U; discriminate].
      apply G. apply gs_upto_inv in U. destruct U as (U1 & U2 & U3 & U4).
      intros k Hk. unfold gs_len in U2. rewrite U3. replace (k <? zlen d) with true by lia.
      cbn [gs_put sl_data sl_spare]. rewrite zget_app.
      rewrite zlen_copy_at by (rewrite zlen_zeros; lia). rewrite zlen_zeros.
      replace (k <? Z.max 0 (Z.min rq ncap)) with true by lia.
      apply P0. rewrite zlen_copy_at by (rewrite zlen_zeros; lia). rewrite zlen_zeros. lia.
    + cbn [bind]. apply G. exact P0.
  - destruct (0 <? zlen d).
    + destruct (gs_upto _ (zlen d)) as [sl| |] eqn:U; cbn [bind]; [|exact I|unfold gs_upto, gs_range in U; destruct (_ && _) in U; discriminate].
      apply G. apply gs_upto_inv in U. destruct U as (U1 & U2 & U3 & U4).
      intros k Hk. unfold gs_len in U2. rewrite U3. replace (k <? zlen d) with true by lia.
      cbn [gs_put sl_data sl_spare]. rewrite zget_app.
      rewrite zlen_copy_at by (rewrite zlen_zeros; lia). rewrite zlen_zeros.
      replace (k <? Z.max 0 (Z.min rq ncap)) with true by lia.
      apply P0. rewrite zlen_copy_at by (rewrite zlen_zeros; lia). rewrite zlen_zeros. lia.
    + cbn [bind]. apply G. exact P0.
Qed.
