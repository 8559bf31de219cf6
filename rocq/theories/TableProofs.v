(** Lemmas on reads that are answered by one piece of the buffer, and on
    scalars, table access and struct layout. *)
From Coq Require Import ZArith List Bool Lia.
From Coq Require Import Strings.Byte.
From Verif Require Import GoLib BaseModel GoLemmas BaseSpec BaseProofs BaseProofs2 BaseProofs3.
From Verif Require Import TableModel TableSpec.
Import ListNotations.
Open Scope Z_scope.

(** ** Ranges held by one piece *)

Definition misses (pos n : Z) (d : diff) : Prop :=
  d_off d + d_len d <= pos \/ pos + n <= d_off d.

Definition whole (ds : list diff) (len pos n : Z) : Prop :=
  (exists l1 d l2, ds = l1 ++ d :: l2 /\ d_off d <= pos /\
     pos + n <= d_off d + d_len d /\ Forall (misses pos n) l2)
  \/ (pos + n <= len /\ Forall (misses pos n) ds).

Lemma misses_covers : forall pos n d k, misses pos n d -> 0 <= k < n ->
  covers (pos + k) d = false.
Proof. unfold misses, covers; intros. lia. Qed.

Lemma find_last_misses : forall ds pos n k, Forall (misses pos n) ds -> 0 <= k < n ->
  find_last (covers (pos + k)) ds = None.
Proof.
  intros ds pos n k H Hk. apply find_last_none_iff. intros d Hd.
  rewrite Forall_forall in H. eapply misses_covers; eauto.
Qed.

Lemma find_last_hit : forall A (p : A -> bool) l1 x l2, p x = true ->
  find_last p l2 = None -> find_last p (l1 ++ x :: l2) = Some x.
Proof.
  intros. rewrite find_last_app. cbn [find_last]. rewrite H0, H. reflexivity.
Qed.

(** A read of a range held by one piece returns all of it, current. *)
Lemma whole_read : forall b pos n req, in_memory b -> 0 <= pos -> 1 <= n -> 0 <= req ->
  whole (b_diffs b) (gs_len (b_bytes b)) pos n ->
  exists s, base_r b pos req = Ok (Some s) /\ n <= gs_len s /\
    forall k, 0 <= k < n -> zget (sl_data s) k = content b (pos + k).
Proof.
  intros b pos n req Hb Hp Hn Hr [(l1 & d & l2 & E & Ho & He & F)|[Hl F]].
  - destruct (base_r_spec b pos req Hb Hp Hr) as (s & ER & S).
    assert (FL : forall k, 0 <= k < n -> find_last (covers (pos + k)) (b_diffs b) = Some d).
    { intros k Hk. rewrite E. apply find_last_hit.
      - unfold covers. lia.
      - apply (find_last_misses l2 pos n k F Hk). }
    pose proof (FL 0 ltac:(lia)) as F0. replace (pos + 0) with pos in F0 by lia.
    rewrite F0 in S.
    assert (HL : n <= opt_len s).
    { rewrite opt_len_data, S, zlen_zskip. unfold d_len, gs_len, d_data in *. lia. }
    destruct s as [x|]; [|cbn in HL; lia].
    exists x. split; [exact ER|]. split; [exact HL|]. intros k Hk.
    cbn [opt_data] in S. rewrite S. unfold content, over. rewrite (FL k Hk).
    rewrite zget_zskip by lia. destruct (k <? 0) eqn:K; [lia|]. f_equal. lia.
  - assert (FN : forall k, 0 <= k < n -> find_last (covers (pos + k)) (b_diffs b) = None).
    { intros k Hk. apply (find_last_misses _ pos n k F Hk). }
    pose proof (FN 0 ltac:(lia)) as F0. replace (pos + 0) with pos in F0 by lia.
    assert (HW : exists x, writer_r b pos = Ok (Some x) /\ n <= gs_len x /\
      forall k, 0 <= k < n -> zget (sl_data x) k = zget (sl_data (b_bytes b)) (pos + k)).
    { destruct Hb as [HR HF]. unfold writer_r.
      destruct (last_index (covers pos) (b_diffs b)) as [j|] eqn:E.
      { pose proof (last_index_find_last _ (covers pos) (b_diffs b)) as L. rewrite E in L.
        destruct L as [_ L]. congruence. }
      destruct (gs_len (b_bytes b) <? pos) eqn:E1; [lia|].
      assert (Hfull : exists x, (do s <- gs_from (b_bytes b) pos; Ok (Some s)) = Ok (Some x) /\
         n <= gs_len x /\
         forall k, 0 <= k < n -> zget (sl_data x) k = zget (sl_data (b_bytes b)) (pos + k)).
      { rewrite gs_from_ok by lia. cbn [bind]. eexists; split; [reflexivity|].
        unfold gs_len in *; cbn [sl_data]. rewrite zlen_zskip. split; [lia|].
        intros k Hk. rewrite zget_zskip by lia. destruct (k <? 0) eqn:K; [lia|reflexivity]. }
      destruct (b_diffs b) as [|d0 ds0] eqn:ED; [exact Hfull|]. rewrite <- ED in *.
      pose proof (min_offset_gt_spec (b_diffs b) pos (-1) ltac:(lia) HF) as M. cbv zeta in M.
      destruct M as [M1 M2].
      destruct (min_offset_gt pos (b_diffs b) (-1) <? 0) eqn:E2; [exact Hfull|]. clear Hfull.
      assert (Hmin : forall ds acc, Forall (fun d => 0 <= d_off d) ds ->
                Forall (misses pos n) ds -> (acc < 0 \/ pos + n <= acc) ->
                0 <= min_offset_gt pos ds acc -> pos + n <= min_offset_gt pos ds acc).
      { clear. induction ds as [|d ds IH]; intros acc H0 HM Ha; cbn [min_offset_gt]; [lia|].
        inversion H0 as [|? ? A1 A2]; subst. inversion HM as [|? ? B1 B2]; subst.
        destruct (pos <? d_off d) eqn:C.
        - apply IH; auto. pose proof (d_len_nonneg d).
          assert (pos + n <= d_off d) by (unfold misses in B1; lia).
          destruct ((acc <? 0) || (d_off d <? acc)) eqn:X; lia.
        - apply IH; auto. }
      specialize (Hmin (b_diffs b) (-1) HF F ltac:(lia) ltac:(lia)).
      rewrite gs_from_ok by lia. cbn [bind].
      set (lim := Z.min _ _).
      assert (Hlim : lim = Z.min (gs_len (b_bytes b)) (min_offset_gt pos (b_diffs b) (-1))).
      { unfold lim, gs_len; cbn [sl_data]. rewrite zlen_zskip. unfold gs_len in *. lia. }
      pose proof (gs_cap_ge (b_bytes b)).
      rewrite gs_range_ok by lia. cbn [bind]. eexists; split; [reflexivity|].
      unfold gs_len in *; cbn [sl_data]. rewrite zlen_zskip, zlen_zfirst, zlen_app.
      pose proof (zlen_nonneg (sl_spare (b_bytes b))). split; [lia|].
      intros k Hk. rewrite zget_zskip by lia. destruct (k <? 0) eqn:K; [lia|].
      rewrite zget_zfirst, zget_app.
      replace (pos + k <? lim) with true by lia.
      replace (pos + k <? zlen (sl_data (b_bytes b))) with true by lia. reflexivity. }
    destruct HW as (x & EW & HL & HG). exists x. unfold base_r. rewrite EW. cbn [bind opt_len].
    replace (gs_len x =? 0) with false by lia. split; [reflexivity|]. split; [exact HL|].
    intros k Hk. rewrite HG by auto. unfold content, over. rewrite FN by auto. reflexivity.
Qed.

Lemma whole_app : forall ds l len pos n, whole ds len pos n -> Forall (misses pos n) l ->
  whole (ds ++ l) len pos n.
Proof.
  intros ds l len pos n [(l1 & d & l2 & E & Ho & He & F)|[Hl F]] H.
  - left. exists l1, d, (l2 ++ l). split; [rewrite E, <- app_assoc; reflexivity|].
    repeat split; auto. apply Forall_app; auto.
  - right. split; auto. apply Forall_app; auto.
Qed.

Lemma whole_last : forall ds d len pos n, d_off d <= pos -> pos + n <= d_off d + d_len d ->
  whole (ds ++ [d]) len pos n.
Proof. intros. left. exists ds, d, nil. auto. Qed.

Lemma whole_flat : forall len pos n, pos + n <= len -> whole nil len pos n.
Proof. intros. right. auto. Qed.

(** ** Numbers in images *)

Lemma le_decode_digit : forall l k x, zget l k = Some x ->
  b2z x = (le_decode l / 256 ^ k) mod 256.
Proof.
  induction l as [|y l IH]; intros k x H.
  - rewrite zget_nil in H; discriminate.
  - pose proof (zget_some_range _ _ _ H) as R.
    rewrite zget_cons in H. cbn [le_decode]. pose proof (b2z_range y).
    destruct (k =? 0) eqn:K.
    + injection H as ->. replace k with 0 by lia. change (256 ^ 0) with 1.
      rewrite Z.div_1_r. rewrite (Z.mul_comm 256), Z_mod_plus_full.
      rewrite Z.mod_small; auto.
    + rewrite (IH _ _ H). replace k with (1 + (k - 1)) at 2 by lia.
      rewrite Z.pow_add_r by lia. change (256 ^ 1) with 256.
      rewrite <- Z.div_div by (try apply Z.pow_pos_nonneg; lia).
      do 2 f_equal. rewrite (Z.mul_comm 256 (le_decode l)), Z_div_plus_full by lia.
      rewrite Z.div_small by lia. lia.
Qed.

Lemma digits_inj : forall n a b, 0 <= a < 256 ^ Z.of_nat n -> 0 <= b < 256 ^ Z.of_nat n ->
  (forall k, 0 <= k < Z.of_nat n -> (a / 256 ^ k) mod 256 = (b / 256 ^ k) mod 256) -> a = b.
Proof.
  induction n as [|n IH]; intros a b Ha Hb H.
  - change (256 ^ Z.of_nat 0) with 1 in *. lia.
  - rewrite pow256_S in *. pose proof (pow256_pos n).
    pose proof (H 0 ltac:(lia)) as HD. change (256 ^ 0) with 1 in HD. rewrite !Z.div_1_r in HD.
    assert (E : a / 256 = b / 256).
    { apply IH.
      - split; [apply Z.div_pos; lia|]. apply Z.div_lt_upper_bound; lia.
      - split; [apply Z.div_pos; lia|]. apply Z.div_lt_upper_bound; lia.
      - intros k Hk. specialize (H (1 + k) ltac:(lia)).
        rewrite Z.pow_add_r in H by lia. change (256 ^ 1) with 256 in H.
        rewrite <- !Z.div_div in H by (try apply Z.pow_pos_nonneg; lia). exact H. }
    rewrite (Z.div_mod a 256), (Z.div_mod b 256) by lia. lia.
Qed.

Lemma holds_uint_list : forall m pos n v l, holds_uint m pos n v -> Z.of_nat n <= zlen l ->
  (forall k, 0 <= k < Z.of_nat n -> zget l k = m (pos + k)) ->
  le_decode (firstn n l) = v.
Proof.
  intros m pos n v l [Hv H] HL HG.
  assert (L : zlen (firstn n l) = Z.of_nat n).
  { unfold zlen in *. rewrite firstn_length. lia. }
  pose proof (le_decode_range (firstn n l)) as R. rewrite L in R.
  apply (digits_inj n); auto. intros k Hk.
  destruct (H k Hk) as (x & Hx & <-). symmetry. apply le_decode_digit.
  replace (firstn n l) with (zfirst (Z.of_nat n) l) by (unfold zfirst; rewrite Nat2Z.id; reflexivity).
  rewrite zget_zfirst. replace (k <? Z.of_nat n) with true by lia. rewrite HG; auto.
Qed.

Lemma holds_uint_ext : forall m m' pos n v,
  (forall k, 0 <= k < Z.of_nat n -> m' (pos + k) = m (pos + k)) ->
  holds_uint m pos n v -> holds_uint m' pos n v.
Proof.
  intros m m' pos n v E [Hv H]. split; auto. intros k Hk. rewrite E by auto. auto.
Qed.

Lemma holds_uint_encode : forall m pos n v,
  (forall k, 0 <= k < Z.of_nat n -> m (pos + k) = zget (le_encode n v) k) ->
  0 <= v < 256 ^ Z.of_nat n -> holds_uint m pos n v.
Proof.
  intros m pos n v H Hv. split; auto. intros k Hk.
  destruct (zget_some (le_encode n v) k) as [x Hx]; [rewrite zlen_le_encode; lia|].
  exists x. split; [rewrite H; auto|]. rewrite (le_decode_digit _ _ _ Hx).
  rewrite le_decode_encode, (Z.mod_small v) by exact Hv. reflexivity.
Qed.

Lemma rd_whole : forall n b pos v, in_memory b -> 0 <= pos -> (1 <= n)%nat ->
  whole (b_diffs b) (gs_len (b_bytes b)) pos (Z.of_nat n) ->
  holds_uint (content b) pos n v -> rd n b pos = Ok v.
Proof.
  intros n b pos v Hb Hp Hn Hw Hv. unfold rd.
  destruct (whole_read b pos (Z.of_nat n) (Z.of_nat n) Hb Hp ltac:(lia) ltac:(lia) Hw) as (s & -> & HL & HG).
  cbn [bind opt_data]. unfold get_le. unfold gs_len, zlen in HL.
  destruct (length (sl_data s) <? n)%nat eqn:E; [apply Nat.ltb_lt in E; lia|].
  f_equal. eapply holds_uint_list; eauto.
Qed.

(** ** Scalars *)

Lemma pow2_256 : forall n, 2 ^ (8 * Z.of_nat n) = 256 ^ Z.of_nat n.
Proof. intros. symmetry. apply pow256_pow2. Qed.

Lemma scalar_bytes_len : forall t v, zlen (scalar_bytes t v) = Z.of_nat (width t).
Proof. intros; apply zlen_le_encode. Qed.

Lemma scalar_get_app : forall t v l, in_range t v ->
  scalar_get t (scalar_bytes t v ++ l) = Ok v.
Proof.
  intros t v l H. unfold scalar_get, get_le, scalar_bytes.
  rewrite app_length, length_le_encode.
  destruct (width t + length l <? width t)%nat eqn:E; [apply Nat.ltb_lt in E; lia|].
  cbn [bind]. rewrite firstn_app, length_le_encode, Nat.sub_diag, firstn_O, app_nil_r.
  rewrite firstn_all2 by (rewrite length_le_encode; lia).
  rewrite le_decode_encode, <- pow2_256.
  rewrite Zmod_mod. f_equal.
  destruct t; cbn [width is_signed in_range] in *; unfold to_signed;
    change (2 ^ (8 * Z.of_nat 1)) with 256; change (2 ^ (8 * Z.of_nat 2)) with 65536;
    change (2 ^ (8 * Z.of_nat 4)) with 4294967296;
    change (2 ^ (8 * Z.of_nat 8)) with 18446744073709551616;
    change (2 ^ (8 * Z.of_nat 1 - 1)) with 128; change (2 ^ (8 * Z.of_nat 2 - 1)) with 32768;
    change (2 ^ (8 * Z.of_nat 4 - 1)) with 2147483648;
    change (2 ^ (8 * Z.of_nat 8 - 1)) with 9223372036854775808;
    try (rewrite Z.mod_small by lia; reflexivity);
    try (destruct (Z.lt_ge_cases v 0);
         [rewrite <- (Z_mod_plus_full v 1); rewrite Z.mod_small by lia|
          rewrite Z.mod_small by lia];
         match goal with |- (if ?c then _ else _) = _ => destruct c eqn:C end; lia).
Qed.

Lemma scalar_roundtrip : forall t v, in_range t v -> scalar_get t (scalar_bytes t v) = Ok v.
Proof. intros. rewrite <- (app_nil_r (scalar_bytes t v)). apply scalar_get_app; auto. Qed.

Lemma scalar_bytes_digits : forall t v, in_range t v ->
  zlen (scalar_bytes t v) = Z.of_nat (width t) /\
  forall k, 0 <= k < Z.of_nat (width t) -> exists x,
    zget (scalar_bytes t v) k = Some x /\ b2z x = (v / 256 ^ k) mod 256.
Proof.
  intros t v H. split; [apply scalar_bytes_len|]. intros k Hk.
  destruct (zget_some (scalar_bytes t v) k) as [x Hx]; [rewrite scalar_bytes_len; lia|].
  exists x. split; auto. rewrite (le_decode_digit _ _ _ Hx). unfold scalar_bytes.
  rewrite le_decode_encode, pow2_256, Zmod_mod.
  replace (Z.of_nat (width t)) with (k + (1 + (Z.of_nat (width t) - k - 1))) by lia.
  rewrite Z.pow_add_r by lia. rewrite Z.pow_add_r by lia. change (256 ^ 1) with 256.
  set (q := 256 ^ (Z.of_nat (width t) - k - 1)).
  assert (0 < q) by (apply Z.pow_pos_nonneg; lia).
  assert (0 < 256 ^ k) by (apply Z.pow_pos_nonneg; lia).
  rewrite Z.rem_mul_r by lia. rewrite (Z.mul_comm (256 ^ k)), Z_div_plus_full by lia.
  rewrite (Z.div_small (v mod 256 ^ k)) by (apply Z.mod_pos_bound; lia). rewrite Z.add_0_l.
  rewrite Z.rem_mul_r by lia. rewrite (Z.mul_comm 256), Z_mod_plus_full, Zmod_mod. reflexivity.
Qed.

Lemma scalar_decode_encode : forall t l v, t <> SBool -> length l = width t ->
  scalar_get t l = Ok v -> in_range t v /\ scalar_bytes t v = l.
Proof.
  intros t l v Ht HL H. unfold scalar_get, get_le in H.
  destruct (length l <? width t)%nat eqn:E; [apply Nat.ltb_lt in E; lia|]. cbn [bind] in H.
  rewrite firstn_all2 in H by lia. injection H as H.
  pose proof (le_decode_range l) as R. unfold zlen in R. rewrite HL in R.
  assert (HE : le_encode (width t) (le_decode l) = l) by (rewrite <- HL; apply le_encode_decode).
  assert (HM : scalar_bytes t v = le_encode (width t) (le_decode l)).
  { unfold scalar_bytes. rewrite pow2_256, le_encode_mod. rewrite <- H.
    rewrite <- (le_encode_mod (width t) (if is_signed t then _ else _)).
    rewrite <- (le_encode_mod (width t) (le_decode l)). f_equal.
    destruct (is_signed t) eqn:SG.
    - unfold to_signed. destruct (_ <? _); [reflexivity|]. rewrite pow2_256.
      rewrite <- (Z_mod_plus_full (le_decode l - _) 1). f_equal. lia.
    - destruct t; try reflexivity; congruence. }
  split; [|rewrite HM; exact HE].
  destruct t; cbn [width is_signed in_range] in *; unfold to_signed in H;
    repeat match type of R with context [256 ^ Z.of_nat ?n] =>
      let x := eval vm_compute in (256 ^ Z.of_nat n) in change (256 ^ Z.of_nat n) with x in R end;
    repeat match type of H with context [2 ^ ?e] =>
      let x := eval vm_compute in (2 ^ e) in change (2 ^ e) with x in H end;
    try (destruct (_ <? _) eqn:C in H); try lia; congruence.
Qed.

(** A buffer whose last entry is the one just written. *)
Lemma base_d_last : forall b off size nb b', base_d b off size nb = Ok b' ->
  exists ds, b_diffs b' = ds ++ [mkDiff off nb].
Proof.
  intros b off size nb b' H. unfold base_d in H.
  destruct (last_index (covers off) (b_diffs b)) as [sn|].
  - destruct (nth_error (b_diffs b) sn) as [d|]; [|discriminate].
    destruct (_ <=? _) in H.
    + injection H as <-. eexists; reflexivity.
    + destruct (gs_from _ _) as [a| |]; try discriminate. cbn [bind] in H.
      destruct (gs_upto _ _) as [c| |]; try discriminate. cbn [bind] in H.
      injection H as <-. eexists; reflexivity.
  - destruct (_ && _) in H.
    + destruct (gs_range _ _ _) as [c| |]; try discriminate. cbn [bind] in H.
      injection H as <-. cbn [set_diffs b_diffs].
      exists (b_diffs b ++ [mkDiff off c]). rewrite <- app_assoc. reflexivity.
    + injection H as <-. eexists; reflexivity.
Qed.

Lemma set_get : forall t b pos v, in_memory b -> 0 <= pos -> in_range t v ->
  exists b', set_scalar t t b pos (Z.of_nat (width t)) v = Ok (Some b') /\ in_memory b' /\
    get_scalar t b' pos = Ok v /\
    forall m, shows b m -> shows b' (img_write m pos (scalar_bytes t v)).
Proof.
  intros t b pos v Hb Hp Hv. unfold set_scalar.
  replace (scalar_eqb t t) with true by (destruct t; reflexivity). cbn [negb].
  assert (W : 1 <= Z.of_nat (width t)) by (destruct t; cbn; lia).
  destruct (Z.of_nat (width t) <=? 0) eqn:E; [lia|].
  destruct (u_frame b pos (scalar_bytes t v) Hb Hp) as (b' & EU & I & F).
  rewrite scalar_bytes_len in EU. rewrite EU. cbn [bind]. exists b'.
  split; [reflexivity|]. split; [exact I|]. split; [|exact F].
  unfold base_u in EU. rewrite scalar_bytes_len in EU.
  destruct (Z.of_nat (width t) <? 0) eqn:E1; [lia|].
  destruct (Z.of_nat (width t) <? Z.of_nat (width t)) eqn:E2; [lia|].
  destruct (base_d_last _ _ _ _ _ EU) as [ds ED].
  rewrite copy_at_full in ED by (rewrite scalar_bytes_len, zlen_zeros; lia).
  set (req := match t with SInt8 => 0 | _ => Z.of_nat (width t) end).
  assert (0 <= req) by (unfold req; destruct t; cbn; lia).
  destruct (base_r_spec b' pos req I Hp ltac:(auto)) as (s & ER & S).
  unfold get_scalar. fold req. rewrite ER. cbn [bind].
  rewrite ED, (find_last_hit _ (covers pos) ds (mkDiff pos (gs_of (scalar_bytes t v))) nil) in S.
  - cbn [d_off] in S. rewrite Z.sub_diag, zskip_0 in S. rewrite S.
    change (d_data (mkDiff pos (gs_of (scalar_bytes t v)))) with (scalar_bytes t v).
    apply scalar_roundtrip; auto.
  - unfold covers, d_len, gs_len; cbn [d_off d_sl gs_of sl_data]. rewrite scalar_bytes_len. lia.
  - reflexivity.
Qed.

Lemma from_get : forall t v, in_range t v ->
  exists b, from_scalar t v = Ok (Some b) /\ get_scalar t b 0 = Ok v /\
    delivers b 0 (scalar_bytes t v).
Proof.
  intros t v Hv. unfold from_scalar. cbv zeta.
  set (b0 := new_base (gs_of (zeros (Z.of_nat (width t))))).
  destruct (set_get t b0 0 v (in_memory_new _) ltac:(lia) Hv) as (b' & E & I & G & F).
  exists b'. split; [exact E|]. split; [exact G|].
  unfold set_scalar in E. replace (scalar_eqb t t) with true in E by (destruct t; reflexivity).
  cbn [negb] in E. assert (W : 1 <= Z.of_nat (width t)) by (destruct t; cbn; lia).
  destruct (Z.of_nat (width t) <=? 0) eqn:E0; [lia|].
  destruct (base_u b0 0 (Z.of_nat (width t)) (scalar_bytes t v)) as [b2| |] eqn:EU; try discriminate.
  cbn [bind] in E. injection E as ->. unfold base_u in EU. rewrite scalar_bytes_len in EU.
  destruct (Z.of_nat (width t) <? 0) eqn:E1; [lia|].
  destruct (Z.of_nat (width t) <? Z.of_nat (width t)) eqn:E2; [lia|].
  destruct (base_d_last _ _ _ _ _ EU) as [ds ED].
  rewrite copy_at_full in ED by (rewrite scalar_bytes_len, zlen_zeros; lia).
  unfold delivers. rewrite scalar_bytes_len.
  destruct (base_r_spec b' 0 (Z.of_nat (width t)) I ltac:(lia) ltac:(lia)) as (s & ER & S).
  rewrite ED, (find_last_hit _ (covers 0) ds (mkDiff 0 (gs_of (scalar_bytes t v))) nil) in S.
  - cbn [d_off] in S. rewrite Z.sub_diag, zskip_0 in S.
    change (d_data (mkDiff 0 (gs_of (scalar_bytes t v)))) with (scalar_bytes t v) in S.
    assert (HL : opt_len s = Z.of_nat (width t)) by (rewrite opt_len_data, S; apply scalar_bytes_len).
    destruct s as [x|]; [|cbn in HL; lia]. exists x. cbn [opt_len opt_data] in *.
    split; [exact ER|]. split; [lia|]. rewrite S.
    apply zfirst_all. rewrite scalar_bytes_len. lia.
  - unfold covers, d_len, gs_len; cbn [d_off d_sl gs_of sl_data]. rewrite scalar_bytes_len. lia.
  - reflexivity.
Qed.

Lemma set_struct_member : forall t b pos v, set_scalar t t b pos (-1) v = Ok None.
Proof. intros. unfold set_scalar. destruct (negb _); reflexivity. Qed.

(** ** Tables on buffers without journal *)

Lemma flat_content : forall b i, flat b -> content b i = img_bytes (sl_data (b_bytes b)) i.
Proof. intros b i [_ H]. unfold content. rewrite H. reflexivity. Qed.

Lemma flat_in_memory : forall b, flat b -> in_memory b.
Proof. intros b [H1 H2]. split; [auto|]. rewrite H2. constructor. Qed.

Lemma holds_uint_bound : forall l pos n v, (1 <= n)%nat ->
  holds_uint (img_bytes l) pos n v -> pos + Z.of_nat n <= zlen l.
Proof.
  intros l pos n v Hn [_ H]. destruct (H (Z.of_nat n - 1) ltac:(lia)) as (x & Hx & _).
  apply zget_some_range in Hx. lia.
Qed.

Lemma flat_rd : forall n b pos v, flat b -> 0 <= pos -> (1 <= n)%nat ->
  holds_uint (img_bytes (sl_data (b_bytes b))) pos n v -> rd n b pos = Ok v.
Proof.
  intros n b pos v Hf Hp Hn H. apply rd_whole; auto using flat_in_memory.
  - destruct Hf as [_ ->]. apply whole_flat. unfold gs_len. eapply holds_uint_bound; eauto.
  - eapply holds_uint_ext; [|exact H]. intros. rewrite flat_content by auto. reflexivity.
Qed.

Lemma flat_len_buf : forall b, flat b -> len_buf b = gs_len (b_bytes b).
Proof. intros b [H1 H2]. unfold len_buf. rewrite H1, H2. reflexivity. Qed.

Lemma flat_vtable_pos : forall b pos soff es tl, flat b ->
  table_at (img_bytes (sl_data (b_bytes b))) pos soff es tl -> 0 <= soff ->
  vtable_pos b pos = Ok (pos - soff).
Proof.
  intros b pos soff es tl Hf [T1 T2 T3 T4 T5 T6] Hs. unfold vtable_pos.
  rewrite (flat_rd 4 b pos _ Hf ltac:(lia) ltac:(lia) T1). cbn [bind].
  rewrite Z.mod_small by lia. reflexivity.
Qed.

Lemma flat_virtual_table : forall b pos soff es tl i e, flat b ->
  table_at (img_bytes (sl_data (b_bytes b))) pos soff es tl -> 0 <= soff ->
  zget es i = Some e -> virtual_table b pos i = Ok (pos + e).
Proof.
  intros b pos soff es tl i e Hf T Hs Hi. pose proof T as [T1 T2 T3 T4 T5 T6].
  unfold virtual_table. rewrite (flat_vtable_pos b pos soff es tl Hf T Hs). cbn [bind].
  pose proof (zget_some_range _ _ _ Hi) as R. specialize (T6 i e Hi).
  pose proof (holds_uint_bound (sl_data (b_bytes b)) (pos - soff + 4 + 2 * i) 2 e ltac:(lia) T6) as B. rewrite flat_len_buf by auto.
  replace (pos - soff + 4 + i * 2) with (pos - soff + 4 + 2 * i) by lia.
  unfold gs_len. destruct (zlen _ <=? _) eqn:E; [lia|]. rewrite andb_false_r.
  rewrite (flat_rd 2 b (pos - soff + 4 + 2 * i) e Hf ltac:(lia) ltac:(lia) T6). reflexivity.
Qed.

Lemma conforming_access : forall b pos soff es tl, flat b ->
  table_at (img_bytes (sl_data (b_bytes b))) pos soff es tl -> 0 <= soff ->
  virtual_table_len b pos = Ok (4 + 2 * zlen es) /\
  table_len b pos = Ok tl /\
  forall i e, zget es i = Some e ->
    virtual_table b pos i = Ok (pos + e) /\
    virtual_table_is_zero b pos i = Ok (e =? 0) /\
    (e = 0 -> table_ref b pos i = Ok (-1)) /\
    (forall o, e <> 0 -> holds_uint (img_bytes (sl_data (b_bytes b))) (pos + e) 4 o ->
       table_ref b pos i = Ok (pos + e + o)).
Proof.
  intros b pos soff es tl Hf T Hs. pose proof T as [T1 T2 T3 T4 T5 T6].
  pose proof (flat_vtable_pos b pos soff es tl Hf T Hs) as V.
  split; [|split].
  - unfold virtual_table_len. rewrite V. cbn [bind]. apply flat_rd; auto; lia.
  - unfold table_len. rewrite V. cbn [bind]. apply flat_rd; auto; lia.
  - intros i e Hi. pose proof (flat_virtual_table b pos soff es tl i e Hf T Hs Hi) as VT.
    assert (VZ : virtual_table_is_zero b pos i = Ok (e =? 0)).
    { unfold virtual_table_is_zero. rewrite VT. cbn [bind]. f_equal.
      destruct (e =? 0) eqn:X; lia. }
    split; [exact VT|]. split; [exact VZ|]. split.
    + intros ->. unfold table_ref. rewrite VT, VZ. reflexivity.
    + intros o He Ho. unfold table_ref. rewrite VT, VZ. cbn [bind].
      replace (e =? 0) with false by lia. destruct (T6 i e Hi) as [He0 _].
      rewrite (flat_rd 4 b (pos + e) o Hf ltac:(lia) ltac:(lia) Ho). reflexivity.
Qed.

Lemma unknown_past_end : forall b pos soff es tl i, flat b -> b_check b = true ->
  table_at (img_bytes (sl_data (b_bytes b))) pos soff es tl -> 0 <= soff ->
  gs_len (b_bytes b) <= pos - soff + 4 + 2 * i -> virtual_table_is_zero b pos i = Ok true.
Proof.
  intros b pos soff es tl i Hf Hc T Hs Hi. unfold virtual_table_is_zero, virtual_table.
  rewrite (flat_vtable_pos b pos soff es tl Hf T Hs). cbn [bind].
  rewrite Hc, flat_len_buf by auto.
  replace (gs_len (b_bytes b) <=? pos - soff + 4 + i * 2) with true by lia.
  cbn [andb bind]. rewrite Z.eqb_refl. reflexivity.
Qed.

Lemma vector_access : forall b pos soff es tl i e o n, flat b ->
  table_at (img_bytes (sl_data (b_bytes b))) pos soff es tl -> 0 <= soff ->
  zget es i = Some e -> 0 < e ->
  holds_uint (img_bytes (sl_data (b_bytes b))) (pos + e) 4 o ->
  holds_uint (img_bytes (sl_data (b_bytes b))) (pos + e + o) 4 n ->
  value_info_pos_list b pos i = Ok (Some (pos + e + o + 4, n)).
Proof.
  intros b pos soff es tl i e o n Hf T Hs Hi He Ho Hn.
  destruct (conforming_access b pos soff es tl Hf T Hs) as (_ & _ & A).
  destruct (A i e Hi) as (VT & VZ & _). pose proof T as [T1 T2 T3 T4 T5 T6].
  unfold value_info_pos_list. rewrite VT, VZ. cbn [bind]. replace (e =? 0) with false by lia.
  rewrite (flat_rd 4 b (pos + e) o Hf ltac:(lia) ltac:(lia) Ho). cbn [bind].
  destruct Ho as [Ho _].
  rewrite (flat_rd 4 b (pos + e + o) n Hf ltac:(lia) ltac:(lia) Hn). reflexivity.
Qed.

Lemma string_access : forall b pos soff es tl e o l, flat b ->
  table_at (img_bytes (sl_data (b_bytes b))) pos soff es tl -> 0 <= soff ->
  zget es 0 = Some e -> 0 < e ->
  holds_uint (img_bytes (sl_data (b_bytes b))) (pos + e) 4 o ->
  holds_uint (img_bytes (sl_data (b_bytes b))) (pos + e + o) 4 (zlen l) ->
  slice_of_image (img_bytes (sl_data (b_bytes b))) (pos + e + o + 4) l ->
  (l <> nil -> pos + e + o + 4 + zlen l <= gs_len (b_bytes b)) ->
  fbs_string b pos = Ok l.
Proof.
  intros b pos soff es tl e o l Hf T Hs Hi He Ho Hn Hl Hb.
  pose proof (flat_virtual_table b pos soff es tl 0 e Hf T Hs Hi) as VT.
  pose proof T as [T1 T2 T3 T4 T5 T6]. unfold fbs_string. rewrite VT. cbn [bind].
  rewrite (flat_rd 4 b (pos + e) o Hf ltac:(lia) ltac:(lia) Ho). cbn [bind].
  destruct Ho as [Ho _].
  rewrite (flat_rd 4 b (pos + e + o) _ Hf ltac:(lia) ltac:(lia) Hn). cbn [bind].
  set (p := pos + e + o + 4) in *. assert (Hp : 0 <= p) by lia.
  destruct l as [|x l'].
  - rewrite zlen_nil.
    destruct (base_r_spec b p 0 (flat_in_memory _ Hf) Hp ltac:(lia)) as (s & -> & _).
    cbn [bind]. destruct s as [s|]; [|reflexivity].
    unfold gs_upto. pose proof (gs_cap_ge s). pose proof (gs_len_nonneg s).
    rewrite gs_range_ok by lia. cbn [bind sl_data]. rewrite zskip_0. reflexivity.
  - set (l := x :: l') in *. assert (HL : 1 <= zlen l).
    { unfold l. rewrite zlen_cons. pose proof (zlen_nonneg l'). lia. }
    specialize (Hb ltac:(discriminate)).
    destruct (whole_read b p (zlen l) (zlen l) (flat_in_memory _ Hf) Hp HL ltac:(lia)) as (s & -> & HLs & HG).
    { destruct Hf as [_ ->]. apply whole_flat. lia. }
    cbn [bind]. unfold gs_upto. pose proof (gs_cap_ge s).
    rewrite gs_range_ok by lia. cbn [bind sl_data]. rewrite zskip_0. f_equal.
    apply zget_ext. intros k. rewrite zget_zfirst, zget_app.
    destruct (k <? zlen l) eqn:K.
    + replace (k <? zlen (sl_data s)) with true by (unfold gs_len in HLs; lia).
      destruct (Z.lt_ge_cases k 0).
      * rewrite !zget_neg by auto. reflexivity.
      * rewrite HG by lia. rewrite flat_content by auto. symmetry. apply Hl. lia.
    + symmetry. apply zget_ge. lia.
Qed.

(** ** Structs and lengths *)

Lemma struct_field_pos_sum : forall sizes pos i, struct_field_pos pos sizes i = pos + offset_of sizes i.
Proof.
  unfold offset_of, sum_z. induction sizes as [|n sizes IH]; intros pos [|i]; cbn [struct_field_pos firstn fold_right]; try lia.
  rewrite IH. lia.
Qed.

Lemma sum_z_app : forall a b, sum_z (a ++ b) = sum_z a + sum_z b.
Proof. unfold sum_z. induction a; intros; cbn [app fold_right]; [lia|rewrite IHa; lia]. Qed.

Lemma sum_z_nonneg : forall l, Forall (fun n => 0 <= n) l -> 0 <= sum_z l.
Proof. unfold sum_z. induction l; intros H; cbn [fold_right]; [lia|inversion H; subst; specialize (IHl ltac:(auto)); lia]. Qed.

Lemma offset_step : forall sizes i n, nth_error sizes i = Some n ->
  offset_of sizes (S i) = offset_of sizes i + n.
Proof.
  unfold offset_of. induction sizes as [|x sizes IH]; intros [|i] n H; cbn [nth_error] in H; try discriminate.
  - injection H as ->. unfold sum_z. cbn [firstn fold_right]. lia.
  - specialize (IH i n H). unfold sum_z in *. cbn [firstn fold_right] in *. lia.
Qed.

Lemma Forall_firstn_z : forall (P : Z -> Prop) l n, Forall P l -> Forall P (firstn n l).
Proof. intros P l. induction l; intros [|n] H; cbn; auto. inversion H; subst. auto. Qed.
Lemma Forall_skipn_z : forall (P : Z -> Prop) l n, Forall P l -> Forall P (skipn n l).
Proof. intros P l. induction l; intros [|n] H; cbn; auto. inversion H; subst. auto. Qed.

Lemma offset_mono : forall sizes i j, Forall (fun n => 0 <= n) sizes -> (i <= j)%nat ->
  offset_of sizes i <= offset_of sizes j.
Proof.
  intros sizes i j H Hij. unfold offset_of.
  assert (E : firstn i sizes = firstn i (firstn j sizes)) by (rewrite firstn_firstn; f_equal; lia).
  rewrite E. rewrite <- (firstn_skipn i (firstn j sizes)) at 2. rewrite sum_z_app.
  pose proof (sum_z_nonneg (skipn i (firstn j sizes))
    (Forall_skipn_z _ _ _ (Forall_firstn_z _ _ _ H))). lia.
Qed.

Lemma offset_all : forall sizes, offset_of sizes (length sizes) = struct_size sizes.
Proof. intros. unfold offset_of, struct_size. rewrite firstn_all. reflexivity. Qed.

Lemma struct_fields_disjoint : forall sizes pos i j ni nj,
  Forall (fun n => 0 <= n) sizes -> i <> j ->
  nth_error sizes i = Some ni -> nth_error sizes j = Some nj ->
  (struct_field_pos pos sizes i = pos + offset_of sizes i /\
   pos <= struct_field_pos pos sizes i /\
   struct_field_pos pos sizes i + ni <= pos + struct_size sizes) /\
  (struct_field_pos pos sizes i + ni <= struct_field_pos pos sizes j \/
   struct_field_pos pos sizes j + nj <= struct_field_pos pos sizes i).
Proof.
  intros sizes pos i j ni nj H Hij Hi Hj. rewrite !struct_field_pos_sum.
  pose proof (offset_step _ _ _ Hi) as Si. pose proof (offset_step _ _ _ Hj) as Sj.
  assert (Li : (i < length sizes)%nat) by (apply nth_error_Some; congruence).
  pose proof (offset_mono sizes 0 i H ltac:(lia)) as M0.
  change (offset_of sizes 0) with 0 in M0.
  pose proof (offset_mono sizes (S i) (length sizes) H ltac:(lia)) as M1. rewrite offset_all in M1.
  split; [lia|].
  destruct (Nat.lt_ge_cases i j).
  - left. pose proof (offset_mono sizes (S i) j H ltac:(lia)). lia.
  - right. pose proof (offset_mono sizes (S j) i H ltac:(lia)). lia.
Qed.

Lemma format_offset_agree : forall sizes start, Forall (fun n => 0 < n) sizes ->
  ((forall i, (i < length sizes)%nat -> struct_field_pos start sizes i = format_offset start sizes i)
   <-> (forall i n, nth_error sizes i = Some n -> (start + offset_of sizes i) mod n = 0)).
Proof.
  induction sizes as [|n sizes IH]; intros start H.
  - split; intros _ i; [intros n Hn; destruct i; discriminate|cbn; lia].
  - inversion H as [|? ? Hn H']; subst.
    assert (Hhere : start = - (- start / n) * n <-> start mod n = 0).
    { pose proof (Z.div_mod (- start) n ltac:(lia)) as D. split; intros E.
      - assert (E2 : (- start) mod n = 0) by nia.
        rewrite <- (Z.opp_involutive start). apply Z_mod_zero_opp_full; auto.
      - assert ((- start) mod n = 0) by (apply Z_mod_zero_opp_full; auto). nia. }
    split.
    + intros A. pose proof (A 0%nat ltac:(cbn; lia)) as A0. cbn [struct_field_pos format_offset] in A0.
      assert (B : forall i n0, nth_error sizes i = Some n0 -> (start + n + offset_of sizes i) mod n0 = 0).
      { apply (IH (start + n) H'). intros i Hi. specialize (A (S i) ltac:(cbn; lia)).
        cbn [struct_field_pos format_offset] in A. rewrite <- A0 in A. exact A. }
      intros [|i] m Hm; cbn [nth_error] in Hm.
      * injection Hm as <-. unfold offset_of, sum_z. cbn [firstn fold_right].
        rewrite Z.add_0_r. apply Hhere; auto.
      * specialize (B i m Hm). unfold offset_of, sum_z in *. cbn [firstn fold_right].
        rewrite Z.add_assoc. exact B.
    + intros A. pose proof (A 0%nat n eq_refl) as A0. unfold offset_of, sum_z in A0.
      cbn [firstn fold_right] in A0. rewrite Z.add_0_r in A0. apply Hhere in A0.
      assert (B : forall i, (i < length sizes)%nat ->
                struct_field_pos (start + n) sizes i = format_offset (start + n) sizes i).
      { apply (IH (start + n) H'). intros i m Hm. specialize (A (S i) m Hm).
        unfold offset_of, sum_z in *. cbn [firstn fold_right] in A. rewrite Z.add_assoc in A. exact A. }
      intros [|i] Hi; cbn [struct_field_pos format_offset]; [exact A0|].
      rewrite <- A0. apply B. cbn in Hi. lia.
Qed.

Lemma node_len_round : forall pos size, 0 <= pos + size ->
  node_len pos size mod 8 = 0 /\ pos + size <= node_len pos size < pos + size + 8.
Proof.
  intros pos size H. unfold node_len. rewrite Z.rem_mod_nonneg by lia.
  pose proof (Z.div_mod (pos + size) 8 ltac:(lia)). pose proof (Z.mod_pos_bound (pos + size) 8 ltac:(lia)).
  destruct ((pos + size) mod 8 =? 0) eqn:E; [lia|]. split; [|lia].
  replace (pos + size + (8 - (pos + size) mod 8)) with (((pos + size) / 8 + 1) * 8) by lia.
  apply Z_mod_mult.
Qed.
