(** Headers of separated vectors. *)
From Coq Require Import ZArith List Bool Lia.
From Coq Require Import Strings.Byte.
From Verif Require Import GoLib BaseModel GoLemmas BaseSpec BaseProofs BaseProofs2 BaseProofs3.
From Verif Require Import TableModel TableSpec TableProofs TableProofs2 ListModel ListSpec.
From Verif Require Import ListProofs ListProofs2 ListProofs3 ListProofs4 ListProofs5.
From Verif Require Import AddModel AddSpec AddProofs AddProofs2 AddProofs3 AddProofs4 AddProofs5 AddProofs7.
From Verif Require Import SepModel SepSpec.
Import ListNotations.
Open Scope Z_scope.

(** ** Files *)

Lemma stored_end : forall l p, stored l p (zlen l) = l ++ p.
Proof.
  intros l p. unfold stored. destruct (zlen p =? 0) eqn:E.
  - destruct p as [|x p]; [rewrite app_nil_r; reflexivity|]. rewrite zlen_cons in E. pose proof (zlen_nonneg p). lia.
  - rewrite Z.sub_diag. change (zeros 0) with (@nil byte). rewrite app_nil_r, zfirst_all by lia.
    pose proof (zlen_nonneg p). rewrite zskip_all by lia. rewrite app_nil_r. reflexivity.
Qed.

(** ** What one read gives is the content, when no entry begins or ends inside *)

Lemma served_over : forall ds bs c q,
  (forall d, In d ds -> (d_off d <= c \/ c + zlen q <= d_off d) /\
                        (d_off d + d_len d <= c \/ c + zlen q <= d_off d + d_len d)) ->
  0 <= c -> served ds bs c q -> forall i, 0 <= i < zlen q -> over ds (img_bytes bs) (c + i) = zget q i.
Proof.
  intros ds bs c q H Hc HS i Hi. unfold over. unfold served in HS.
  assert (E : find_last (covers (c + i)) ds = find_last (covers c) ds).
  { clear HS. induction ds as [|d ds IH]; [reflexivity|]. cbn [find_last].
    rewrite IH by (intros e He; apply H; right; exact He).
    destruct (find_last (covers c) ds); [reflexivity|].
    specialize (H d (or_introl eq_refl)). unfold covers.
    replace ((d_off d <=? c + i) && (c + i <? d_off d + d_len d)) with ((d_off d <=? c) && (c <? d_off d + d_len d)) by lia.
    reflexivity. }
  rewrite E. destruct (find_last (covers c) ds) as [d|] eqn:F.
  - destruct HS as [H1 H2]. apply find_last_some in F as [_ F]. apply covers_iff in F.
    rewrite <- H2, zget_zfirst, zget_zskip by lia.
    replace (i <? zlen q) with true by lia. replace (i <? 0) with false by lia. f_equal. lia.
  - destruct HS as (_ & H1 & H2). rewrite <- H2, zget_zfirst, zget_zskip by lia.
    replace (i <? zlen q) with true by lia. replace (i <? 0) with false by lia. unfold img_bytes. reflexivity.
Qed.

Lemma word_content : forall b n s j q, in_memory b -> Forall (shp n s) (b_diffs b) -> 0 <= j <= n ->
  zlen q = 4 -> delivers b (4 * j) q -> forall i, 0 <= i < 4 -> content b (4 * j + i) = zget q i.
Proof.
  intros b n s j q Hb HF Hj Hq HD i Hi. apply delivers_served in HD; auto; try lia.
  apply (served_over (b_diffs b)); auto; try lia. intros d Hd. rewrite Forall_forall in HF.
  rewrite Hq. destruct (HF d Hd) as [(j1 & k1 & H1 & H2 & H3 & H4)|H]; lia.
Qed.

(** The data behind the slots. *)
Lemma tail_content : forall b n s c q, in_memory b -> Forall (shp n s) (b_diffs b) ->
  no_inner_start (tail n (b_diffs b)) -> 0 <= n -> 4 + 4 * n <= c -> 1 <= zlen q ->
  delivers b c q -> forall i, 0 <= i < zlen q -> content b (c + i) = zget q i.
Proof.
  intros b n s c q Hb HF HC Hn Hc Hq HD i Hi.
  assert (E : forall x, 4 + 4 * n <= x -> find_last (covers x) (b_diffs b) = find_last (covers x) (tail n (b_diffs b))).
  { intros x Hx. clear HC HD Hb. induction (b_diffs b) as [|d ds IH]; [reflexivity|].
    inversion HF; subst. unfold tail in *. cbn [filter find_last]. rewrite IH by assumption.
    destruct (4 + 4 * n <=? d_off d) eqn:X; [reflexivity|].
    assert (C : covers x d = false).
    { unfold covers. match goal with H : shp _ _ d |- _ => destruct H as [(j1 & k1 & H1 & H2' & H3' & H4)|H] end; lia. }
    rewrite C. match goal with |- match ?f with _ => _ end = _ => destruct f end; reflexivity. }
  set (b' := set_diffs b (tail n (b_diffs b))).
  assert (Hb' : in_memory b').
  { destruct Hb as [R F]. split; [exact R|]. unfold b'; cbn [set_diffs b_diffs].
    apply Forall_forall. intros d Hd. apply filter_In in Hd as [Hd _]. rewrite Forall_forall in F. auto. }
  assert (HD' : delivers b' c q).
  { apply delivers_served in HD; auto; try lia. apply delivers_served; auto; try lia.
    unfold b'; cbn [set_diffs b_diffs b_bytes]. unfold served in *. rewrite <- E by lia.
    destruct (find_last (covers c) (b_diffs b)); [exact HD|]. destruct HD as [H1 H2]. split; [|exact H2].
    intros d Hd. apply filter_In in Hd as [Hd _]. auto. }
  transitivity (content b' (c + i)).
  - unfold content, over, b'. cbn [set_diffs b_diffs b_bytes]. rewrite <- E by lia. reflexivity.
  - symmetry. apply (delivers_content b' c q); auto. lia.
Qed.

Lemma flat_gives : forall b c q, flat b -> 0 <= c ->
  (forall i, 0 <= i < zlen q -> zget (sl_data (b_bytes b)) (c + i) = zget q i) -> 1 <= zlen q -> delivers b c q.
Proof.
  intros b c q F Hc H Hq. assert (L : c + zlen q <= zlen (sl_data (b_bytes b))).
  { destruct (zget_some q (zlen q - 1) ltac:(lia)) as [x Hx]. rewrite <- H in Hx by lia.
    apply zget_some_range in Hx. lia. }
  apply flat_delivers; auto. apply zget_ext. intros i. rewrite zget_zfirst, zget_zskip by lia.
  destruct (i <? zlen q) eqn:E.
  - destruct (i <? 0) eqn:E2; [apply zget_neg; lia|]. symmetry. apply H. lia.
  - apply zget_ge. lia.
Qed.

Lemma flat_given : forall b c q, flat b -> 0 <= c -> 1 <= zlen q -> delivers b c q ->
  forall i, 0 <= i < zlen q -> zget (sl_data (b_bytes b)) (c + i) = zget q i.
Proof.
  intros b c q F Hc Hq HD i Hi. change (img_bytes (sl_data (b_bytes b)) (c + i) = zget q i).
  rewrite <- (flat_content b (c + i) F). symmetry.
  apply (delivers_content b c q); auto using flat_in_memory. destruct F as [_ ->]. apply clean_nil.
Qed.

(** ** Headers *)

Section Header.
Variable ks : list fkind.
Notation V := (vtable_size ks).

(** Where block number [i] begins in the data. *)
Definition starts (bl : list (list byte)) (i : Z) : Z := zlen (concat (zfirst i bl)).

(** The block of bytes of a table. *)
Definition good (e : base * Z * Z) (q : list byte) : Prop :=
  let '(src, sp, s) := e in
  self_contained ks src sp s /\ zlen q = V + s /\ same_reads src sp (new_base (gs_of q)) V (- V) s.

Record hinv (b : base) (bl : list (list byte)) : Prop := {
  hi_mem : in_memory b;
  hi_bytes : exists m, gs_len (b_bytes b) = 4 * m /\ 1 <= m <= zlen bl + 1;
  hi_shape : Forall (shp (zlen bl) (4 * zlen bl)) (b_diffs b);
  hi_max : 4 * zlen bl + zlen (concat bl) < 4294967296 - 4;
  hi_count : rd 4 b 0 = Ok (zlen bl);
  hi_slot : forall i, 0 <= i < zlen bl -> rd 4 b (4 + i * 4) = Ok (4 * (zlen bl - i) + starts bl i + V)
}.

Lemma starts_app : forall bl bm i, 0 <= i <= zlen bl -> starts (bl ++ bm) i = starts bl i.
Proof. intros. unfold starts. rewrite zfirst_app_le by lia. reflexivity. Qed.

Lemma starts_all : forall bl, starts bl (zlen bl) = zlen (concat bl).
Proof. intros. unfold starts. rewrite zfirst_all by lia. reflexivity. Qed.

Lemma starts_behind : forall bl bm i, 0 <= i -> starts (bl ++ bm) (zlen bl + i) = zlen (concat bl) + starts bm i.
Proof.
  intros. unfold starts. assert (E : zfirst (zlen bl + i) (bl ++ bm) = bl ++ zfirst i bm).
  { apply zget_ext. intros j. rewrite zget_zfirst, !zget_app, zget_zfirst.
    destruct (j <? zlen bl) eqn:A; destruct (j <? zlen bl + i) eqn:B; try lia; try reflexivity.
    - replace (j - zlen bl <? i) with true by lia. reflexivity.
    - replace (j - zlen bl <? i) with false by lia. reflexivity. }
  rewrite E, concat_app, zlen_app. reflexivity.
Qed.

Lemma starts_nonneg : forall bl i, 0 <= starts bl i.
Proof. intros. apply zlen_nonneg. Qed.

Lemma starts_next : forall bl i q, zget bl i = Some q -> starts bl (i + 1) = starts bl i + zlen q.
Proof.
  intros bl i q H. pose proof (zget_some_range _ _ _ H) as R. unfold starts.
  assert (E : zfirst (i + 1) bl = zfirst i bl ++ [q]).
  { apply zget_ext. intros j. rewrite zget_zfirst, zget_app, zlen_zfirst, zget_zfirst, zget_cons, zget_nil.
    destruct (Z_lt_dec j i) as [A|A].
    - replace (j <? i + 1) with true by lia. replace (j <? Z.max 0 (Z.min i (zlen bl))) with true by lia.
      replace (j <? i) with true by lia. reflexivity.
    - replace (j <? Z.max 0 (Z.min i (zlen bl))) with false by lia. destruct (Z.eq_dec j i) as [->|B].
      + replace (i <? i + 1) with true by lia. replace (i - Z.max 0 (Z.min i (zlen bl)) =? 0) with true by lia. exact H.
      + replace (j <? i + 1) with false by lia. replace (j - Z.max 0 (Z.min i (zlen bl)) =? 0) with false by lia. reflexivity. }
  rewrite E, concat_app, zlen_app. cbn [concat]. rewrite app_nil_r. reflexivity.
Qed.

Lemma starts_le : forall bl i, starts bl i <= zlen (concat bl).
Proof.
  intros bl i. unfold starts. rewrite <- (firstn_skipn (Z.to_nat i) bl) at 2. rewrite concat_app, zlen_app.
  pose proof (zlen_nonneg (concat (skipn (Z.to_nat i) bl))). unfold zfirst. lia.
Qed.

(** The bytes of a block are where it begins. *)
Lemma concat_get : forall bl i q j, zget bl i = Some q -> 0 <= j < zlen q ->
  zget (concat bl) (starts bl i + j) = zget q j.
Proof.
  induction bl as [|x bl IH]; intros i q j H Hj.
  - rewrite zget_nil in H. discriminate.
  - rewrite zget_cons in H. cbn [concat]. rewrite zget_app. destruct (i =? 0) eqn:E.
    + injection H as ->. assert (i = 0) by lia. subst i. change (starts (q :: bl) 0) with 0.
      replace (0 + j <? zlen q) with true by lia. reflexivity.
    + pose proof (zget_some_range _ _ _ H) as R.
      assert (S : starts (x :: bl) i = zlen x + starts bl (i - 1)).
      { replace i with (zlen [x] + (i - 1)) at 1 by (change (zlen [x]) with 1; lia).
        change (x :: bl) with ([x] ++ bl). rewrite starts_behind by lia. cbn [concat]. rewrite app_nil_r. reflexivity. }
      rewrite S. pose proof (starts_nonneg bl (i - 1)).
      replace (zlen x + starts bl (i - 1) + j <? zlen x) with false by lia.
      rewrite <- (IH (i - 1) q j H Hj). f_equal. lia.
Qed.

Lemma good_len : forall e q, good e q -> V + 4 <= zlen q /\ zlen q = V + snd e.
Proof. intros [[src sp] s] q (SC & L & _). pose proof (sc_min _ _ _ _ SC). cbn [snd]. lia. Qed.

Lemma hinv_word : forall b bl j, hinv b bl -> 0 <= j <= zlen bl -> exists v, rd 4 b (4 * j) = Ok v.
Proof.
  intros b bl j I Hj. destruct (Z.eq_dec j 0) as [->|N]; [exists (zlen bl); exact (hi_count _ _ I)|].
  eexists. replace (4 * j) with (4 + (j - 1) * 4) by lia. apply (hi_slot _ _ I). lia.
Qed.

Lemma hinv_end : forall b bl, hinv b bl -> len_buf b = 4 + 4 * zlen bl.
Proof.
  intros b bl I. pose proof (zlen_nonneg bl) as HN. pose proof (hi_mem _ _ I) as M.
  destruct (hinv_word b bl (zlen bl) I ltac:(lia)) as [v Hv].
  destruct (delivers_rd 4 b _ v ltac:(lia) Hv) as [HD _].
  assert (Z4 : zlen (le_encode 4 v) = 4) by apply zlen_le_encode.
  assert (L : 4 * zlen bl + 3 < len_buf b).
  { destruct (Z_lt_dec (4 * zlen bl + 3) (len_buf b)) as [|N]; [auto|]. exfalso.
    pose proof (word_content b _ _ (zlen bl) _ M (hi_shape _ _ I) ltac:(lia) Z4 HD 3 ltac:(lia)) as C.
    rewrite content_ge_len in C by (auto; lia).
    destruct (zget_some (le_encode 4 v) 3 ltac:(lia)) as [x Hx]. congruence. }
  assert (U : len_buf b <= 4 + 4 * zlen bl).
  { rewrite len_buf_mem by auto. apply max_end_le.
    - destruct (hi_bytes _ _ I) as (m & -> & H). lia.
    - intros d Hd. pose proof (hi_shape _ _ I) as S. rewrite Forall_forall in S.
      destruct (S d Hd) as [(j1 & k1 & H1 & H2 & H3 & H4)|H]; lia. }
  lia.
Qed.

(** Flattening a header. *)
Lemma hinv_flatten : forall b bl, hinv b bl -> exists b', base_flatten b = Ok b' /\ hinv b' bl /\ flat b' /\
  zlen (sl_data (b_bytes b')) = 4 + 4 * zlen bl.
Proof.
  intros b bl I. pose proof (zlen_nonneg bl) as HN. pose proof (hi_mem _ _ I) as M.
  destruct (flatten_spec b M) as (l & E & EL & EG). rewrite (hinv_end b bl I) in EL, EG.
  eexists. split; [exact E|]. set (b' := mkBase _ _ _ _ _).
  assert (F : flat b') by (split; reflexivity).
  assert (W : forall j v, 0 <= j <= zlen bl -> rd 4 b (4 * j) = Ok v -> rd 4 b' (4 * j) = Ok v).
  { intros j v Hj Hv. destruct (delivers_rd 4 b _ v ltac:(lia) Hv) as [HD HR].
    assert (Z4 : zlen (le_encode 4 v) = 4) by apply zlen_le_encode.
    rewrite (rd_delivers 4 b' (4 * j) v ltac:(lia)); [f_equal; apply Z.mod_small; exact HR|].
    apply flat_gives; auto; try lia. intros i Hi. cbn [b' b_bytes gs_of sl_data]. rewrite EG. unfold img_fill.
    replace ((0 <=? 4 * j + i) && (4 * j + i <? 4 + 4 * zlen bl)) with true by lia.
    rewrite (word_content b _ _ j _ M (hi_shape _ _ I) Hj Z4 HD i) by lia.
    destruct (zget_some (le_encode 4 v) i Hi) as [x ->]. reflexivity. }
  split; [|split; [exact F|exact EL]].
  constructor.
  - apply BaseProofs2.flat_in_memory.
  - exists (zlen bl + 1). unfold gs_len. cbn [b' b_bytes gs_of sl_data]. lia.
  - constructor.
  - exact (hi_max _ _ I).
  - apply (W 0); [lia|]. exact (hi_count _ _ I).
  - intros i Hi. replace (4 + i * 4) with (4 * (i + 1)) by lia. apply W; [lia|].
    replace (4 * (i + 1)) with (4 + i * 4) by lia. apply (hi_slot _ _ I). exact Hi.
Qed.

Lemma Forall2_zget : forall A B (R : A -> B -> Prop) l l' i x, Forall2 R l l' -> zget l i = Some x ->
  exists y, zget l' i = Some y /\ R x y.
Proof.
  intros A B R l l' i x HF. revert i. induction HF as [|a b l l' H HF IH]; intros i Hi.
  - rewrite zget_nil in Hi. discriminate.
  - rewrite zget_cons in Hi. rewrite zget_cons. destruct (i =? 0); [injection Hi as ->; eauto|]. apply IH. exact Hi.
Qed.

Lemma Forall2_zlen : forall A B (R : A -> B -> Prop) l l', Forall2 R l l' -> zlen l = zlen l'.
Proof. intros A B R l l' H. induction H; [reflexivity|]. rewrite !zlen_cons. lia. Qed.

Lemma good_size : forall es bl, Forall2 good es bl -> appended_size ks es = 4 * zlen es + zlen (concat bl).
Proof.
  intros es bl H. induction H as [|[[src sp] s] q es bl H HF IH]; [reflexivity|].
  cbn [appended_size concat]. rewrite zlen_cons, zlen_app, IH. destruct H as (_ & -> & _). lia.
Qed.

(** Header and data make a vector. *)
Lemma hinv_shows : forall b bl es, hinv b bl -> flat b -> Forall2 good es bl ->
  zlen (sl_data (b_bytes b)) = 4 + 4 * zlen bl ->
  shows_tables ks (mkL (new_base (gs_of (sl_data (b_bytes b) ++ concat bl))) 4 4 (zlen es) 0) es.
Proof.
  intros b bl es I F HG HL. pose proof (Forall2_zlen _ _ _ _ _ HG) as LZ. pose proof (zlen_nonneg bl) as HN.
  set (w := new_base _). assert (FW : flat w) by (split; reflexivity).
  assert (W : forall j v, 0 <= j <= zlen bl -> rd 4 b (4 * j) = Ok v -> rd 4 w (4 * j) = Ok v).
  { intros j v Hj Hv. destruct (delivers_rd 4 b _ v ltac:(lia) Hv) as [HD HR].
    assert (Z4 : zlen (le_encode 4 v) = 4) by apply zlen_le_encode.
    rewrite (rd_delivers 4 w (4 * j) v ltac:(lia)); [f_equal; apply Z.mod_small; exact HR|].
    apply flat_gives; auto; try lia. intros i Hi. cbn [w new_base b_bytes gs_of sl_data]. rewrite zget_app.
    replace (4 * j + i <? zlen (sl_data (b_bytes b))) with true by lia.
    apply (flat_given b); auto; lia. }
  assert (HV : list_vlen (mkL w 4 4 (zlen es) 0) = Ok (zlen es)).
  { unfold list_vlen. cbn [l_io l_pos]. rewrite LZ. apply (W 0); [lia|]. exact (hi_count _ _ I). }
  split; [exact HV|]. intros i src sp s He. pose proof (zget_some_range _ _ _ He) as R.
  destruct (Forall2_zget _ _ _ _ _ i _ HG He) as (q & Hq & SC & LQ & SR).
  pose proof (V_ge ks) as HV4. pose proof (starts_nonneg bl i) as HS.
  set (t := 4 + 4 * zlen bl + starts bl i + V).
  assert (SW : same_reads src sp w t (- V) s).
  { intros k p Hk Hk2 Hp HR HD. specialize (SR k p Hk Hk2 Hp HR HD).
    apply flat_gives; auto; [unfold t; lia|]. intros j Hj. cbn [w new_base b_bytes gs_of sl_data]. rewrite zget_app, HL.
    replace (t + k + j <? 4 + 4 * zlen bl) with false by (unfold t; lia).
    replace (t + k + j - (4 + 4 * zlen bl)) with (starts bl i + (V + k + j)) by (unfold t; lia).
    rewrite (concat_get bl i q) by (auto; lia).
    apply (flat_given (new_base (gs_of q)) (V + k) p); auto; try (split; reflexivity); lia. }
  exists t. cbn [l_io]. split; [|split; [exact SW|]].
  - apply (cp_at ks src sp s w t SC SW) with (n := zlen es); auto. cbn [l_pos].
    replace (4 + i * 4) with (4 * (i + 1)) by lia.
    rewrite (W (i + 1) (4 * (zlen bl - i) + starts bl i + V)) by
      (try lia; replace (4 * (i + 1)) with (4 + i * 4) by lia; apply (hi_slot _ _ I); lia).
    f_equal. unfold t. lia.
  - intros j Hj. apply (cp_entry ks src sp s w t SC (TableProofs.flat_in_memory _ FW)); auto. unfold t. lia.
Qed.
End Header.
