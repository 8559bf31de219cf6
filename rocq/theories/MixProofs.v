(** Lemmas about copying between variants of buffers. *)
From Coq Require Import ZArith List Bool Lia.
From Coq Require Import ZifyBool ZifyNat.
From Coq Require Import Strings.Byte.
From Verif Require Import GoLib GoLemmas BaseModel BaseSpec BaseProofs BaseProofs2 BaseProofs3.
From Verif Require Import VariantModel VariantSpec VariantProofs VariantProofs2 MixModel MixSpec.
Import ListNotations.
Open Scope Z_scope.

(** ** Sources *)

(** What a read of a source gives *)
Definition serves (ms : image) (v : io) : Prop := forall off req, 0 <= off -> 1 <= req ->
  exists s, io_r v off req = Ok (v, s) /\ slice_of_image ms off (opt_data s) /\
    (opt_len s = 0 <-> ms off = None).

Lemma slice_head : forall m off l, slice_of_image m off l -> (zlen l = 0 <-> m off = None) -> hd_error l = m off.
Proof.
  intros m off [|x l] H E; cbn [hd_error].
  - symmetry. apply E. reflexivity.
  - assert (L : 0 <= 0 < zlen (x :: l)) by (rewrite zlen_cons; pose proof (zlen_nonneg l); lia).
    pose proof (H 0 L) as H0. rewrite Z.add_0_r in H0. exact H0.
Qed.

Lemma opt_len_data : forall s, opt_len s = zlen (opt_data s).
Proof. intros [s|]; reflexivity. Qed.

Lemma serves_ext : forall v m m', (forall i, 0 <= i -> m i = m' i) -> serves m v -> serves m' v.
Proof.
  intros v m m' E H off req Ho Hr. destruct (H off req Ho Hr) as (s & R & S & Z0). exists s. split; [exact R|].
  split; [intros k Hk; rewrite <- E by lia; apply S; exact Hk|rewrite <- E by lia; exact Z0].
Qed.

Lemma serves_shows : forall v ms, serves ms v -> io_shows v ms.
Proof.
  intros v ms H i Hi. destruct (H i 1 Hi ltac:(lia)) as (s & E & S & Z0). exists v, s. split; [exact E|].
  apply slice_head; [exact S|]. rewrite <- opt_len_data. exact Z0.
Qed.

Lemma io_shows_unique : forall v m m', io_shows v m -> io_shows v m' -> forall i, 0 <= i -> m i = m' i.
Proof.
  intros v m m' H H' i Hi. destruct (H i Hi) as (v1 & s1 & E1 & F1). destruct (H' i Hi) as (v2 & s2 & E2 & F2).
  congruence.
Qed.

Lemma base_serves : forall b off req, in_memory b -> reads_current b -> 0 <= off -> 1 <= req ->
  exists s, base_r b off req = Ok s /\ slice_of_image (content b) off (opt_data s) /\
    (opt_len s = 0 <-> content b off = None).
Proof.
  intros b off req HB HC Ho Hr. destruct (base_r_spec b off req HB Ho ltac:(lia)) as (s & E & _).
  exists s. split; [exact E|]. split.
  - apply (HC off req s (content b) Ho ltac:(lia) (shows_content b HB) E).
  - apply (base_r_empty_iff b off req s HB Ho ltac:(lia) E).
Qed.

Lemma readable_serves : forall v, readable v -> exists ms, serves ms v.
Proof.
  intros [b|b|b|b str] H; cbn [readable] in H.
  - destruct H as [HB HC]. exists (content b). intros off req Ho Hr.
    destruct (base_serves b off req HB HC Ho Hr) as (s & E & S). exists s. cbn [io_r]. rewrite E. auto.
  - destruct H as [HB HC]. exists (content b). intros off req Ho Hr.
    destruct (base_serves b off req HB HC Ho Hr) as (s & E & S). exists s. cbn [io_r].
    rewrite nl_r_base by auto. rewrite E. auto.
  - destruct H as (HB & HC & HS). exists (content b). intros off req Ho Hr.
    destruct (base_serves b off req HB HC Ho Hr) as (s & E & S). exists s. cbn [io_r]. unfold dl_r.
    rewrite HS. cbn [bind]. rewrite nl_r_base by auto. rewrite E. auto.
  - destruct H as (HB & HC & data & SH & LB). exists (continued data str). intros off req Ho Hr.
    destruct (dr_read b str data off req HB HC SH LB Ho ltac:(lia)) as (s & E & S & N). exists s.
    cbn [io_r]. rewrite E. split; [reflexivity|]. split; [exact S|]. rewrite opt_len_data. split.
    + intros L. unfold continued, img_bytes. apply zget_ge. rewrite zlen_app.
      destruct (Z_lt_dec off (zlen data + zlen str)) as [G|G]; [|lia]. elim (N G).
      destruct (opt_data s) as [|x l]; [reflexivity|]. rewrite zlen_cons in L. pose proof (zlen_nonneg l). lia.
    + intros L. destruct (opt_data s) as [|x l] eqn:D; [reflexivity|]. exfalso.
      assert (P : 0 <= 0 < zlen (x :: l)) by (rewrite zlen_cons; pose proof (zlen_nonneg l); lia).
      pose proof (S 0 P) as S0. rewrite Z.add_0_r, L in S0. discriminate S0.
Qed.

Lemma readable_shown : forall v ms, readable v -> io_shows v ms -> serves ms v.
Proof.
  intros v ms HR HS. destruct (readable_serves v HR) as [m0 H0]. apply (serves_ext v m0); [|exact H0].
  apply (io_shows_unique v); [apply serves_shows; exact H0|exact HS].
Qed.

(** ** The loop *)

(** Entries one behind the other from [o] to [o'] *)
Fixpoint chain (o : Z) (cs : list diff) (o' : Z) : Prop :=
  match cs with
  | [] => o' = o
  | c :: cs' => d_off c = o /\ 0 < d_len c /\ chain (o + d_len c) cs' o'
  end.

Lemma mix_loop_spec : forall fuel src ms srcOff size dstOff ptr ds,
  serves ms src -> 0 <= srcOff -> 0 <= dstOff ->
  srcOff <= ptr <= srcOff + size -> srcOff + size - ptr <= Z.of_nat fuel ->
  exists cs n, mix_loop fuel src srcOff size dstOff ptr ds = Ok (src, ds ++ cs) /\
    chain (dstOff + (ptr - srcOff)) cs (dstOff + n) /\
    ptr - srcOff <= n <= size /\
    (forall k, ptr - srcOff <= k < n -> ms (srcOff + k) <> None) /\
    (n = size \/ ms (srcOff + n) = None) /\
    forall m i, over (ds ++ cs) m i =
      if (dstOff + (ptr - srcOff) <=? i) && (i <? dstOff + n)
      then ms (srcOff + (i - dstOff)) else over ds m i.
Proof.
  induction fuel as [|fuel IH]; intros src ms srcOff size dstOff ptr ds Hs Hso Hdo Hp Hf.
  - cbn [mix_loop]. destruct (srcOff + size <=? ptr) eqn:E; [|lia].
    exists [], size. rewrite app_nil_r. split; [reflexivity|]. split; [cbn; lia|]. split; [lia|]. split; [intros; lia|].
    split; [auto|]. intros m i. destruct (_ && _) eqn:C; [lia|reflexivity].
  - cbn [mix_loop]. destruct (srcOff + size <=? ptr) eqn:E.
    { exists [], size. rewrite app_nil_r. split; [reflexivity|]. split; [cbn; lia|]. split; [lia|]. split; [intros; lia|].
      split; [auto|]. intros m i. destruct (_ && _) eqn:C; [lia|reflexivity]. }
    destruct (Hs ptr (size - (ptr - srcOff)) ltac:(lia) ltac:(lia)) as (s & ES & SI & HE).
    rewrite ES. cbn [bind].
    assert (Hstop : opt_len s = 0 -> exists cs n, Ok (src, ds) = Ok (src, ds ++ cs) /\
      chain (dstOff + (ptr - srcOff)) cs (dstOff + n) /\ ptr - srcOff <= n <= size /\
      (forall k, ptr - srcOff <= k < n -> ms (srcOff + k) <> None) /\
      (n = size \/ ms (srcOff + n) = None) /\
      forall m i, over (ds ++ cs) m i =
        if (dstOff + (ptr - srcOff) <=? i) && (i <? dstOff + n)
        then ms (srcOff + (i - dstOff)) else over ds m i).
    { intros Z0. exists [], (ptr - srcOff). rewrite app_nil_r. split; [reflexivity|]. split; [cbn; lia|]. split; [lia|].
      split; [intros; lia|]. split.
      - right. replace (srcOff + (ptr - srcOff)) with ptr by lia. apply HE; auto.
      - intros m i. destruct (_ && _) eqn:C; [lia|reflexivity]. }
    destruct s as [data|]; [|apply Hstop; reflexivity].
    destruct (gs_len data =? 0) eqn:E0; [apply Hstop; cbn; lia|]. clear Hstop HE.
    pose proof (gs_len_nonneg data) as Hd.
    assert (Hdata : exists data', (if size - (ptr - srcOff) <? gs_len data
                        then gs_upto data (size - (ptr - srcOff)) else Ok data) = Ok data' /\
      gs_len data' = Z.min (gs_len data) (size - (ptr - srcOff)) /\
      forall k, k < gs_len data' -> zget (sl_data data') k = zget (sl_data data) k).
    { destruct (size - (ptr - srcOff) <? gs_len data) eqn:E1.
      - pose proof (gs_cap_ge data). unfold gs_upto. rewrite gs_range_ok by lia.
        eexists; split; [reflexivity|]. unfold gs_len in *; cbn [sl_data].
        rewrite zskip_0, zfirst_app_le, zlen_zfirst by lia. split; [lia|].
        intros k Hk. rewrite zget_zfirst. destruct (k <? _) eqn:K; [reflexivity|lia].
      - exists data. split; [reflexivity|]. split; [lia|auto]. }
    destruct Hdata as (data' & -> & L' & G'). cbn [bind].
    assert (HG : forall k, 0 <= k < gs_len data' -> zget (sl_data data') k = ms (ptr + k)).
    { intros k Hk. rewrite G' by lia. apply SI. cbn. unfold gs_len in *. lia. }
    destruct (IH src ms srcOff size dstOff (ptr + gs_len data') (ds ++ [mkDiff (ptr - srcOff + dstOff) data'])
                Hs Hso Hdo ltac:(lia) ltac:(lia)) as (cs & n & E1 & E2 & E3 & E4 & E5 & E6).
    exists (mkDiff (ptr - srcOff + dstOff) data' :: cs), n.
    rewrite <- app_assoc in E1, E6. cbn [app] in E1, E6.
    split; [exact E1|]. split.
    { cbn [chain]. split; [cbn; lia|]. change (d_len (mkDiff (ptr - srcOff + dstOff) data')) with (gs_len data').
      split; [lia|]. replace (dstOff + (ptr - srcOff) + gs_len data') with (dstOff + (ptr + gs_len data' - srcOff)) by lia.
      exact E2. }
    split; [lia|]. split; [|split; [exact E5|]].
    + intros k Hk. destruct (Z_lt_dec k (ptr + gs_len data' - srcOff)) as [L|L]; [|apply E4; lia].
      replace (srcOff + k) with (ptr + (k - (ptr - srcOff))) by lia. rewrite <- HG by lia.
      destruct (zget_some (sl_data data') (k - (ptr - srcOff))) as [x ->]; [unfold gs_len in *; lia|discriminate].
    + intros m i. rewrite E6, over_app, over_one. cbn [d_off]. rewrite d_data_mk.
      destruct ((dstOff + (ptr + gs_len data' - srcOff) <=? i) && (i <? dstOff + n)) eqn:C1.
      * replace ((dstOff + (ptr - srcOff) <=? i) && (i <? dstOff + n)) with true by lia. reflexivity.
      * unfold img_write. fold (gs_len data').
        destruct ((ptr - srcOff + dstOff <=? i) && (i <? ptr - srcOff + dstOff + gs_len data')) eqn:C2.
        -- replace ((dstOff + (ptr - srcOff) <=? i) && (i <? dstOff + n)) with true by lia.
           rewrite HG by lia. f_equal; lia.
        -- replace ((dstOff + (ptr - srcOff) <=? i) && (i <? dstOff + n)) with false by lia. reflexivity.
Qed.

Lemma chain_starts : forall cs o o', 0 <= o -> chain o cs o' -> o <= o' /\ Forall (fun d => 0 <= d_off d) cs.
Proof.
  induction cs as [|c cs IH]; intros o o' H C; cbn [chain] in C.
  - subst. split; [lia|constructor].
  - destruct C as (A & B & C). destruct (IH (o + d_len c) o' ltac:(lia) C). split; [lia|]. constructor; [lia|assumption].
Qed.

(** ** The destination *)

Lemma mix_into_spec : forall b src ms srcOff size dstOff extend,
  in_memory b -> serves ms src -> 0 <= srcOff -> 0 <= size -> 0 <= dstOff -> 0 <= extend ->
  (extend = 0 \/ Forall (fun d => straddles dstOff d = false) (b_diffs b)) ->
  exists b' n pre cs, mix_into b src srcOff size dstOff extend = Ok (src, b') /\ in_memory b' /\
    defined_run ms srcOff size n /\
    (forall i, i < dstOff + n \/ dstOff + extend <= i ->
      content b' i = if (dstOff <=? i) && (i <? dstOff + n) then ms (srcOff + (i - dstOff))
                     else if i <? dstOff then content b i else content b (i - extend)) /\
    b' = set_diffs b (map (ins_shift dstOff extend) (pre ++ b_diffs b) ++ cs) /\
    chain dstOff cs (dstOff + n) /\
    (pre = [] \/ exists t, pre = [mkDiff dstOff t] /\ dstOff + gs_len t = gs_len (b_bytes b)).
Proof.
  intros b src ms srcOff size dstOff extend Hb Hs Hso Hsz Hdo He HS. pose proof Hb as [HR HF].
  unfold mix_into.
  assert (H0 : exists pre, (if dstOff <? gs_len (b_bytes b)
             then do t <- gs_from (b_bytes b) dstOff;
                  Ok (diffs_insert (b_diffs b) 0 [mkDiff dstOff t])
             else Ok (b_diffs b)) = Ok (pre ++ b_diffs b) /\
      Forall (fun d => 0 <= d_off d) pre /\
      Forall (fun d => straddles dstOff d = false) pre /\
      (forall i, over pre (img_bytes (sl_data (b_bytes b))) i = img_bytes (sl_data (b_bytes b)) i) /\
      (forall i, dstOff + extend <= i -> over pre (img_bytes (sl_data (b_bytes b))) (i - extend)
             = over (map (ins_shift dstOff extend) pre) (img_bytes (sl_data (b_bytes b))) i) /\
      (pre = [] \/ exists t, pre = [mkDiff dstOff t] /\ dstOff + gs_len t = gs_len (b_bytes b))).
  { destruct (dstOff <? gs_len (b_bytes b)) eqn:E.
    - rewrite gs_from_ok by lia. cbn [bind].
      exists [mkDiff dstOff (mkSlice (zskip dstOff (sl_data (b_bytes b))) (sl_spare (b_bytes b)))].
      split; [reflexivity|]. split; [constructor; [cbn; lia|constructor]|].
      split; [constructor; [unfold straddles; cbn [d_off]; lia|constructor]|].
      cbn [map]. unfold ins_shift. cbn [d_off]. rewrite Z.leb_refl.
      unfold gs_len in *. split; [|split].
      + intros i. rewrite over_one. unfold img_write. cbn [d_off]. rewrite d_data_mk. cbn [sl_data].
        rewrite zlen_zskip. destruct (_ && _) eqn:C; [|reflexivity].
        rewrite zget_zskip by lia. destruct (i - dstOff <? 0) eqn:D; [lia|].
        unfold img_bytes. f_equal; lia.
      + intros i Hi. rewrite !over_one. unfold img_write. cbn [d_off d_sl]. rewrite !d_data_mk. cbn [sl_data].
        rewrite zlen_zskip.
        destruct ((dstOff <=? i - extend) && _) eqn:C.
        * replace ((dstOff + extend <=? i) && (i <? dstOff + extend + Z.max 0 (zlen (sl_data (b_bytes b)) - Z.max 0 dstOff))) with true by lia.
          f_equal; lia.
        * replace ((dstOff + extend <=? i) && (i <? dstOff + extend + Z.max 0 (zlen (sl_data (b_bytes b)) - Z.max 0 dstOff))) with false by lia.
          unfold img_bytes. rewrite !zget_ge by lia. reflexivity.
      + right. eexists. split; [reflexivity|]. cbn [sl_data]. rewrite zlen_zskip. lia.
    - exists nil. split; [reflexivity|]. split; [constructor|]. split; [constructor|]. split; [reflexivity|].
      split; [|left; reflexivity].
      intros i Hi. cbn [map]. rewrite !over_nil. unfold img_bytes, gs_len in *. rewrite !zget_ge by lia. reflexivity. }
  destruct H0 as (pre & -> & P1 & P2 & P3 & P4 & P5). cbn [bind].
  change (fun d : diff => if dstOff <=? d_off d then mkDiff (d_off d + extend) (d_sl d) else d)
    with (ins_shift dstOff extend).
  destruct (mix_loop_spec (Z.to_nat size) src ms srcOff size dstOff srcOff
     (map (ins_shift dstOff extend) (pre ++ b_diffs b)) Hs Hso Hdo ltac:(lia) ltac:(lia))
    as (cs & n & E1 & E2 & E3 & E4 & E5 & E6).
  rewrite E1. cbn [bind]. replace (dstOff + (srcOff - srcOff)) with dstOff in * by lia.
  eexists; exists n, pre, cs. split; [reflexivity|]. split.
  { split; [exact HR|]. cbn [set_diffs b_diffs]. apply Forall_app. split; [|apply (chain_starts cs dstOff _ Hdo E2)].
    assert (X : Forall (fun d => 0 <= d_off d) (pre ++ b_diffs b)) by (apply Forall_app; auto).
    rewrite Forall_forall in *. intros x Hx. apply in_map_iff in Hx as (d & <- & Hd).
    unfold ins_shift. specialize (X d Hd). destruct (dstOff <=? d_off d); cbn; lia. }
  split.
  { split; [lia|]. split; [intros; apply E4; lia|exact E5]. }
  split; [|split; [reflexivity|split; [exact E2|exact P5]]].
  intros i Hi. unfold content at 1; cbn [set_diffs b_diffs b_bytes]. rewrite E6.
  destruct ((dstOff <=? i) && (i <? dstOff + n)) eqn:C; [reflexivity|].
  rewrite map_app, over_app. unfold content.
  destruct HS as [->|HS].
  - assert (X : forall l, map (ins_shift dstOff 0) l = l).
    { intros l. rewrite <- (map_id l) at 2. apply map_ext. intros [o sl]. unfold ins_shift; cbn.
      destruct (dstOff <=? o); [f_equal; lia|reflexivity]. }
    rewrite !X. replace (i - 0) with i by lia.
    destruct (i <? dstOff); apply over_ext; apply P3.
  - assert (HO := over_shift (b_diffs b) dstOff extend (img_bytes (sl_data (b_bytes b)))
       (over (map (ins_shift dstOff extend) pre) (img_bytes (sl_data (b_bytes b)))) i HS He).
    destruct HO as [HO1 HO2].
    + intros L. assert (HQ := over_shift pre dstOff extend (img_bytes (sl_data (b_bytes b)))
        (img_bytes (sl_data (b_bytes b))) i P2 He ltac:(reflexivity)).
      assert (HQ' : over (map (ins_shift dstOff extend) pre) (img_bytes (sl_data (b_bytes b))) i
                  = over pre (img_bytes (sl_data (b_bytes b))) i) by (apply HQ; lia).
      rewrite HQ'. apply P3.
    + intros L. rewrite <- P4 by lia. apply P3.
    + destruct (i <? dstOff) eqn:D; [apply HO1; lia|apply HO2; lia].
Qed.

Lemma no_shift : forall o l, map (ins_shift o 0) l = l.
Proof.
  intros o l. rewrite <- (map_id l) at 2. apply map_ext. intros [q sl]. unfold ins_shift; cbn.
  destruct (o <=? q); [f_equal; lia|reflexivity].
Qed.

Lemma chain_gap : forall cs o o' l1 s l2, chain o cs o' -> cs = l1 ++ s :: l2 ->
  o <= d_off s /\ forall i, o <= i < d_off s -> exists e, In e l1 /\ covers i e = true.
Proof.
  induction cs as [|c cs IH]; intros o o' l1 s l2 C E; [destruct l1; discriminate|].
  destruct C as (C1 & C2 & C3). destruct l1 as [|x l1]; injection E as <- E.
  - split; [lia|]. intros i Hi. lia.
  - destruct (IH _ _ _ _ _ C3 E) as [A B]. split; [lia|]. intros i Hi.
    destruct (Z_lt_dec i (o + d_len c)) as [L|L].
    + exists c. split; [left; reflexivity|]. apply covers_iff. lia.
    + destruct (B i ltac:(lia)) as (e & He & Ce). exists e. split; [right; exact He|exact Ce].
Qed.

(** Merging again changes nothing to be seen either. *)
Lemma dl_merge_again : forall b d l, in_memory b -> b_diffs b = d :: l -> gap_free d l ->
  exists b' d', dl_merge b = Ok b' /\ in_memory b' /\ b_diffs b' = d' :: l /\ gap_free d' l /\
    forall m, shows b m -> shows b' m.
Proof.
  intros b d l Hb E G. destruct (dl_merge_keeps b d l Hb E G) as (b' & M & Hb' & K).
  destruct l as [|e l].
  - exists b', d. unfold dl_merge in M. rewrite E in M. injection M as <-.
    split; [unfold dl_merge; rewrite E; reflexivity|]. auto.
  - destruct (merge_list_inv (e :: l) d [] d) as (d' & F & F1 & F2 & F3); [reflexivity|auto|auto| |].
    { intros l1 s l2 El. destruct (G l1 s l2 El). auto. }
    exists b', d'. split; [exact M|]. split; [exact Hb'|].
    unfold dl_merge in M. rewrite E in M. destruct Hb as [HR _]. rewrite HR in M.
    change (merge_list d []) with (Ok d) in M. cbn [bind tl] in M. rewrite F in M. cbn [bind] in M. injection M as <-.
    split; [reflexivity|]. split; [|exact K].
    intros l1 s l2 El. destruct (G l1 s l2 El) as [A B]. rewrite F1. split; [exact A|].
    intros i Hi. destruct (B i Hi) as (x & [<-|Hx] & Cx).
    + exists d'. split; [left; reflexivity|apply F2; exact Cx].
    + exists x. split; [right; exact Hx|exact Cx].
Qed.

Lemma double_shows : forall b d l m, in_memory b -> b_diffs b = d :: l -> gap_free d l -> shows b m -> io_shows (Double b) m.
Proof.
  intros b d l m HB E G S i Hi. destruct (dl_read_keeps b d l HB E G m i S Hi) as (b' & s & R & _ & V).
  exists (Double b'), s. cbn [io_r]. rewrite R. auto.
Qed.

Lemma plain_shows : forall b m, in_memory b -> (io_shows (Plain b) m <-> shows b m).
Proof.
  intros b m HB. split; intros H i Hi.
  - destruct (H i Hi) as (v & s & R & V). cbn [io_r] in R. unfold peek.
    destruct (base_r b i 1) as [s'| |]; cbn [bind] in *; try discriminate. injection R as _ <-. rewrite V. reflexivity.
  - pose proof (H i Hi) as P. unfold peek in P. cbn [io_r].
    destruct (base_r b i 1) as [s'| |]; cbn [bind] in *; try discriminate. injection P as P.
    exists (Plain b), s'. auto.
Qed.

Lemma single_shows : forall b m, in_memory b -> (io_shows (Single b) m <-> shows b m).
Proof.
  intros b m HB. rewrite <- (plain_shows b m HB). split; intros H i Hi; destruct (H i Hi) as (v & s & R & V);
    cbn [io_r] in *; [rewrite nl_r_base in R by (auto; lia)|rewrite nl_r_base by (auto; lia)];
    destruct (base_r b i 1) as [s'| |]; cbn [bind] in *; try discriminate; injection R as _ <-; eauto.
Qed.

Lemma bare_double_shows : forall b m, in_memory b -> b_diffs b = [] -> (io_shows (Double b) m <-> shows b m).
Proof.
  intros b m HB HD. rewrite <- (single_shows b m HB).
  assert (M : dl_merge b = Ok b) by (unfold dl_merge; rewrite HD; reflexivity).
  split; intros H i Hi; destruct (H i Hi) as (v & s & R & V); cbn [io_r] in *; unfold dl_r in *;
    rewrite M in *; cbn [bind] in *; destruct (nl_r b i 1) as [s'| |]; cbn [bind] in *; try discriminate;
    injection R as _ <-; eauto.
Qed.

Lemma overlay_content : forall b b' m ms srcOff n dstOff, in_memory b -> in_memory b' -> shows b m ->
  (forall i, i < dstOff + n \/ dstOff + 0 <= i ->
      content b' i = if (dstOff <=? i) && (i <? dstOff + n) then ms (srcOff + (i - dstOff))
                     else if i <? dstOff then content b i else content b (i - 0)) -> 0 <= n ->
  shows b' (img_overlay m ms srcOff n dstOff).
Proof.
  intros b b' m ms srcOff n dstOff HB HB' S C Hn i Hi. rewrite peek_content by auto. f_equal.
  rewrite C by lia. unfold img_overlay. replace (i - 0) with i by lia.
  destruct ((dstOff <=? i) && (i <? dstOff + n)); [reflexivity|].
  assert (Y : content b i = m i) by (apply (shows_unique b); auto using shows_content).
  destruct (i <? dstOff); exact Y.
Qed.

Lemma chain_end : forall cs o o' d, chain o cs o' -> In d cs -> d_off d + d_len d <= o'.
Proof.
  induction cs as [|c cs IH]; intros o o' d C HI; [destruct HI|]. destruct C as (C1 & C2 & C3).
  destruct HI as [<-|HI]; [|apply (IH _ _ _ C3 HI)].
  clear - C1 C3. revert o o' c C1 C3. induction cs as [|x cs IH]; intros o o' c C1 C3; cbn [chain] in C3; [lia|].
  destruct C3 as (A & B & C). pose proof (IH (o + d_len c) o' x A C). lia.
Qed.

(** The bytes a copy into the buffer of a [DirectReader] leaves of the stream *)
Lemma direct_shows : forall b str m, in_memory b -> io_shows (Direct b str) m ->
  exists m0, shows b m0 /\ (forall i, 0 <= i < len_buf b -> m i = m0 i) /\
    forall b', in_memory b' -> len_buf b' = len_buf b -> forall m', shows b' m' ->
      io_shows (Direct b' str) (fun i => if i <? len_buf b then m' i else m i).
Proof.
  intros b str m HB H. exists (content b). split; [apply shows_content; exact HB|].
  pose proof (proj2 (plain_shows b _ HB) (shows_content b HB)) as HP. split.
  - intros i Hi. destruct (H i ltac:(lia)) as (v & s & R & V). destruct (HP i ltac:(lia)) as (v' & s' & R' & V').
    cbn [io_r] in *. unfold dr_r in R. destruct (i <? len_buf b) eqn:L; [|lia].
    destruct (base_r b i 1) as [x| |]; cbn [bind] in *; try discriminate. injection R as _ <-. injection R' as _ <-.
    congruence.
  - intros b' HB' LB m' S i Hi. destruct (H i Hi) as (v & s & R & V). cbn [io_r] in *. unfold dr_r in *. rewrite LB.
    destruct (i <? len_buf b) eqn:L.
    + pose proof (proj2 (plain_shows b' m' HB') S i Hi) as (v' & s' & R' & V'). cbn [io_r] in R'.
      destruct (base_r b' i 1) as [x| |]; cbn [bind] in *; try discriminate. injection R' as _ <-. eauto.
    + destruct (stream_read_at str 128 (i - len_buf b)) as [p err].
      destruct (err && (zlen p =? 0)); cbn [bind] in *; injection R as _ <-; eauto.
Qed.

Lemma io_shows_ext : forall v m m', (forall i, 0 <= i -> m i = m' i) -> io_shows v m -> io_shows v m'.
Proof. intros v m m' E H i Hi. destruct (H i Hi) as (v' & s & R & V). exists v', s. rewrite <- E by exact Hi. auto. Qed.

Lemma mixed : forall dst src m ms srcOff size dstOff,
  writable dst dstOff size -> readable src -> io_shows dst m -> io_shows src ms ->
  0 <= srcOff -> 0 <= size -> 0 <= dstOff ->
  exists dst' n, io_copy dst src srcOff size dstOff 0 = Ok (src, dst') /\ defined_run ms srcOff size n /\
    io_shows dst' (img_overlay m ms srcOff n dstOff).
Proof.
  intros dst src m ms srcOff size dstOff HW HR HD HS H1 H2 H3.
  pose proof (readable_shown src ms HR HS) as SV.
  assert (I : forall b, in_memory b -> exists b' n pre cs, mix_into b src srcOff size dstOff 0 = Ok (src, b') /\ in_memory b' /\
     defined_run ms srcOff size n /\ b' = set_diffs b ((pre ++ b_diffs b) ++ cs) /\ chain dstOff cs (dstOff + n) /\
     (pre = [] \/ exists t, pre = [mkDiff dstOff t] /\ dstOff + gs_len t = gs_len (b_bytes b)) /\
     forall m, shows b m -> shows b' (img_overlay m ms srcOff n dstOff)).
  { intros b HB. destruct (mix_into_spec b src ms srcOff size dstOff 0 HB SV H1 H2 H3 ltac:(lia) (or_introl eq_refl))
      as (b' & n & pre & cs & E & M & D & C & X & Y & P).
    exists b', n, pre, cs. rewrite no_shift in X. split; [exact E|]. split; [exact M|]. split; [exact D|].
    split; [exact X|]. split; [exact Y|]. split; [exact P|]. intros m0 S0.
    apply (overlay_content b b' m0 ms srcOff n dstOff HB M S0 C). destruct D. lia. }
  destruct dst as [b|b|b|b str]; cbn [writable io_copy] in *.
  - destruct (I b HW) as (b' & n & pre & cs & E & M & D & X & Y & P & K). rewrite E. cbn [bind].
    exists (Plain b'), n. split; [reflexivity|]. split; [exact D|]. apply plain_shows; [exact M|].
    apply K. apply plain_shows; assumption.
  - destruct (I b HW) as (b' & n & pre & cs & E & M & D & X & Y & P & K). rewrite E. cbn [bind].
    exists (Single b'), n. split; [reflexivity|]. split; [exact D|]. apply single_shows; [exact M|].
    apply K. apply single_shows; assumption.
  - destruct HW as [HB HN]. destruct (I b HB) as (b' & n & pre & cs & E & M & D & X & Y & P & K). rewrite E. cbn [bind].
    pose proof (K m (proj1 (bare_double_shows b m HB HN) HD)) as SB.
    rewrite HN, app_nil_r in X.
    assert (G : b_diffs b' = [] \/ exists d l, b_diffs b' = d :: l /\ gap_free d l).
    { rewrite X. cbn [set_diffs b_diffs]. destruct P as [->|(t & -> & _)].
      - cbn [app]. destruct cs as [|c cs]; [left; reflexivity|]. right. exists c, cs. split; [reflexivity|].
        intros l1 s l2 El. destruct (chain_gap (c :: cs) dstOff (dstOff + n) (c :: l1) s l2 Y ltac:(rewrite El; reflexivity)) as [A B].
        destruct Y as (Y1 & _). rewrite Y1. split; [exact A|exact B].
      - right. eexists; exists cs. split; [reflexivity|]. intros l1 s l2 El.
        destruct (chain_gap cs dstOff (dstOff + n) l1 s l2 Y El) as [A B]. cbn [d_off]. split; [exact A|].
        intros i Hi. destruct (B i Hi) as (e & He & Ce). exists e. split; [right; exact He|exact Ce]. }
    destruct G as [G|(d & l & G1 & G2)].
    + assert (Q : dl_merge b' = Ok b') by (unfold dl_merge; rewrite G; reflexivity). rewrite Q. cbn [bind].
      exists (Double b'), n. split; [reflexivity|]. split; [exact D|]. apply bare_double_shows; assumption.
    + destruct (dl_merge_again b' d l M G1 G2) as (b2 & d2 & Q & M2 & Q1 & Q2 & Q3). rewrite Q. cbn [bind].
      exists (Double b2), n. split; [reflexivity|]. split; [exact D|].
      apply (double_shows b2 d2 l); auto.
  - destruct HW as [HB HL]. destruct (I b HB) as (b' & n & pre & cs & E & M & D & X & Y & P & K). rewrite E. cbn [bind].
    exists (Direct b' str), n. split; [reflexivity|]. split; [exact D|].
    destruct (direct_shows b str m HB HD) as (m0 & S0 & A0 & A1).
    assert (LB : len_buf b' = len_buf b).
    { rewrite (len_buf_mem b' M), (len_buf_mem b HB) in *. rewrite X. cbn [set_diffs b_diffs b_bytes].
      pose proof (max_end_ge (b_diffs b) (gs_len (b_bytes b))) as G.
      apply Z.le_antisymm.
      - apply max_end_le; [exact G|]. intros d Hd. rewrite !in_app_iff in Hd. destruct Hd as [[Hd|Hd]|Hd].
        + destruct P as [->|(t & -> & L)]; [destruct Hd|]. destruct Hd as [<-|[]]. cbn [d_off].
          change (d_len (mkDiff dstOff t)) with (gs_len t). lia.
        + apply max_end_in; exact Hd.
        + pose proof (chain_end cs _ _ d Y Hd). destruct D. lia.
      - apply max_end_le; [apply max_end_ge|]. intros d Hd. apply max_end_in. rewrite !in_app_iff. auto. }
    eapply io_shows_ext; [|exact (A1 b' M LB _ (K m0 S0))]. intros i Hi. cbn beta. unfold img_overlay. destruct D as [D _].
    destruct (i <? len_buf b) eqn:L.
    + rewrite A0 by lia. reflexivity.
    + destruct ((dstOff <=? i) && (i <? dstOff + n)) eqn:C; [lia|reflexivity].
Qed.

Lemma mixed_insert : forall dst src m ms srcOff size dstOff b,
  dst = Plain b \/ dst = Single b -> in_memory b -> Forall (fun d => straddles dstOff d = false) (b_diffs b) ->
  readable src -> io_shows dst m -> io_shows src ms -> 0 <= srcOff -> 0 <= size -> 0 <= dstOff ->
  (forall k, 0 <= k < size -> ms (srcOff + k) <> None) ->
  exists dst', io_copy dst src srcOff size dstOff size = Ok (src, dst') /\
    io_shows dst' (fun i => if i <? dstOff then m i
                            else if i <? dstOff + size then ms (srcOff + (i - dstOff))
                            else m (i - size)).
Proof.
  intros dst src m ms srcOff size dstOff b K HB HN HR HD HS H1 H2 H3 HA.
  pose proof (readable_shown src ms HR HS) as SV.
  destruct (mix_into_spec b src ms srcOff size dstOff size HB SV H1 H2 H3 H2 (or_intror HN))
    as (b' & n & pre & cs & E & M & (D1 & D2 & D3) & C & _).
  assert (n = size).
  { destruct D3 as [D3|D3]; [exact D3|]. destruct (Z.eq_dec n size) as [|NE]; [auto|]. elim (HA n ltac:(lia)). exact D3. }
  subst n.
  assert (R : forall m0, shows b m0 -> shows b' (fun i => if i <? dstOff then m0 i
                            else if i <? dstOff + size then ms (srcOff + (i - dstOff)) else m0 (i - size))).
  { intros m0 S0 i Hi. rewrite peek_content by auto. f_equal. rewrite C by lia.
    assert (Y : forall j, 0 <= j -> content b j = m0 j) by (intros; apply (shows_unique b); auto using shows_content).
    destruct ((dstOff <=? i) && (i <? dstOff + size)) eqn:X.
    - destruct (i <? dstOff) eqn:X1; [lia|]. destruct (i <? dstOff + size) eqn:X2; [|lia]. reflexivity.
    - destruct (i <? dstOff) eqn:X1; [apply Y; lia|]. destruct (i <? dstOff + size) eqn:X2; [lia|]. apply Y; lia. }
  destruct K as [->| ->]; cbn [io_copy]; rewrite E; cbn [bind]; eexists; split; try reflexivity.
  - apply plain_shows; [exact M|]. apply R. apply plain_shows; assumption.
  - apply single_shows; [exact M|]. apply R. apply single_shows; assumption.
Qed.
