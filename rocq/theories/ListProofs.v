(** When a buffer delivers bytes in one read, and which edits keep that. *)
From Coq Require Import ZArith List Bool Lia.
From Coq Require Import Strings.Byte.
From Verif Require Import GoLib BaseModel GoLemmas BaseSpec BaseProofs BaseProofs2 BaseProofs3.
From Verif Require Import TableModel TableSpec TableProofs TableProofs2.
Import ListNotations.
Open Scope Z_scope.

(** The journal [ds] over [bs] answers a read at [c] with at least [p]. *)
Definition served (ds : list diff) (bs : list byte) (c : Z) (p : list byte) : Prop :=
  match find_last (covers c) ds with
  | Some d => c + zlen p <= d_off d + d_len d /\
              zfirst (zlen p) (zskip (c - d_off d) (d_data d)) = p
  | None => (forall d, In d ds -> d_off d <= c \/ c + zlen p <= d_off d) /\
            c + zlen p <= zlen bs /\ zfirst (zlen p) (zskip c bs) = p
  end.

Lemma min_offset_bound : forall ds c lim acc, 0 <= c ->
  (acc < 0 \/ lim <= acc) -> (forall d, In d ds -> d_off d <= c \/ lim <= d_off d) -> 
  0 <= min_offset_gt c ds acc -> lim <= min_offset_gt c ds acc.
Proof.
  induction ds as [|d ds IH]; intros c lim acc Hc Ha H; cbn [min_offset_gt]; [lia|].
  assert (H' : forall e, In e ds -> d_off e <= c \/ lim <= d_off e) by (intros; apply H; right; auto).
  destruct (c <? d_off d) eqn:E.
  - apply IH; auto. pose proof (H d (or_introl eq_refl)).
    destruct ((acc <? 0) || (d_off d <? acc)) eqn:X; lia.
  - apply IH; auto.
Qed.

Lemma min_offset_le : forall ds c acc d, 0 <= c -> In d ds -> c < d_off d ->
  0 <= min_offset_gt c ds acc <= d_off d.
Proof.
  assert (A : forall ds c acc, 0 <= c -> 0 <= acc -> 0 <= min_offset_gt c ds acc <= acc).
  { induction ds as [|d ds IH]; intros c acc Hc Ha; cbn [min_offset_gt]; [lia|].
    destruct (c <? d_off d) eqn:E.
    - destruct ((acc <? 0) || (d_off d <? acc)) eqn:X.
      + pose proof (IH c (d_off d) Hc ltac:(lia)). lia.
      + pose proof (IH c acc Hc ltac:(lia)). lia.
    - apply IH; auto. }
  induction ds as [|e ds IH]; intros c acc d Hc Hd Hlt; [destruct Hd|]. cbn [min_offset_gt].
  destruct Hd as [->|Hd].
  - destruct (c <? d_off d) eqn:E; [|lia].
    destruct ((acc <? 0) || (d_off d <? acc)) eqn:X.
    + apply A; lia.
    + pose proof (A ds c acc Hc ltac:(lia)). lia.
  - destruct (c <? d_off e) eqn:E; apply IH; auto.
Qed.

Lemma delivers_served : forall b c p, in_memory b -> 0 <= c -> 1 <= zlen p ->
  delivers b c p <-> served (b_diffs b) (sl_data (b_bytes b)) c p.
Proof.
  intros b c p [HR HF] Hc Hp. unfold delivers, served, base_r, writer_r.
  pose proof (last_index_find_last _ (covers c) (b_diffs b)) as L.
  destruct (last_index (covers c) (b_diffs b)) as [n|] eqn:E.
  - destruct L as [L1 L2].
    destruct (find_last (covers c) (b_diffs b)) as [d|] eqn:F; [|congruence]. rewrite L1.
    destruct (find_last_some _ _ _ _ F) as [_ C]. apply covers_iff in C. unfold d_len in *.
    rewrite gs_from_ok by lia. cbn [bind opt_len]. unfold gs_len in *; cbn [sl_data].
    rewrite zlen_zskip.
    destruct (Z.max 0 (zlen (sl_data (d_sl d)) - Z.max 0 (c - d_off d)) =? 0) eqn:X; [lia|].
    split.
    + intros (s & ES & HL & HE). injection ES as <-. cbn [sl_data] in *. rewrite zlen_zskip in HL.
      split; [lia|exact HE].
    + intros [HL HE]. eexists; split; [reflexivity|]. cbn [sl_data]. rewrite zlen_zskip.
      split; [lia|exact HE].
  - rewrite L. apply last_index_none in E.
    assert (RD : gs_len (b_bytes b) <= c ->
      reader_r0 b c (zlen p) = Ok None).
    { intros H. unfold reader_r0. rewrite HR.
      change (last_index (rcovers c (zlen p)) nil) with (@None nat). cbv iota.
      replace (gs_len (b_bytes b) <? c + zlen p) with true by lia.
      replace (c + Z.max 1 (zlen p) <=? gs_len (b_bytes b)) with false by lia. reflexivity. }
    destruct (gs_len (b_bytes b) <? c) eqn:E1.
    { cbn [bind opt_len]. rewrite Z.eqb_refl, RD by lia. split.
      - intros (s & ES & _). discriminate.
      - intros (_ & H & _). unfold gs_len in *. lia. }
    assert (Hlim : exists lim, 
       (match b_diffs b with
        | nil => do s <- gs_from (b_bytes b) c; Ok (Some s)
        | _ =>
            let minoff := min_offset_gt c (b_diffs b) (-1) in
            if minoff <? 0
            then do s <- gs_from (b_bytes b) c; Ok (Some s)
            else
              do t <- gs_from (b_bytes b) c;
              let lim := Z.min (c + gs_len t) minoff in
              do s <- gs_range (b_bytes b) c lim; Ok (Some s)
        end) = Ok (Some (mkSlice (zskip c (zfirst lim (sl_data (b_bytes b)))) 
            (match b_diffs b with nil => sl_spare (b_bytes b) | _ => 
              if min_offset_gt c (b_diffs b) (-1) <? 0 then sl_spare (b_bytes b) 
              else zskip lim (sl_data (b_bytes b) ++ sl_spare (b_bytes b)) end)))
       /\ c <= lim <= gs_len (b_bytes b) /\
       forall n, c + n <= lim <-> (c + n <= gs_len (b_bytes b) /\
          forall d, In d (b_diffs b) -> d_off d <= c \/ c + n <= d_off d)).
    { destruct (b_diffs b) as [|d0 ds0] eqn:ED.
      { exists (gs_len (b_bytes b)). rewrite gs_from_ok by lia. cbn [bind].
        rewrite zfirst_all by (unfold gs_len; lia). split; [reflexivity|]. split; [lia|].
        intros n. split; [|tauto]. intros; split; [lia|intros ? []]. }
      rewrite <- ED in *. cbv zeta.
      destruct (min_offset_gt c (b_diffs b) (-1) <? 0) eqn:E2.
      { exists (gs_len (b_bytes b)). rewrite gs_from_ok by lia. cbn [bind].
        rewrite zfirst_all by (unfold gs_len; lia).
        split; [reflexivity|]. split; [lia|]. intros n. split; [|tauto].
        intros; split; [lia|]. intros d Hd.
        destruct (Z_lt_dec c (d_off d)); [|lia].
        pose proof (min_offset_le (b_diffs b) c (-1) d Hc Hd ltac:(lia)). lia. }
      rewrite gs_from_ok by lia. cbn [bind].
      set (mo := min_offset_gt c (b_diffs b) (-1)) in *.
      assert (HmoC : c < mo).
      { pose proof (min_offset_gt_spec (b_diffs b) c (-1) ltac:(lia) HF) as M. cbv zeta in M.
        destruct M as [_ M2]. fold mo in M2. destruct (M2 ltac:(lia)) as (A & B & C). lia. }
      exists (Z.min (gs_len (b_bytes b)) mo).
      match goal with |- context [Z.min (c + ?x) mo] => replace (c + x) with (gs_len (b_bytes b)) end.
      2: { unfold gs_len in *; cbn [sl_data]. rewrite zlen_zskip. lia. }
      pose proof (gs_cap_ge (b_bytes b)).
      rewrite gs_range_ok by lia. cbn [bind].
      rewrite zfirst_app_le by (unfold gs_len; lia).
      split; [reflexivity|]. split; [lia|]. intros n. split.
      - intros Hn. split; [lia|]. intros d Hd. destruct (Z_lt_dec c (d_off d)); [|lia].
        pose proof (min_offset_le (b_diffs b) c (-1) d Hc Hd ltac:(lia)). fold mo in H0. lia.
      - intros [H1 H2]. pose proof (min_offset_bound (b_diffs b) c (c + n) (-1) Hc ltac:(lia) H2). fold mo in H0. lia. }
    destruct Hlim as (lim & EW & HLr & HLim). cbv zeta in EW |- *. rewrite EW. clear EW.
    set (sp := match b_diffs b with nil => _ | _ => _ end). clearbody sp.
    cbn [bind opt_len]. unfold gs_len at 1; cbn [sl_data]. rewrite zlen_zskip, zlen_zfirst.
    fold (gs_len (b_bytes b)).
    assert (HZ : forall n, 0 <= n -> c + n <= lim ->
       zfirst n (zskip c (zfirst lim (sl_data (b_bytes b)))) = zfirst n (zskip c (sl_data (b_bytes b)))).
    { intros n Hn Hl. apply zget_ext; intros i. rewrite !zget_zfirst.
      destruct (i <? n) eqn:X; [|reflexivity]. rewrite !zget_zskip by lia.
      destruct (i <? 0) eqn:Y; [reflexivity|]. rewrite zget_zfirst.
      replace (c + i <? lim) with true by lia. reflexivity. }
    match goal with |- context [if ?q then reader_r0 _ _ _ else _] => destruct q eqn:X end.
    + assert (lim = c) by lia.
      destruct (Z_lt_dec c (gs_len (b_bytes b))) as [HH|HH].
      * exfalso. assert (c + 1 <= lim); [|lia]. apply HLim. split; [lia|]. intros d Hd.
        destruct (Z_lt_dec c (d_off d)); lia.
      * rewrite RD by lia. split; [intros (s & ES & _); discriminate|]. intros (_ & H1 & _).
        unfold gs_len in *. lia.
    + split.
      * intros (s & ES & HL & HE). injection ES as <-. cbn [sl_data] in *.
        unfold gs_len in HL; cbn [sl_data] in HL. rewrite zlen_zskip, zlen_zfirst in HL. fold (gs_len (b_bytes b)) in HL.
        assert (HH : c + zlen p <= lim) by lia.
        rewrite HZ in HE by lia. apply HLim in HH. destruct HH as [H1 H2]. unfold gs_len in H1.
        split; [exact H2|]. split; [exact H1|exact HE].
      * intros (H2 & H1 & HE). assert (HH : c + zlen p <= lim) by (apply HLim; unfold gs_len; auto).
        eexists; split; [reflexivity|]. cbn [sl_data]. unfold gs_len; cbn [sl_data].
        rewrite zlen_zskip, zlen_zfirst. fold (gs_len (b_bytes b)). split; [lia|].
        rewrite HZ by lia. exact HE.
Qed.

Lemma served_app : forall ds bs c p d, 1 <= zlen p -> misses c (zlen p) d ->
  served ds bs c p -> served (ds ++ [d]) bs c p.
Proof.
  intros ds bs c p d Hp HM H. unfold served in *. rewrite find_last_app. cbn [find_last].
  replace (covers c d) with false by (unfold covers, misses in *; lia).
  destruct (find_last (covers c) ds) as [e|]; [exact H|].
  destruct H as (H1 & H2 & H3). split; [|auto]. intros e He. apply in_app_iff in He as [He|[<-|[]]]; auto.
  pose proof (d_len_nonneg d). unfold misses in HM. lia.
Qed.

Lemma served_apps : forall l ds bs c p, 1 <= zlen p -> Forall (misses c (zlen p)) l ->
  served ds bs c p -> served (ds ++ l) bs c p.
Proof.
  induction l as [|d l IH]; intros ds bs c p Hp HM H; [rewrite app_nil_r; auto|].
  inversion HM; subst. replace (ds ++ d :: l) with ((ds ++ [d]) ++ l) by (rewrite <- app_assoc; reflexivity).
  apply IH; auto. apply served_app; auto.
Qed.

Lemma served_last : forall ds bs c p s, 1 <= zlen p -> sl_data s = p -> served (ds ++ [mkDiff c s]) bs c p.
Proof.
  intros ds bs c p s Hp Hs. unfold served. rewrite find_last_app. cbn [find_last].
  assert (E : d_len (mkDiff c s) = zlen p) by (unfold d_len, gs_len; cbn [d_sl]; rewrite Hs; reflexivity).
  replace (covers c (mkDiff c s)) with true by (unfold covers; rewrite E; cbn [d_off]; lia).
  rewrite E. cbn [d_off]. split; [lia|]. rewrite Z.sub_diag, zskip_0. unfold d_data; cbn [d_sl].
  rewrite Hs. apply zfirst_all. lia.
Qed.

Lemma served_replace : forall l1 d d1 d2 l2 bs c p k,
  1 <= zlen p -> d_off d < k < d_off d + d_len d ->
  d_off d1 = d_off d -> d_data d1 = zfirst (k - d_off d) (d_data d) ->
  d_off d2 = k -> d_data d2 = zskip (k - d_off d) (d_data d) ->
  (c + zlen p <= k \/ k <= c) ->
  served (l1 ++ d :: l2) bs c p -> served (l1 ++ d1 :: d2 :: l2) bs c p.
Proof.
  intros l1 d d1 d2 l2 bs c p k Hp Hk E1 D1 E2 D2 HC H.
  assert (L : d_len d = zlen (d_data d)) by reflexivity.
  assert (L1 : d_len d1 = k - d_off d).
  { change (d_len d1) with (zlen (d_data d1)). rewrite D1, zlen_zfirst. lia. }
  assert (L2 : d_len d2 = d_off d + d_len d - k).
  { change (d_len d2) with (zlen (d_data d2)). rewrite D2, zlen_zskip. lia. }
  unfold served in *. rewrite find_last_app in H |- *. cbn [find_last] in H |- *.
  destruct (find_last (covers c) l2) as [e|]; [exact H|].
  destruct (covers c d) eqn:C.
  - apply covers_iff in C. destruct H as [H1 H2].
    destruct (covers c d2) eqn:C2.
    + apply covers_iff in C2. rewrite L2, E2 in *. split; [lia|]. rewrite D2. rewrite <- H2 at 2.
      f_equal. apply zget_ext; intros i. rewrite !zget_zskip by lia.
      destruct (i <? 0) eqn:Y; [reflexivity|].
      destruct (c - k + i <? 0) eqn:Y2; [lia|]. f_equal. lia.
    + assert (c < k) by (unfold covers in C2; lia).
      replace (covers c d1) with true by (unfold covers; rewrite E1, L1; lia).
      rewrite L1, E1. split; [lia|]. rewrite D1. rewrite <- H2 at 2.
      apply zget_ext; intros i. rewrite !zget_zfirst. destruct (i <? zlen p) eqn:X; [|reflexivity].
      rewrite !zget_zskip by lia. destruct (i <? 0) eqn:Y; [reflexivity|]. rewrite zget_zfirst.
      replace (c - d_off d + i <? k - d_off d) with true by lia. reflexivity.
  - replace (covers c d2) with false by (unfold covers in *; lia).
    replace (covers c d1) with false by (unfold covers in *; lia).
    destruct (find_last (covers c) l1) as [e|]; [exact H|].
    destruct H as (H1 & H2 & H3). split; [|auto]. intros e He. apply in_app_iff in He as [He|He].
    + apply H1. apply in_app_iff; auto.
    + pose proof (H1 d (in_elt d l1 l2)). destruct He as [<-|[<-|He]].
      * lia.
      * unfold covers in C. lia.
      * apply H1. apply in_app_iff; right; right; auto.
Qed.

Lemma served_front : forall ds bs c p dst t, 1 <= zlen p -> 0 <= dst -> sl_data t = zskip dst bs ->
  0 <= c -> (c + zlen p <= dst \/ dst <= c) ->
  served ds bs c p -> served (mkDiff dst t :: ds) bs c p.
Proof.
  intros ds bs c p dst t Hp Hd Ht Hc HC H. unfold served in *. cbn [find_last].
  destruct (find_last (covers c) ds) as [e|]; [exact H|].
  assert (L : d_len (mkDiff dst t) = Z.max 0 (zlen bs - dst)).
  { unfold d_len, gs_len; cbn [d_sl]. rewrite Ht, zlen_zskip. lia. }
  destruct H as (H1 & H2 & H3).
  destruct (covers c (mkDiff dst t)) eqn:C.
  - apply covers_iff in C. cbn [d_off] in *. rewrite L in *. split; [lia|].
    unfold d_data; cbn [d_sl]. rewrite Ht. rewrite <- H3 at 2. f_equal.
    apply zget_ext; intros i. rewrite !zget_zskip by lia. destruct (i <? 0) eqn:Y; [reflexivity|].
    destruct (c - dst + i <? 0) eqn:Y2; [lia|]. f_equal. lia.
  - unfold covers in C; cbn [d_off] in C. rewrite L in C. split; [|auto].
    intros e [<-|He]; [cbn [d_off]; lia|auto].
Qed.

(** ** Updates *)

Lemma u_served : forall b off q b', in_memory b -> 0 <= off -> 1 <= zlen q ->
  base_u b off (zlen q) q = Ok b' -> forall c p, 1 <= zlen p ->
  (c + zlen p <= off \/ off + zlen q <= c) ->
  served (b_diffs b) (sl_data (b_bytes b)) c p -> served (b_diffs b') (sl_data (b_bytes b')) c p.
Proof.
  intros b off q b' Hb Ho Hq HU c p Hp HC H.
  unfold base_u in HU. destruct (zlen q <? 0) eqn:X1; [lia|]. destruct (zlen q <? zlen q) eqn:X2; [lia|].
  rewrite copy_at_full in HU by (rewrite zlen_zeros; lia).
  assert (ML : misses c (zlen p) (mkDiff off (gs_of q))).
  { unfold misses, d_len, gs_len; cbn [d_off d_sl gs_of sl_data]. lia. }
  unfold base_d in HU. destruct (last_index (covers off) (b_diffs b)) as [sn|] eqn:E.
  - destruct (last_index_some _ _ _ _ E) as (l1 & d & l2 & ED & EL & C & F).
    apply covers_iff in C. rewrite ED, <- EL, nth_error_mid in HU.
    destruct (d_off d + d_len d <=? off + zlen q) eqn:E1.
    + injection HU as <-. cbn [set_diffs b_diffs b_bytes]. rewrite <- ED. apply served_app; auto.
    + pose proof (gs_cap_ge (d_sl d)). unfold d_len in *.
      rewrite gs_from_ok in HU by lia. cbn [bind] in HU.
      unfold gs_upto in HU. rewrite gs_range_ok in HU by lia. cbn [bind] in HU.
      rewrite firstn_mid, skipn_mid_S in HU.
      match type of HU with context [mkDiff (d_off d) ?s] => set (bs := s) in * end.
      match type of HU with context [mkDiff (off + zlen q) ?s] => set (after := s) in * end.
      unfold diffs_insert in HU. rewrite app_length in HU. cbn [length] in HU.
      destruct (length l1 + S (length l2) <? S (length l1))%nat eqn:EE; [lia|].
      replace (S (length l1)) with (length (l1 ++ [mkDiff (d_off d) bs])) in HU
        by (rewrite app_length; cbn; lia).
      replace (l1 ++ mkDiff (d_off d) bs :: l2) with ((l1 ++ [mkDiff (d_off d) bs]) ++ l2) in HU
        by (rewrite <- app_assoc; reflexivity).
      rewrite firstn_mid, skipn_mid in HU. injection HU as <-. cbn [set_diffs b_diffs b_bytes].
      apply served_app; auto.
      rewrite <- app_assoc. cbn [app].
      rewrite ED in H. apply (served_replace l1 d _ _ l2 _ c p (off + zlen q)); auto.
      * unfold d_len. lia.
      * unfold d_data at 1; cbn [d_sl]. unfold bs; cbn [sl_data]. rewrite zskip_0. unfold d_data.
        apply zfirst_app_le. unfold gs_len in *. lia.
      * unfold d_data at 1; cbn [d_sl]. unfold after; cbn [sl_data]. f_equal. lia.
      * lia.
  - destruct ((off <? gs_len (b_bytes b)) && (off + zlen q <? gs_cap (b_bytes b))) eqn:E1.
    + rewrite gs_range_ok in HU by lia. cbn [bind] in HU. injection HU as <-. cbn [set_diffs b_diffs b_bytes].
      apply served_apps; auto. repeat (apply Forall_cons); try apply Forall_nil; auto.
      unfold misses, d_len, gs_len; cbn [d_off d_sl sl_data]. rewrite zlen_zskip, zlen_zfirst, zlen_app. lia.
    + injection HU as <-. cbn [set_diffs b_diffs b_bytes]. apply served_app; auto.
Qed.

Lemma u_delivers : forall b off q, in_memory b -> 0 <= off -> 1 <= zlen q ->
  exists b', base_u b off (zlen q) q = Ok b' /\ in_memory b' /\ b_bytes b' = b_bytes b /\
    (forall i, content b' i = img_write (content b) off q i) /\
    delivers b' off q /\
    forall c p, 0 <= c -> 1 <= zlen p -> (c + zlen p <= off \/ off + zlen q <= c) ->
      delivers b c p -> delivers b' c p.
Proof.
  intros b off q Hb Ho Hq.
  destruct (base_u_spec b off (zlen q) q Hb Ho eq_refl) as (b' & EU & I & EB & _ & _ & IC).
  exists b'. repeat (split; [assumption|]). split.
  - apply delivers_served; auto. pose proof EU as EU'. unfold base_u in EU'.
    destruct (zlen q <? 0) eqn:X1; [lia|]. destruct (zlen q <? zlen q) eqn:X2; [lia|].
    rewrite copy_at_full in EU' by (rewrite zlen_zeros; lia).
    destruct (base_d_last _ _ _ _ _ EU') as [ds ->]. apply served_last; auto.
  - intros c p Hc Hp HC HD. apply delivers_served in HD; auto. apply delivers_served; auto.
    apply (u_served b off q b' Hb Ho Hq EU c p); auto.
Qed.

(** ** Numbers *)

Lemma rd_delivers : forall n b c v, (1 <= n)%nat -> 
  delivers b c (le_encode n v) -> rd n b c = Ok (v mod 256 ^ Z.of_nat n).
Proof.
  intros n b c v Hn (s & ER & HL & HE). rewrite zlen_le_encode in *. unfold rd. rewrite ER.
  cbn [bind opt_data]. unfold get_le. unfold gs_len, zlen in HL.
  destruct (length (sl_data s) <? n)%nat eqn:E; [apply Nat.ltb_lt in E; lia|].
  unfold zfirst in HE. rewrite Nat2Z.id in HE. rewrite HE. f_equal. apply le_decode_encode.
Qed.

Lemma delivers_rd : forall n b c v, (1 <= n)%nat -> 
  rd n b c = Ok v -> delivers b c (le_encode n v) /\ 0 <= v < 256 ^ Z.of_nat n.
Proof.
  intros n b c v Hn H. unfold rd in H. destruct (base_r b c (Z.of_nat n)) as [s| |] eqn:ER; try discriminate.
  cbn [bind] in H. unfold get_le in H.
  destruct (length (opt_data s) <? n)%nat eqn:E; [discriminate|]. apply Nat.ltb_ge in E.
  injection H as H. destruct s as [s|]; cbn [opt_data] in *; [|cbn in E; lia].
  assert (LF : length (firstn n (sl_data s)) = n) by (rewrite firstn_length; lia).
  split.
  - exists s. rewrite zlen_le_encode. split; [exact ER|]. split; [unfold gs_len, zlen; lia|].
    unfold zfirst. rewrite Nat2Z.id, <- H. rewrite <- LF at 2. symmetry. apply le_encode_decode.
  - pose proof (le_decode_range (firstn n (sl_data s))) as R. unfold zlen in R. rewrite LF in R. lia.
Qed.

Lemma u_rd : forall b off n v, in_memory b -> 0 <= off -> (1 <= n)%nat -> 
  exists b', base_u b off (Z.of_nat n) (le_encode n v) = Ok b' /\ in_memory b' /\ b_bytes b' = b_bytes b /\
    (forall i, content b' i = img_write (content b) off (le_encode n v) i) /\
    rd n b' off = Ok (v mod 256 ^ Z.of_nat n) /\
    (forall c k x, 0 <= c -> (1 <= k)%nat -> (c + Z.of_nat k <= off \/ off + Z.of_nat n <= c) ->
      rd k b c = Ok x -> rd k b' c = Ok x) /\
    (forall c p, 0 <= c -> 1 <= zlen p -> (c + zlen p <= off \/ off + Z.of_nat n <= c) ->
      delivers b c p -> delivers b' c p).
Proof.
  intros b off n v Hb Ho Hn.
  destruct (u_delivers b off (le_encode n v) Hb Ho ltac:(rewrite zlen_le_encode; lia)) as (b' & EU & I & EB & IC & D & F).
  rewrite zlen_le_encode in *. exists b'. repeat (split; [assumption|]). split; [apply rd_delivers; auto|].
  split; [|exact F].
  intros c k x Hc Hk HC HR. apply delivers_rd in HR as [HD HX]; auto.
  rewrite <- (Z.mod_small x (256 ^ Z.of_nat k)) by exact HX. apply rd_delivers; auto.
  apply F; auto; rewrite zlen_le_encode; lia.
Qed.
