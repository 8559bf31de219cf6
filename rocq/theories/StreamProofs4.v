(** Reads that never go back succeed. *)
From Coq Require Import ZArith List Bool Lia Permutation.
From Coq Require Import Strings.Byte.
From Verif Require Import GoLib GoLemmas BaseModel BaseSpec BaseProofs VariantModel StreamModel StreamSpec.
From Verif Require Import StreamProofs StreamProofs2 StreamProofs3.
Import ListNotations.
Open Scope Z_scope.

Definition upto (o : Z) (b : base) : Prop := Forall (fun d => d_off d <= o) (b_rdiffs b).

Lemma last_of_all : forall (rs : list diff) o, Forall (fun d => d_off d <= o) rs ->
  match last_index (fun d => d_off d <=? o) rs with
  | Some n => exists d, nth_error rs n = Some d /\ nth_error rs (S n) = None
  | None => rs = nil
  end.
Proof.
  intros rs o F. destruct (last_index _ rs) as [n|] eqn:L.
  - destruct (last_index_some _ _ _ _ L) as (l1 & x & l2 & E & Hn & C & NC).
    assert (l2 = nil).
    { destruct l2 as [|y l2]; [reflexivity|]. exfalso.
      rewrite find_last_none_iff in NC. specialize (NC y (or_introl eq_refl)).
      rewrite E in F. apply Forall_app in F. destruct F as [_ F]. inversion F; subst. inversion H2; subst. lia. }
    subst. exists x. split; [apply nth_error_mid|]. apply nth_error_None. rewrite app_length. cbn. lia.
  - destruct rs as [|d rs]; [reflexivity|]. exfalso. apply last_index_none in L.
    rewrite find_last_none_iff in L. specialize (L d (or_introl eq_refl)). inversion F; subst. lia.
Qed.

Lemma add_rdiff_covers : forall srt rs d, keeps srt -> 0 < d_len d -> Forall (fun x => d_off x <= d_off d) rs ->
  exists x, In x (add_rdiff srt rs d) /\ covers (d_off d) x = true.
Proof.
  intros srt rs d K Hd F.
  assert (G : exists x, In x (srt (rs ++ [d])) /\ covers (d_off d) x = true).
  { exists d. split; [|apply covers_iff; lia].
    eapply Permutation_in; [apply Permutation_sym; apply K|]. apply in_app_iff. right. left. reflexivity. }
  unfold add_rdiff. destruct (last_index _ rs) as [n|] eqn:L; [|exact G].
  destruct (nth_error rs n) as [x|] eqn:N; [|exact G].
  destruct (Z.ltb_spec (d_off d) (d_end x)); [|exact G].
  exists x. apply nth_error_In in N. split; [exact N|]. rewrite Forall_forall in F. specialize (F x N).
  apply covers_iff. unfold d_end in *. lia.
Qed.

Lemma load_new_forward : forall f srt s eof b offset size, keeps srt -> (forall n o, eof n o = false) ->
  upto offset b -> 0 <= offset -> 1 <= size -> offset + size <= zlen s ->
  exists b', load_new (S f) srt b (Random s eof) offset size size 0 = Ok (b', Random s eof, RNone) /\
    upto offset b' /\ exists d, In d (b_rdiffs b') /\ covers offset d = true.
Proof.
  intros f srt s eof b offset size K EF U Ho Hs L. cbn [load_new]. rewrite Z.eqb_refl.
  replace ((0 <? 0) && (0 <? calc_buf_size (Z.max size 512))) with false by lia.
  pose proof (calc_le (Z.max size 512) ltac:(lia)) as CP. set (ncap := calc_buf_size (Z.max size 512)) in *.
  destruct (Z.ltb_spec (Z.min size ncap) 0); [lia|].
  destruct (read_full s eof (Z.min size ncap) offset ltac:(lia) Ho ltac:(lia)) as (d & e & R & Ld & Sd & Ee & En).
  rewrite R. rewrite (En (EF _ _)). destruct (Z.ltb_spec 0 (zlen d)); [|lia].
  rewrite gs_upto_ok.
  2: lia.
  2:{ unfold gs_cap. cbn [gs_put sl_data sl_spare]. rewrite zlen_copy_at, !zlen_zeros by (rewrite zlen_zeros; lia). lia. }
  cbn [bind]. eexists. split; [reflexivity|].
  match goal with |- context [mkDiff offset ?sl] => set (dd := mkDiff offset sl) end.
  assert (DL : 0 < d_len dd).
  { unfold dd, d_len, gs_len. cbn [d_sl sl_data gs_put sl_spare].
    rewrite zlen_zfirst, zlen_app, zlen_copy_at by (rewrite zlen_zeros; lia). rewrite !zlen_zeros. lia. }
  split.
  - unfold upto. cbn [set_rdiffs b_rdiffs]. apply Forall_add; auto. cbn. lia.
  - cbn [set_rdiffs b_rdiffs]. exact (add_rdiff_covers srt (b_rdiffs b) dd K DL U).
Qed.

Lemma load_forward : forall f srt s eof b offset size, keeps srt -> (forall n o, eof n o = false) ->
  agrees s b -> upto offset b -> (forall d, In d (b_rdiffs b) -> rcovers offset size d = false) ->
  0 <= offset -> 1 <= size -> offset + size <= zlen s ->
  exists b', load_buf (S (S f)) srt (Random s eof) b offset size = Ok (b', Random s eof, RNone) /\
    upto offset b' /\
    (offset + size <= gs_len (b_bytes b') \/ exists d, In d (b_rdiffs b') /\ covers offset d = true).
Proof.
  intros f srt s eof b offset size K EF A U NC Ho Hs L. pose proof A as [A1 A2]. cbn [load_buf].
  pose proof (gs_len_nonneg (b_bytes b)) as BN.
  destruct ((offset + size <=? gs_cap (b_bytes b)) && (gs_len (b_bytes b) <? offset + size)) eqn:C.
  - rewrite gs_upto_ok by lia. cbn [bind].
    destruct (read_full s eof (offset + size - gs_len (b_bytes b)) (gs_len (b_bytes b))
      ltac:(lia) ltac:(lia) ltac:(lia)) as (d & err & R & Ld & Sd & Ee & En).
    rewrite R. rewrite (En (EF _ _)). destruct (Z.ltb_spec 0 (zlen d)); [|lia].
    unfold gs_cap in C. unfold gs_len in *.
    assert (Z1 : zlen (zfirst (offset + size) (sl_data (b_bytes b) ++ sl_spare (b_bytes b))) = offset + size).
    { rewrite zlen_zfirst, zlen_app. lia. }
    rewrite gs_upto_ok.
    2: lia.
    2:{ unfold gs_cap. cbn [gs_put sl_data sl_spare]. rewrite zlen_copy_at by lia.
        rewrite zlen_zskip, zlen_app. lia. }
    cbn [bind]. eexists. split; [reflexivity|]. split; [exact U|]. left.
    cbn [set_bytes b_bytes sl_data sl_spare gs_put].
    rewrite zlen_zfirst, zlen_app, zlen_copy_at by lia. rewrite zlen_zskip, zlen_app. lia.
  - rewrite gs_upto3_ok by (pose proof (gs_cap_ge (b_bytes b)); lia). cbn [bind].
    match goal with |- context [set_bytes b ?x] => set (b1 := set_bytes b x) end.
    change (b_rdiffs b1) with (b_rdiffs b).
    pose proof (last_of_all (b_rdiffs b) offset U) as LA.
    destruct (last_index (fun d => d_off d <=? offset) (b_rdiffs b)) as [n|] eqn:LI.
    + destruct LA as (d & N & N2). rewrite N, N2.
      pose proof (nth_error_In _ _ N) as ID. specialize (NC d ID).
      assert (Dle : d_off d <= offset) by (unfold upto in U; rewrite Forall_forall in U; auto).
      unfold rcovers in NC. pose proof (d_len_nonneg d) as DN.
      destruct (Z.leb_spec (offset + size) (d_off d + gs_cap (d_sl d))) as [E|E].
      * destruct (gs_upto (d_sl d) (d_len d + (offset + size - (d_len d + d_off d)))) as [sl| |] eqn:V.
        2,3: rewrite gs_upto_ok in V by lia; discriminate.
        cbn [bind]. pose proof (gs_upto_inv _ _ _ V) as (V1 & V2 & _).
        destruct (gs_from sl (d_len d + d_off d - d_off d)) as [t| |] eqn:T.
        2,3: rewrite gs_from_ok in T by lia; discriminate.
        cbn [bind]. pose proof (gs_from_inv _ _ _ T) as (T1 & T2 & _).
        assert (D0 : 0 <= d_off d).
        { rewrite Forall_forall in A2. destruct (A2 d ID). assumption. }
        destruct (read_full s eof (gs_len t) (d_len d + d_off d)) as (p & err & R & Lp & Sp & Ee & En); [lia|lia|lia|].
        rewrite R, (En (EF _ _)). cbn [bind].
        replace ((zlen p <? gs_len t) && (0 <? zlen p)) with false by lia. cbn [bind].
        eexists. split; [reflexivity|]. split.
        -- unfold upto. cbn [set_rdiffs b_rdiffs]. apply Forall_set_nth; [exact U|exact Dle].
        -- right. eexists. split; [cbn [set_rdiffs b_rdiffs]; unfold set_nth; apply in_app_iff; right; left; reflexivity|].
           apply covers_iff. cbn [d_off]. unfold d_len at 1. cbn [d_sl]. unfold gs_len in *. cbn [gs_put sl_data].
           rewrite zlen_copy_at by lia. lia.
      * destruct ((offset <=? d_off d + gs_cap (d_sl d)) && (d_off d + d_len d <=? offset)) eqn:E2.
        -- rewrite gs_upto3_ok by lia. cbn [bind].
           match goal with |- context [load_new _ _ ?bb _ _ _ _ _] =>
             destruct (load_new_forward f srt s eof bb offset size K EF) as (b' & Q1 & Q2 & Q3) end; auto.
           { unfold upto. cbn [set_rdiffs b_rdiffs]. apply Forall_set_nth; [exact U|exact Dle]. }
           exists b'. auto.
        -- cbn [bind]. destruct (load_new_forward f srt s eof b1 offset size K EF U Ho Hs L) as (b' & Q1 & Q2 & Q3).
           exists b'. auto.
    + rewrite LA. cbn [nth_error].
      destruct (load_new_forward f srt s eof b1 offset size K EF U Ho Hs L) as (b' & Q1 & Q2 & Q3).
      exists b'. auto.
Qed.

Lemma reader_forward : forall f srt s eof b off req, keeps srt -> (forall n o, eof n o = false) ->
  agrees s b -> upto off b -> 0 <= off -> 1 <= req -> off + req <= zlen s -> gs_len (b_bytes b) <= off ->
  exists b' r, reader_r (S (S f)) srt (b, Random s eof) off req = Ok ((b', Random s eof), r) /\
    upto off b' /\ 0 < zlen (opt_data r).
Proof.
  intros f srt s eof b off req K EF A U Ho Hr L BL. unfold reader_r.
  destruct (last_index (rcovers off req) (b_rdiffs b)) as [n|] eqn:LI.
  - destruct (last_index_some _ _ _ _ LI) as (l1 & d & l2 & E & Hn & C & _).
    assert (N : nth_error (b_rdiffs b) n = Some d) by (rewrite E, <- Hn; apply nth_error_mid).
    rewrite N. unfold rcovers in C. unfold d_len in C. rewrite gs_from_ok by lia. cbn [bind].
    do 2 eexists. split; [reflexivity|]. split; [exact U|]. cbn [opt_data sl_data].
    unfold gs_len in C. rewrite zlen_zskip. lia.
  - destruct (Z.ltb_spec (gs_len (b_bytes b)) (off + req)); [|lia].
    assert (NC : forall d, In d (b_rdiffs b) -> rcovers off req d = false).
    { intros d Hd. exact (find_last_none _ _ _ _ (last_index_none _ _ _ LI) Hd). }
    destruct (load_forward f srt s eof b off req K EF A U NC Ho Hr L) as (b' & LB & U' & CV).
    rewrite LB. cbn [bind fst].
    destruct (Z.leb_spec (off + Z.max 1 req) (gs_len (b_bytes b'))).
    + rewrite gs_from_ok by lia. cbn [bind]. do 2 eexists. split; [reflexivity|]. split; [exact U'|].
      cbn [opt_data sl_data]. unfold gs_len in *. rewrite zlen_zskip. lia.
    + cbn [is_none]. destruct CV as [CV|(d & Hd & Cd)]; [lia|].
      destruct (last_index (covers off) (b_rdiffs b')) as [n|] eqn:LI2.
      * destruct (last_index_some _ _ _ _ LI2) as (l1 & x & l2 & E & Hn & C & _).
        assert (N : nth_error (b_rdiffs b') n = Some x) by (rewrite E, <- Hn; apply nth_error_mid).
        rewrite N. apply covers_iff in C. unfold d_len in C. rewrite gs_from_ok by lia. cbn [bind].
        do 2 eexists. split; [reflexivity|]. split; [exact U'|]. cbn [opt_data sl_data].
        unfold gs_len in C. rewrite zlen_zskip. lia.
      * rewrite (find_last_none _ _ _ _ (last_index_none _ _ _ LI2) Hd) in Cd. discriminate.
Qed.

Lemma read_forward : forall f srt s eof, keeps srt -> (forall n o, eof n o = false) ->
  forall os b lo, good s b -> b_diffs b = nil -> upto lo b -> 0 <= lo -> forward lo (zlen s) os ->
  exists rs, read_all (S (S f)) srt (b, Random s eof) os = Ok rs /\
    Forall2 (fun q r => 0 < zlen r /\ slice_of_image (img_bytes s) (fst q) r) os rs.
Proof.
  intros f srt s eof K EF. induction os as [|[off req] os IH]; intros b lo G D U Hl F; cbn [read_all forward] in *.
  - exists nil. split; [reflexivity|constructor].
  - destruct F as (F1 & F2 & F3 & F4).
    assert (U1 : upto off b).
    { unfold upto in *. eapply Forall_impl; [|exact U]. cbn. intros. lia. }
    assert (ST : exists b' r, stream_r (S (S f)) srt (b, Random s eof) off req = Ok ((b', Random s eof), r) /\
      upto off b' /\ 0 < zlen (opt_data r)).
    { unfold stream_r. cbn [fst].
      assert (IM : in_memory (set_rdiffs b nil)) by (split; [reflexivity|destruct G as [_ G]; exact G]).
      destruct (writer_r_spec (set_rdiffs b nil) off IM ltac:(lia)) as (w & W & WS).
      change (writer_r (set_rdiffs b nil) off) with (writer_r b off) in W. rewrite W. cbn [bind].
      cbn [set_rdiffs b_diffs b_bytes] in WS. rewrite D in WS. cbn [find_last] in WS.
      destruct (Z.eqb_spec (opt_len w) 0) as [E|E].
      - apply reader_forward; auto; try lia. destruct G as [G _]. exact G.
      - do 2 eexists. split; [reflexivity|]. split; [exact U1|].
        assert (zlen (opt_data w) = opt_len w) by (destruct w; reflexivity).
        pose proof (zlen_nonneg (opt_data w)). lia. }
    destruct ST as (b' & r & E & U' & NE).
    pose proof (stream_agrees f srt s eof b off req K G ltac:(lia) ltac:(lia) F3) as SA. rewrite E in SA.
    cbn [fst snd] in SA. destruct SA as (_ & G' & D' & SA & _).
    destruct (IH b' off G' ltac:(congruence) U' ltac:(lia) F4) as (rs & R & Q).
    exists (opt_data r :: rs). rewrite E. cbn [bind]. rewrite R. cbn [bind]. split; [reflexivity|].
    constructor; auto.
Qed.

Lemma open_forward : forall f srt s cap os, keeps srt -> 0 <= cap -> forward 0 (zlen s) os ->
  exists rs, read_all (S (S f)) srt (open_io (Random s (fun _ _ => false)) cap) os = Ok rs /\
    Forall2 (fun q r => 0 < zlen r /\ slice_of_image (img_bytes s) (fst q) r) os rs.
Proof.
  intros f srt s cap os K Hc F.
  exact (read_forward f srt s (fun _ _ => false) K (fun _ _ => eq_refl) os _ 0
    (open_good s (fun _ _ => false) cap Hc) eq_refl (Forall_nil _) (Z.le_refl 0) F).
Qed.
