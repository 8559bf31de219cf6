(** Copying blocks cell by cell and inserting space between cells. *)
From Coq Require Import ZArith List Bool Lia.
From Coq Require Import Strings.Byte.
From Verif Require Import GoLib BaseModel GoLemmas BaseSpec BaseProofs BaseProofs2 BaseProofs3.
From Verif Require Import TableModel TableSpec TableProofs TableProofs2 ListModel ListSpec ListProofs.
Import ListNotations.
Open Scope Z_scope.

(** ** Reads do not depend on the requested size *)

Lemma base_r_req : forall b off r1 r2, in_memory b -> 0 <= off -> 0 <= r1 -> 0 <= r2 ->
  exists s1 s2, base_r b off r1 = Ok s1 /\ base_r b off r2 = Ok s2 /\ opt_data s1 = opt_data s2.
Proof.
  intros b off r1 r2 Hb Ho H1 H2. unfold base_r.
  destruct (writer_r_spec b off Hb Ho) as (s & -> & S). cbn [bind].
  destruct (opt_len s =? 0) eqn:E; [|eauto].
  assert (HG : gs_len (b_bytes b) <= off).
  { destruct (find_last (covers off) (b_diffs b)); [lia|]. lia. }
  destruct (reader_r0_spec b off r1 Hb Ho H1) as (s1 & -> & S1 & _).
  destruct (reader_r0_spec b off r2 Hb Ho H2) as (s2 & -> & S2 & _).
  exists s1, s2. rewrite S1, S2 by auto. auto.
Qed.

Lemma read_len_iff : forall b off req s n, in_memory b -> 0 <= off -> 0 <= req -> 1 <= n ->
  base_r b off req = Ok s ->
  (n <= opt_len s <-> exists p, zlen p = n /\ served (b_diffs b) (sl_data (b_bytes b)) off p).
Proof.
  intros b off req s n Hb Ho Hr Hn E. split.
  - intros H. exists (zfirst n (opt_data s)). rewrite opt_len_data in H.
    assert (L : zlen (zfirst n (opt_data s)) = n) by (rewrite zlen_zfirst; lia). split; [exact L|].
    apply delivers_served; auto; [lia|]. unfold delivers. rewrite L.
    destruct (base_r_req b off req n Hb Ho Hr ltac:(lia)) as (s1 & s2 & E1 & E2 & ED).
    rewrite E in E1. injection E1 as <-. rewrite E2. rewrite ED in *.
    destruct s2 as [x|]; cbn [opt_data] in *; [|rewrite zlen_nil in H; lia].
    exists x. auto.
  - intros (p & L & H). apply delivers_served in H; auto; [|lia].
    destruct H as (x & E1 & HL & _). rewrite L in *.
    destruct (base_r_req b off req n Hb Ho Hr ltac:(lia)) as (s1 & s2 & E2 & E3 & ED).
    rewrite E in E2. injection E2 as <-. rewrite E1 in E3. injection E3 as <-.
    rewrite opt_len_data, ED. exact HL.
Qed.

Lemma read_positive : forall b off req s, in_memory b -> 0 <= off -> 0 <= req ->
  base_r b off req = Ok s -> content b off <> None -> 1 <= opt_len s.
Proof.
  intros b off req s Hb Ho Hr E HC.
  destruct (base_r_spec b off req Hb Ho Hr) as (s' & E' & S). rewrite E in E'. injection E' as <-.
  destruct (find_last (covers off) (b_diffs b)) as [d|] eqn:F.
  - destruct (find_last_some _ _ _ _ F) as [_ C]. apply covers_iff in C.
    rewrite opt_len_data, S, zlen_zskip. unfold d_len, gs_len, d_data in *. lia.
  - destruct S as (S1 & _). destruct (Z_lt_dec off (gs_len (b_bytes b))); [lia|].
    exfalso. apply HC. apply content_none_ge; auto; lia.
Qed.

(** Splitting of a list at two members found by [find_last]. *)
Lemma find_last_split : forall A (p : A -> bool) l x, find_last p l = Some x ->
  exists l1 l2, l = l1 ++ x :: l2 /\ p x = true /\ forall y, In y l2 -> p y = false.
Proof.
  intros A p l x H. pose proof (last_index_find_last _ p l) as L.
  destruct (last_index p l) as [n|] eqn:E.
  - destruct L as [L1 L2]. destruct (last_index_some _ _ _ _ E) as (l1 & y & l2 & ED & EL & C & F).
    rewrite H in L1. rewrite ED, <- EL, nth_error_mid in L1. injection L1 as ->.
    exists l1, l2. split; [exact ED|]. split; [exact C|].
    intros y Hy. apply (find_last_none _ _ _ _ F Hy).
  - congruence.
Qed.

(** A read never stops in the middle of a cell that is answered whole. *)
Lemma read_covers_cell : forall b ptr c q req s, in_memory b -> no_inner_start (b_diffs b) ->
  0 <= ptr <= c -> 1 <= zlen q -> 0 <= req -> base_r b ptr req = Ok s -> c < ptr + opt_len s ->
  served (b_diffs b) (sl_data (b_bytes b)) c q -> c + zlen q <= ptr + opt_len s.
Proof.
  intros b ptr c q req s Hb HN Hp Hq Hr E HC H.
  assert (G : (c + zlen q - ptr) <= opt_len s); [|lia].
  apply (read_len_iff b ptr req s (c + zlen q - ptr) Hb ltac:(lia) Hr ltac:(lia) E).
  assert (G0 : c - ptr + 1 <= opt_len s) by lia.
  apply (read_len_iff b ptr req s (c - ptr + 1) Hb ltac:(lia) Hr ltac:(lia) E) in G0.
  destruct G0 as (p0 & L0 & S0). unfold served in S0 |- *.
  set (bs := sl_data (b_bytes b)) in *. set (ds := b_diffs b) in *.
  destruct (find_last (covers ptr) ds) as [d|] eqn:F.
  - destruct S0 as [S1 _]. destruct (find_last_split _ _ _ _ F) as (l1 & l2 & ED & CD & FD).
    apply covers_iff in CD.
    assert (HE : c + zlen q <= d_off d + d_len d).
    { unfold served in H. destruct (find_last (covers c) ds) as [e|] eqn:F2.
      - destruct H as [H _]. destruct (find_last_some _ _ _ _ F2) as [IE CE]. apply covers_iff in CE.
        assert (HX : e = d \/ In e l2).
        { rewrite ED in F2. replace (l1 ++ d :: l2) with (l1 ++ [d] ++ l2) in F2 by reflexivity.
          rewrite !find_last_app in F2. destruct (find_last (covers c) l2) as [e2|] eqn:F3.
          - injection F2 as <-. right. apply (find_last_some _ _ _ _ F3).
          - cbn [find_last] in F2. replace (covers c d) with true in F2 by (symmetry; apply covers_iff; lia).
            injection F2 as <-. left; reflexivity. }
        destruct HX as [->|IN]; [exact H|].
        pose proof (FD e IN) as NC. apply in_split in IN as (l3 & l4 & ->).
        pose proof (HN l1 d l3 e l4 ED). unfold covers in NC. lia.
      - pose proof (find_last_none _ _ _ d F2) as X. rewrite ED in X.
        specialize (X ltac:(apply in_elt)). unfold covers in X. lia. }
    exists (zfirst (c + zlen q - ptr) (zskip (ptr - d_off d) (d_data d))).
    assert (L : zlen (zfirst (c + zlen q - ptr) (zskip (ptr - d_off d) (d_data d))) = c + zlen q - ptr).
    { rewrite zlen_zfirst, zlen_zskip. unfold d_len, gs_len, d_data in *. lia. }
    rewrite L. split; [reflexivity|]. split; [lia|reflexivity].
  - destruct S0 as (S1 & S2 & _). unfold served in H.
    destruct (find_last (covers c) ds) as [e|] eqn:F2.
    { exfalso. destruct (find_last_some _ _ _ _ F2) as [IE CE]. apply covers_iff in CE.
      pose proof (find_last_none _ _ _ e F IE) as X. specialize (S1 e IE). rewrite L0 in S1.
      unfold covers in X. lia. }
    destruct H as (H1 & H2 & _).
    exists (zfirst (c + zlen q - ptr) (zskip ptr bs)).
    assert (L : zlen (zfirst (c + zlen q - ptr) (zskip ptr bs)) = c + zlen q - ptr).
    { rewrite zlen_zfirst, zlen_zskip. lia. }
    rewrite L. split; [reflexivity|]. split; [|split; [lia|reflexivity]].
    intros d Hd. specialize (S1 d Hd). specialize (H1 d Hd). rewrite L0 in S1. lia.
Qed.

Lemma delivers_content : forall b c q, in_memory b -> no_inner_start (b_diffs b) -> 0 <= c ->
  delivers b c q -> forall k, 0 <= k < zlen q -> zget q k = content b (c + k).
Proof.
  intros b c q Hb HN Hc (s & E & HL & HF) k Hk. pose proof (zlen_nonneg q).
  pose proof (reads_current_ok b Hb HN c (zlen q) (Some s) (content b) Hc ltac:(lia) (shows_content _ Hb) E) as S.
  cbn [opt_data] in S. rewrite <- (S k) by (unfold gs_len in *; lia).
  rewrite <- HF at 1. rewrite zget_zfirst. replace (k <? zlen q) with true by lia. reflexivity.
Qed.

(** ** The loop of Copy *)

Lemma copy_loop_cells : forall src sp size dst, in_memory src -> no_inner_start (b_diffs src) ->
  0 <= sp ->
  forall fuel ptr ds, sp <= ptr -> sp + size - ptr <= Z.of_nat fuel ->
  exists chunks, copy_loop fuel src sp size dst ptr ds = Ok (ds ++ chunks) /\
    Forall (fun d => dst + (ptr - sp) <= d_off d /\ d_off d < d_off d + d_len d <= dst + size) chunks /\
    forall c q, ptr <= c -> 1 <= zlen q -> c + zlen q <= sp + size -> delivers src c q ->
      (forall j, ptr <= j < c -> content src j <> None) ->
      exists d, find_last (covers (dst + (c - sp))) chunks = Some d /\
        dst + (c - sp) + zlen q <= d_off d + d_len d /\
        zfirst (zlen q) (zskip (dst + (c - sp) - d_off d) (d_data d)) = q.
Proof.
  intros src sp size dst Hs HN Hsp. induction fuel as [|fuel IH]; intros ptr ds Hp Hf; cbn [copy_loop].
  - replace (sp + size <=? ptr) with true by lia. exists nil. rewrite app_nil_r. split; [reflexivity|].
    split; [constructor|]. intros; lia.
  - destruct (sp + size <=? ptr) eqn:E.
    { exists nil. rewrite app_nil_r. split; [reflexivity|]. split; [constructor|]. intros; lia. }
    set (rem := size - (ptr - sp)).
    destruct (base_r_spec src ptr rem Hs ltac:(lia) ltac:(lia)) as (s & ER & _). rewrite ER. cbn [bind].
    assert (STOP : opt_len s = 0 -> forall c q, ptr <= c -> 1 <= zlen q -> c + zlen q <= sp + size ->
       delivers src c q -> (forall j, ptr <= j < c -> content src j <> None) -> False).
    { intros H0 c q Hc Hq Hl HD HR. destruct (Z.eq_dec c ptr) as [->|NE].
      - apply delivers_served in HD; auto; [|lia].
        assert (zlen q <= opt_len s); [|lia].
        apply (read_len_iff src ptr rem s (zlen q) Hs ltac:(lia) ltac:(lia) Hq ER). eauto.
      - pose proof (read_positive src ptr rem s Hs ltac:(lia) ltac:(lia) ER (HR ptr ltac:(lia))). lia. }
    destruct s as [data|]; cbn [opt_len] in *.
    2: { exists nil. rewrite app_nil_r. split; [reflexivity|]. split; [constructor|].
         intros c q Hc Hq Hl HD HR. exfalso. eapply STOP; eauto. }
    destruct (gs_len data =? 0) eqn:E0.
    { exists nil. rewrite app_nil_r. split; [reflexivity|]. split; [constructor|].
      intros c q Hc Hq Hl HD HR. exfalso. apply (STOP ltac:(lia) c q); auto. }
    pose proof (gs_len_nonneg data) as GL. pose proof (gs_cap_ge data) as GC.
    assert (HX : exists data', (if rem <? gs_len data then gs_upto data rem else Ok data) = Ok data' /\
       sl_data data' = zfirst rem (sl_data data)).
    { destruct (rem <? gs_len data) eqn:X.
      - unfold gs_upto. rewrite gs_range_ok by lia. eexists; split; [reflexivity|]. cbn [sl_data].
        rewrite zskip_0. apply zfirst_app_le. unfold gs_len in *. lia.
      - exists data. split; [reflexivity|]. symmetry. apply zfirst_all. unfold gs_len in *. lia. }
    destruct HX as (data' & -> & ED). cbn [bind].
    assert (L' : gs_len data' = Z.min rem (gs_len data)).
    { unfold gs_len. rewrite ED, zlen_zfirst. unfold gs_len in *. lia. }
    destruct (IH (ptr + gs_len data') (ds ++ [mkDiff (ptr - sp + dst) data']) ltac:(lia) ltac:(lia))
      as (chunks & EC & FC & CC).
    rewrite EC. exists (mkDiff (ptr - sp + dst) data' :: chunks). rewrite <- app_assoc. split; [reflexivity|].
    set (d0 := mkDiff (ptr - sp + dst) data') in *.
    assert (D0 : d_off d0 = ptr - sp + dst /\ d_len d0 = gs_len data') by (split; reflexivity).
    split.
    { constructor; [lia|]. eapply Forall_impl; [|exact FC]. cbv beta. intros d Hd. lia. }
    intros c q Hc Hq Hl HD HR. change (d0 :: chunks) with ([d0] ++ chunks). rewrite find_last_app.
    destruct (Z_lt_dec c (ptr + gs_len data')) as [HI|HI].
    + assert (HE : c + zlen q <= ptr + gs_len data').
      { assert (c + zlen q <= ptr + opt_len (Some data)); [|cbn [opt_len] in *; lia].
        apply (read_covers_cell src ptr c q rem (Some data)); auto; cbn [opt_len]; try lia.
        apply delivers_served; auto; lia. }
      rewrite (proj2 (find_last_none_iff _ (covers (dst + (c - sp))) chunks)).
      2: { intros d Hd. rewrite Forall_forall in FC. specialize (FC d Hd). unfold covers. lia. }
      cbn [find_last]. replace (covers (dst + (c - sp)) d0) with true by (symmetry; apply covers_iff; lia).
      exists d0. split; [reflexivity|]. split; [lia|].
      apply zget_ext. intros k. rewrite zget_zfirst.
      destruct (k <? zlen q) eqn:K; [|symmetry; apply zget_ge; lia].
      rewrite zget_zskip by lia. destruct (k <? 0) eqn:K0; [symmetry; apply zget_neg; lia|].
      rewrite (delivers_content src c q Hs HN ltac:(lia) HD k ltac:(lia)).
      unfold d_data; cbn [d_sl d0]. rewrite ED, zget_zfirst.
      replace (dst + (c - sp) - d_off d0 + k) with (c - ptr + k) by lia.
      replace (c - ptr + k <? rem) with true by lia.
      pose proof (reads_current_ok src Hs HN ptr rem (Some data) (content src) ltac:(lia) ltac:(lia) (shows_content _ Hs) ER) as SI.
      cbn [opt_data] in SI. rewrite (SI (c - ptr + k)) by (unfold gs_len in *; lia). f_equal. lia.
    + destruct (CC c q ltac:(lia) Hq Hl HD) as (d & FD & R).
      { intros j Hj. apply HR. lia. }
      rewrite FD. exists d. auto.
Qed.

Lemma copy_cells : forall b src sp size dst, in_memory src -> no_inner_start (b_diffs src) ->
  0 <= sp -> 0 <= size -> gs_len (b_bytes b) <= dst ->
  exists chunks, base_copy b src sp size dst 0 = Ok (set_diffs b (b_diffs b ++ chunks)) /\
    Forall (fun d => dst <= d_off d /\ d_off d < d_off d + d_len d <= dst + size) chunks /\
    forall c q, sp <= c -> 1 <= zlen q -> c + zlen q <= sp + size -> delivers src c q ->
      (forall j, sp <= j < c -> content src j <> None) ->
      served (b_diffs b ++ chunks) (sl_data (b_bytes b)) (dst + (c - sp)) q.
Proof.
  intros b src sp size dst Hs HN Hsp Hz Hd. unfold base_copy.
  destruct (dst <? gs_len (b_bytes b)) eqn:E; [lia|]. cbn [bind]. rewrite map_extend_0.
  destruct (copy_loop_cells src sp size dst Hs HN Hsp (Z.to_nat size) sp (b_diffs b) ltac:(lia) ltac:(lia))
    as (chunks & -> & F & C). cbn [bind]. exists chunks. split; [reflexivity|]. split.
  - eapply Forall_impl; [|exact F]. cbv beta. intros d H. lia.
  - intros c q Hc Hq Hl HD HR. destruct (C c q Hc Hq Hl HD HR) as (d & FD & R).
    unfold served. rewrite find_last_app, FD. exact R.
Qed.

(** The entries that Copy appends follow one another. *)
Lemma clean_nil : no_inner_start nil.
Proof. intros l1 d l2 e l3 H. destruct l1; discriminate. Qed.

Lemma clean_cons : forall d ds, no_inner_start ds ->
  (forall e, In e ds -> d_off e <= d_off d \/ d_off d + d_len d <= d_off e) -> no_inner_start (d :: ds).
Proof.
  intros d ds H HD l1 x l2 e l3 E. destruct l1 as [|y l1]; cbn [app] in E; injection E as E1 E2.
  - subst. apply HD. apply in_or_app. right. left. reflexivity.
  - eapply H. exact E2.
Qed.

Lemma clean_app : forall l l', no_inner_start l -> no_inner_start l' ->
  (forall d e, In d l -> In e l' -> d_off e <= d_off d \/ d_off d + d_len d <= d_off e) ->
  no_inner_start (l ++ l').
Proof.
  induction l as [|x l IH]; intros l' H H' HC; cbn [app]; [exact H'|].
  apply clean_cons.
  - apply IH; [|exact H'|intros; apply HC; [right|]; auto].
    intros l1 d l2 e l3 E. apply (H (x :: l1) d l2 e l3). rewrite E. reflexivity.
  - intros e He. apply in_app_or in He as [He|He].
    + apply in_split in He as (a & c & ->). apply (H nil x a e c). reflexivity.
    + apply HC; [left; reflexivity|exact He].
Qed.

Lemma copy_loop_clean : forall src sp size dst fuel ptr ds ds', copy_loop fuel src sp size dst ptr ds = Ok ds' ->
  exists chunks, ds' = ds ++ chunks /\ Forall (fun d => dst + (ptr - sp) <= d_off d) chunks /\
    no_inner_start chunks.
Proof.
  intros src sp size dst. induction fuel as [|fuel IH]; intros ptr ds ds' H; cbn [copy_loop] in H;
    destruct (sp + size <=? ptr) eqn:E; try discriminate.
  1, 2: injection H as <-; exists nil; rewrite app_nil_r; split; [reflexivity|]; split; [constructor|apply clean_nil].
  destruct (base_r src ptr (size - (ptr - sp))) as [s| |]; cbn [bind] in H; try discriminate.
  assert (NO : Ok ds = Ok ds' -> exists chunks, ds' = ds ++ chunks /\
    Forall (fun d => dst + (ptr - sp) <= d_off d) chunks /\ no_inner_start chunks).
  { intros X. injection X as <-. exists nil. rewrite app_nil_r. split; [reflexivity|]. split; [constructor|apply clean_nil]. }
  destruct s as [data|]; [|auto]. destruct (gs_len data =? 0); [auto|].
  destruct (if size - (ptr - sp) <? gs_len data then gs_upto data (size - (ptr - sp)) else Ok data) as [data'| |];
    cbn [bind] in H; try discriminate.
  apply IH in H as (chunks & -> & F & C). exists (mkDiff (ptr - sp + dst) data' :: chunks).
  rewrite <- app_assoc. split; [reflexivity|]. pose proof (gs_len_nonneg data'). split.
  - constructor; [cbn [d_off]; lia|]. eapply Forall_impl; [|exact F]. cbv beta. intros d Hd. lia.
  - apply clean_cons; [exact C|]. intros e He. right. rewrite Forall_forall in F. specialize (F e He).
    unfold d_len. cbn [d_off d_sl]. lia.
Qed.

(** ** Inserting space between cells *)

Definition beside (pos : Z) (d : diff) : Prop := d_off d + d_len d <= pos \/ pos <= d_off d.

Lemma insert_space_beside : forall b pos size create, gs_len (b_bytes b) <= pos -> 0 <= size ->
  Forall (beside pos) (b_diffs b) ->
  insert_space b pos size create =
    Ok (mkBase (b_bytes b) nil (map (ins_shift pos size) (b_diffs b) ++
         (if create then [mkDiff pos (gs_of (zeros size))] else nil)) (b_check b) 0).
Proof.
  intros b pos size create Hp Hs HF. unfold insert_space.
  rewrite ins_split_none.
  2: { apply (Forall_combine_snd _ _ (fun x => straddles pos x = false)).
       rewrite Forall_forall in *. intros d Hd. specialize (HF d Hd). unfold beside, straddles in *. lia. }
  cbn [bind]. destruct (pos <? gs_len (b_bytes b)) eqn:E; [lia|]. cbn [bind].
  destruct create.
  - destruct (size <? 0) eqn:E1; [lia|]. reflexivity.
  - rewrite app_nil_r. reflexivity.
Qed.

Lemma shift_off : forall pos size d, d_off (ins_shift pos size d) = if pos <=? d_off d then d_off d + size else d_off d.
Proof. intros. unfold ins_shift. destruct (pos <=? d_off d); reflexivity. Qed.
Lemma shift_sl : forall pos size d, d_sl (ins_shift pos size d) = d_sl d.
Proof. intros. unfold ins_shift. destruct (pos <=? d_off d); reflexivity. Qed.

Lemma served_shift_low : forall ds bs pos size c q, 0 <= size -> Forall (beside pos) ds ->
  1 <= zlen q -> c + zlen q <= pos -> served ds bs c q -> served (map (ins_shift pos size) ds) bs c q.
Proof.
  intros ds bs pos size c q Hs HF Hq Hc H. unfold served in *. rewrite find_last_map.
  rewrite (find_last_ext _ (fun x => covers c (ins_shift pos size x)) (covers c) ds).
  2: { intros d Hd. unfold covers, d_len. rewrite shift_off, shift_sl.
       destruct (pos <=? d_off d) eqn:X; lia. }
  destruct (find_last (covers c) ds) as [d|] eqn:F; cbn [option_map].
  - destruct (find_last_some _ _ _ _ F) as [_ C]. apply covers_iff in C.
    unfold d_len, d_data in *. rewrite shift_off, shift_sl. replace (pos <=? d_off d) with false by lia. exact H.
  - destruct H as (H1 & H2). split; [|exact H2]. intros d Hd. apply in_map_iff in Hd as (e & <- & He).
    specialize (H1 e He). rewrite shift_off. destruct (pos <=? d_off e) eqn:X; lia.
Qed.

Lemma served_shift_high : forall ds bs pos size c q, 0 <= size -> Forall (beside pos) ds ->
  1 <= zlen q -> zlen bs <= pos -> pos <= c -> served ds bs c q ->
  served (map (ins_shift pos size) ds) bs (c + size) q.
Proof.
  intros ds bs pos size c q Hs HF Hq Hb Hc H. unfold served in *. rewrite find_last_map.
  rewrite (find_last_ext _ (fun x => covers (c + size) (ins_shift pos size x)) (covers c) ds).
  2: { intros d Hd. rewrite Forall_forall in HF. specialize (HF d Hd). unfold beside in HF.
       unfold covers, d_len in *. rewrite shift_off, shift_sl.
       destruct (pos <=? d_off d) eqn:X; lia. }
  destruct (find_last (covers c) ds) as [d|] eqn:F; cbn [option_map].
  - destruct (find_last_some _ _ _ _ F) as [I C]. apply covers_iff in C.
    rewrite Forall_forall in HF. specialize (HF d I). unfold beside in HF.
    unfold d_len, d_data in *. rewrite shift_off, shift_sl. replace (pos <=? d_off d) with true by lia.
    replace (c + size - (d_off d + size)) with (c - d_off d) by lia. split; [lia|apply H].
  - lia.
Qed.
