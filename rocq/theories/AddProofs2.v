(** Copying the part of a buffer behind a position, and rewriting all slots of a
    vector at once. *)
From Coq Require Import ZArith List Bool Lia.
From Coq Require Import Strings.Byte.
From Verif Require Import GoLib BaseModel GoLemmas BaseSpec BaseProofs BaseProofs2 BaseProofs3.
From Verif Require Import TableModel TableSpec TableProofs TableProofs2 ListModel ListSpec.
From Verif Require Import ListProofs ListProofs2 ListProofs3 ListProofs4 ListProofs5 AddModel AddSpec AddProofs.
Import ListNotations.
Open Scope Z_scope.

(** ** Reads behind a position *)

Lemma base_r_beyond : forall b c req, gs_len (b_bytes b) < c ->
  base_r b c req = match find_last (covers c) (b_diffs b) with
                   | Some d => do s <- gs_from (d_sl d) (c - d_off d);
                               if gs_len s =? 0 then reader_r0 b c req else Ok (Some s)
                   | None => reader_r0 b c req
                   end.
Proof.
  intros b c req H. unfold base_r, writer_r.
  pose proof (last_index_find_last _ (covers c) (b_diffs b)) as L.
  destruct (last_index (covers c) (b_diffs b)) as [n|].
  - destruct L as [L1 L2]. destruct (find_last (covers c) (b_diffs b)) as [d|]; [|congruence]. rewrite L1.
    destruct (gs_from (d_sl d) (c - d_off d)); reflexivity.
  - rewrite L. replace (gs_len (b_bytes b) <? c) with true by lia. reflexivity.
Qed.

Lemma find_last_filter : forall A (p q : A -> bool) l, (forall x, In x l -> p x = true -> q x = true) ->
  find_last p (filter q l) = find_last p l.
Proof.
  induction l as [|x l IH]; intros H; [reflexivity|]. cbn [filter find_last].
  assert (H' : forall y, In y l -> p y = true -> q y = true) by (intros; apply H; [right|]; auto).
  destruct (q x) eqn:E; cbn [find_last]; rewrite (IH H'); destruct (find_last p l); try reflexivity.
  destruct (p x) eqn:P; [|reflexivity]. rewrite (H x (or_introl eq_refl) P) in E. discriminate.
Qed.

Definition behind (lo : Z) (b : base) : base :=
  set_diffs b (filter (fun d => lo <=? d_off d) (b_diffs b)).

Lemma behind_r : forall b lo c req, gs_len (b_bytes b) < lo -> Forall (beside lo) (b_diffs b) -> lo <= c ->
  base_r (behind lo b) c req = base_r b c req.
Proof.
  intros b lo c req HB HF Hc. rewrite !base_r_beyond by (cbn [behind set_diffs b_bytes]; lia).
  cbn [behind set_diffs b_diffs]. rewrite find_last_filter; [reflexivity|].
  intros d Hd C. apply covers_iff in C. rewrite Forall_forall in HF. specialize (HF d Hd). unfold beside in HF. lia.
Qed.

Lemma copy_loop_same : forall src src' sp size dst,
  (forall c req, sp <= c -> base_r src' c req = base_r src c req) ->
  forall fuel ptr ds, sp <= ptr -> copy_loop fuel src' sp size dst ptr ds = copy_loop fuel src sp size dst ptr ds.
Proof.
  intros src src' sp size dst H. induction fuel as [|fuel IH]; intros ptr ds Hp; cbn [copy_loop]; [reflexivity|].
  destruct (sp + size <=? ptr); [reflexivity|]. rewrite (H ptr _ Hp).
  destruct (base_r src ptr _) as [[data|]| |]; try reflexivity. cbn [bind].
  destruct (gs_len data =? 0); [reflexivity|].
  destruct (if _ <? _ then _ else _) as [data'| |]; try reflexivity. cbn [bind]. apply IH.
  pose proof (gs_len_nonneg data'). lia.
Qed.

Lemma copy_cells_behind : forall b src lo sp size dst, in_memory src -> gs_len (b_bytes src) < lo ->
  Forall (beside lo) (b_diffs src) -> no_inner_start (filter (fun d => lo <=? d_off d) (b_diffs src)) ->
  0 <= lo <= sp -> 0 <= size -> gs_len (b_bytes b) <= dst ->
  exists chunks, base_copy b src sp size dst 0 = Ok (set_diffs b (b_diffs b ++ chunks)) /\
    Forall (fun d => dst <= d_off d /\ d_off d < d_off d + d_len d <= dst + size) chunks /\
    no_inner_start chunks /\
    forall c q, sp <= c -> 1 <= zlen q -> c + zlen q <= sp + size -> delivers src c q ->
      (forall j, sp <= j < c -> readable src j) ->
      served (b_diffs b ++ chunks) (sl_data (b_bytes b)) (dst + (c - sp)) q.
Proof.
  intros b src lo sp size dst Hs HB HF HN Hlo Hz Hd.
  pose proof (fun c req => behind_r src lo c req HB HF) as BR.
  assert (Ms : in_memory (behind lo src)).
  { destruct Hs as [X Y]. split; [exact X|]. cbn [behind set_diffs b_diffs]. apply Forall_forall. intros d Hd'.
    apply filter_In in Hd' as [Hd' _]. rewrite Forall_forall in Y. auto. }
  destruct (copy_cells b (behind lo src) sp size dst Ms HN ltac:(lia) Hz Hd) as (chunks & E & F & R).
  exists chunks. unfold base_copy in *. destruct (dst <? gs_len (b_bytes b)) eqn:X; [lia|].
  cbn [bind] in *. rewrite map_extend_0 in *.
  assert (ES : copy_loop (Z.to_nat size) (behind lo src) sp size dst sp (b_diffs b) =
               copy_loop (Z.to_nat size) src sp size dst sp (b_diffs b)).
  { apply copy_loop_same; [|lia]. intros c req Hc. apply BR. lia. }
  rewrite ES in E. split; [exact E|]. split; [exact F|]. split.
  - destruct (copy_loop _ _ _ _ _ _ _) as [ds'| |] eqn:Z; cbn [bind] in E; try discriminate.
    apply copy_loop_clean in Z as (c2 & -> & _ & CC).
    assert (W : b_diffs b ++ c2 = b_diffs b ++ chunks).
    { assert (U : set_diffs b (b_diffs b ++ c2) = set_diffs b (b_diffs b ++ chunks)) by congruence.
      apply (f_equal b_diffs) in U. exact U. }
    apply app_inv_head in W. subst c2. exact CC.
  - intros c q Hc Hq Hl HD HR. apply R; auto.
    + destruct HD as (s & E1 & E2). exists s. rewrite BR by lia. auto.
    + intros j Hj. apply readable_content; [exact Ms|lia|]. destruct (HR j Hj) as [x Hx]. exists x.
      unfold peek in *. rewrite BR by lia. exact Hx.
Qed.

(** ** All slots at once *)

Lemma zlen_write_slots : forall os, zlen (write_slots os) = 4 * zlen os.
Proof.
  induction os as [|o os IH]; [reflexivity|]. unfold write_slots in *. cbn [map concat].
  rewrite zlen_app, IH, zlen_le_encode, zlen_cons. lia.
Qed.

Lemma write_slots_get : forall os i o, zget os i = Some o ->
  zfirst 4 (zskip (4 * i) (write_slots os)) = le_encode 4 (u32 o).
Proof.
  induction os as [|x os IH]; intros i o H; [rewrite zget_nil in H; discriminate|].
  pose proof (zget_some_range _ _ _ H) as R. rewrite zlen_cons in R.
  assert (L4 : zlen (le_encode 4 (u32 x)) = 4) by apply zlen_le_encode.
  unfold write_slots in *. cbn [map concat]. rewrite zget_cons in H.
  destruct (i =? 0) eqn:E.
  - assert (i = 0) by lia. subst i. assert (x = o) by congruence. subst x.
    change (4 * 0) with 0. rewrite zskip_0, zfirst_app_le by lia. apply zfirst_all. lia.
  - destruct (i <? 0) eqn:E0; [lia|]. rewrite <- (IH (i - 1) o) by (rewrite <- H; f_equal; lia). f_equal.
    apply zget_ext. intros j. rewrite !zget_zskip by lia. destruct (j <? 0) eqn:J; [reflexivity|].
    rewrite zget_app, L4. replace (4 * i + j <? 4) with false by lia. f_equal. lia.
Qed.

Lemma read_slots_ok : forall b pos o is, (forall i, In i is -> rd 4 b (pos + i * 4) = Ok (o i)) ->
  read_slots b pos is = Ok (map o is).
Proof.
  induction is as [|i is IH]; intros H; cbn [read_slots]; [reflexivity|].
  rewrite (H i (or_introl eq_refl)). cbn [bind]. rewrite IH by (intros; apply H; right; auto). reflexivity.
Qed.

Lemma zlen_zseq : forall n, 0 <= n -> zlen (zseq n) = n.
Proof. intros n H. unfold zseq. rewrite zlen_map. unfold zlen. rewrite seq_length. lia. Qed.

Lemma zget_zseq : forall n i, 0 <= i < n -> zget (zseq n) i = Some i.
Proof.
  intros n i H. rewrite <- (Z2Nat.id i) at 1 by lia. rewrite zget_nth_error. unfold zseq. rewrite nth_error_map.
  rewrite (nth_error_nth' _ 0%nat) by (rewrite seq_length; lia). rewrite seq_nth by lia. cbn. f_equal. lia.
Qed.

Lemma move_spec : forall l n s d o, in_memory (l_io l) -> gs_len (b_bytes (l_io l)) <= 4 ->
  Forall (shp n s) (b_diffs (l_io l)) -> l_pos l = 4 -> list_vlen l = Ok n -> 1 <= n ->
  (forall i, 0 <= i < n -> rd 4 (l_io l) (4 + i * 4) = Ok (o i) /\ 0 <= o i + d < 4294967296) ->
  exists b' ds p, move_offsets l d = Ok (set_io l b') /\ in_memory b' /\ b_bytes b' = b_bytes (l_io l) /\
    Forall (shp n s) (b_diffs b') /\ tail n (b_diffs b') = tail n (b_diffs (l_io l)) /\
    b_diffs b' = ds ++ [mkDiff 4 (gs_of p)] /\ zlen p = 4 * n /\
    (forall i, 0 <= i < n -> zfirst 4 (zskip (4 * i) p) = le_encode 4 (o i + d)) /\
    (forall i, 0 <= i < n -> rd 4 b' (4 + i * 4) = Ok (o i + d)) /\
    (forall c q, 0 <= c -> 1 <= zlen q -> (c + zlen q <= 4 \/ 4 + 4 * n <= c) ->
       delivers (l_io l) c q -> delivers b' c q).
Proof.
  intros l n s d o Hb HB HF HP HV Hn HO. unfold move_offsets. rewrite HV. cbn [bind]. rewrite HP.
  rewrite (read_slots_ok (l_io l) 4 o (zseq n)) by (intros i Hi; apply zseq_in in Hi; apply HO; lia).
  cbn [bind]. rewrite map_map. set (p := write_slots (map (fun x => o x + d) (zseq n))).
  assert (LP : zlen p = 4 * n) by (unfold p; rewrite zlen_write_slots, zlen_map, zlen_zseq; lia).
  destruct (u_delivers (l_io l) 4 p Hb ltac:(lia) ltac:(lia)) as (b' & EU & M & EB & _ & D & FR).
  rewrite LP in EU, FR. replace (n * 4) with (4 * n) by lia. rewrite EU. cbn [bind].
  replace (n =? 0) with false by lia.
  destruct (u_shape (l_io l) n s 1 (n + 1) p b' HF ltac:(lia) ltac:(lia) ltac:(lia)) as (S1 & T1 & ds & ED).
  { rewrite <- EU. f_equal; lia. }
  change (4 * 1) with 4 in ED.
  assert (SL : forall i, 0 <= i < n -> zfirst 4 (zskip (4 * i) p) = le_encode 4 (o i + d)).
  { intros i Hi. unfold p. rewrite (write_slots_get _ i (o i + d)).
    - f_equal. unfold u32. change (2 ^ 32) with 4294967296. apply Z.mod_small. apply HO; lia.
    - rewrite zget_map, zget_zseq by lia. reflexivity. }
  exists b', ds, p. split; [reflexivity|]. split; [exact M|]. split; [exact EB|]. split; [exact S1|].
  split; [exact T1|]. split; [exact ED|]. split; [exact LP|]. split; [exact SL|]. split; [|exact FR].
  intros i Hi. rewrite (rd_delivers 4 b' (4 + i * 4) (o i + d)); [f_equal; apply Z.mod_small; apply HO; lia|lia|].
  apply delivers_served; [exact M|lia|rewrite zlen_le_encode; lia|]. unfold served. rewrite ED, find_last_app.
  cbn [find_last]. assert (LD : d_len (mkDiff 4 (gs_of p)) = 4 * n) by exact LP.
  replace (covers (4 + i * 4) (mkDiff 4 (gs_of p))) with true.
  2: { symmetry. apply covers_iff. rewrite LD. cbn [d_off]. lia. }
  cbv iota. rewrite LD. cbn [d_off]. rewrite zlen_le_encode. change (Z.of_nat 4) with 4. split; [lia|].
  replace (4 + i * 4 - 4) with (4 * i) by lia. exact (SL i Hi).
Qed.
