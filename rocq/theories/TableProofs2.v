(** Lemmas on table creation and on histories of field assignments. *)
From Coq Require Import ZArith List Bool Lia.
From Coq Require Import Strings.Byte.
From Verif Require Import GoLib BaseModel GoLemmas BaseSpec BaseProofs BaseProofs2 BaseProofs3.
From Verif Require Import TableModel TableSpec TableProofs.
Import ListNotations.
Open Scope Z_scope.

(** ** Init *)

Lemma poke_flat : forall b pos p, flat b -> 0 <= pos -> 1 <= zlen p ->
  pos + zlen p <= gs_len (b_bytes b) ->
  exists b', poke b pos p = Ok b' /\ flat b' /\ b_check b' = b_check b /\
    gs_len (b_bytes b') = gs_len (b_bytes b) /\ b_seek b' = b_seek b /\
    sl_spare (b_bytes b') = sl_spare (b_bytes b) /\
    forall i, img_bytes (sl_data (b_bytes b')) i = img_write (img_bytes (sl_data (b_bytes b))) pos p i.
Proof.
  intros b pos p Hf Hp Hn HL. unfold poke.
  destruct (whole_read b pos (zlen p) (zlen p) (flat_in_memory _ Hf) Hp Hn ltac:(lia)) as (s & -> & Hs & _).
  { destruct Hf as [_ ->]. apply whole_flat. lia. }
  cbn [bind opt_len]. destruct (gs_len s <? zlen p) eqn:E; [lia|].
  eexists; split; [reflexivity|]. destruct Hf as [F1 F2].
  split; [split; auto|]. cbn [set_bytes b_check b_bytes sl_data sl_spare b_seek].
  split; [reflexivity|]. unfold gs_len in *. cbn [sl_data].
  split; [apply zlen_copy_at; lia|]. split; [reflexivity|]. split; [reflexivity|].
  intros i. unfold img_bytes, img_write. rewrite zget_copy_at by lia.
  destruct ((pos <=? i) && (i <? pos + zlen p)) eqn:C; [|reflexivity].
  replace (i <? zlen (sl_data (b_bytes b))) with true by lia. reflexivity.
Qed.

Lemma zget_repeat : forall n i (x : Z), zget (repeat x n) i = Some x \/ zget (repeat x n) i = None.
Proof.
  intros. destruct (zget (repeat x n) i) as [y|] eqn:E; [|auto]. left.
  unfold zget in E. destruct (i <? 0); [discriminate|].
  apply nth_error_In in E. apply repeat_spec in E. congruence.
Qed.

Lemma zlen_repeat : forall A (x : A) n, zlen (repeat x n) = Z.of_nat n.
Proof. intros. unfold zlen. rewrite repeat_length. reflexivity. Qed.

Lemma init_table_ok : forall ks, 4 + 2 * zlen ks < 65536 ->
  exists b, init_table ks = Ok (b, 4 + 2 * zlen ks) /\ flat b /\ b_check b = true /\
    gs_len (b_bytes b) = 4 + 2 * zlen ks + 4 /\
    table_at (img_bytes (sl_data (b_bytes b))) (4 + 2 * zlen ks) (4 + 2 * zlen ks)
             (repeat 0 (length ks)) 4 /\
    holds_uint (img_bytes (sl_data (b_bytes b))) 0 2 (4 + 2 * zlen ks).
Proof.
  intros ks HK. pose proof (zlen_nonneg ks) as HN. unfold init_table.
  replace (4 + zlen ks * 2) with (4 + 2 * zlen ks) by lia.
  set (v := 4 + 2 * zlen ks) in *.
  set (b0 := new_base _).
  assert (F0 : flat b0) by (split; reflexivity).
  assert (L0 : gs_len (b_bytes b0) = v + 4).
  { unfold b0, gs_len, new_base, gs_make; cbn [b_bytes sl_data]. rewrite zlen_zeros. lia. }
  assert (Z0 : forall i, 0 <= i < v + 4 -> img_bytes (sl_data (b_bytes b0)) i = Some x00).
  { intros i Hi. unfold b0, new_base, gs_make, img_bytes; cbn [b_bytes sl_data]. rewrite zget_zeros.
    replace ((0 <=? i) && (i <? 4 + v)) with true by lia. reflexivity. }
  unfold u32, u16. rewrite !Z.mod_small by lia.
  assert (E4 : forall x, zlen (le_encode 4 x) = 4) by (intros; apply zlen_le_encode).
  assert (E2 : forall x, zlen (le_encode 2 x) = 2) by (intros; apply zlen_le_encode).
  destruct (poke_flat b0 v (le_encode 4 v) F0 ltac:(lia) ltac:(rewrite E4; lia) ltac:(rewrite E4; lia))
    as (b1 & -> & F1 & C1 & L1 & _ & _ & I1). cbn [bind].
  destruct (poke_flat b1 0 (le_encode 2 v) F1 ltac:(lia) ltac:(rewrite E2; lia) ltac:(rewrite E2; lia))
    as (b2 & -> & F2 & C2 & L2 & _ & _ & I2). cbn [bind].
  destruct (poke_flat b2 2 (le_encode 2 4) F2 ltac:(lia) ltac:(rewrite E2; lia) ltac:(rewrite E2; lia))
    as (b3 & -> & F3 & C3 & L3 & _ & _ & I3). cbn [bind].
  exists b3. split; [reflexivity|]. split; [exact F3|]. split; [rewrite C3, C2, C1; reflexivity|]. split; [lia|].
  assert (HV : holds_uint (img_bytes (sl_data (b_bytes b3))) 0 2 v).
  { apply holds_uint_encode; [|change (256 ^ Z.of_nat 2) with 65536; lia].
    intros k Hk. rewrite I3. unfold img_write at 1. rewrite E2.
    destruct ((2 <=? 0 + k) && (0 + k <? 2 + 2)) eqn:X; [lia|]. rewrite I2. unfold img_write at 1.
    rewrite E2. destruct ((0 <=? 0 + k) && (0 + k <? 0 + 2)) eqn:Y; [|lia]. f_equal. lia. }
  split; [|exact HV]. constructor.
  - rewrite Z.mod_small by lia. apply holds_uint_encode; [|change (256 ^ Z.of_nat 4) with 4294967296; lia].
    intros k Hk. rewrite I3. unfold img_write at 1. rewrite E2.
    destruct ((2 <=? v + k) && (v + k <? 2 + 2)) eqn:X; [lia|]. rewrite I2. unfold img_write at 1.
    rewrite E2. destruct ((0 <=? v + k) && (v + k <? 0 + 2)) eqn:Y; [lia|].
    rewrite I1. unfold img_write at 1. rewrite E4.
    destruct ((v <=? v + k) && (v + k <? v + 4)) eqn:W; [|lia]. f_equal. lia.
  - change (2 ^ 31) with 2147483648. lia.
  - lia.
  - rewrite zlen_repeat. fold (zlen ks). rewrite Z.sub_diag. exact HV.
  - rewrite Z.sub_diag. apply holds_uint_encode; [|change (256 ^ Z.of_nat 2) with 65536; lia].
    intros k Hk. rewrite I3. unfold img_write at 1. rewrite E2.
    destruct ((2 <=? 0 + 2 + k) && (0 + 2 + k <? 2 + 2)) eqn:X; [|lia]. f_equal. lia.
  - intros i e Hi. pose proof (zget_some_range _ _ _ Hi) as R. rewrite zlen_repeat in R.
    destruct (zget_repeat (length ks) i 0) as [Q|Q]; rewrite Q in Hi; [|discriminate].
    injection Hi as <-. rewrite Z.sub_diag.
    split; [change (256 ^ Z.of_nat 2) with 65536; lia|]. intros k Hk. exists x00.
    assert (0 <= i < zlen ks) by (unfold zlen; lia).
    rewrite I3. unfold img_write at 1. rewrite E2.
    destruct ((2 <=? 0 + 4 + 2 * i + k) && (0 + 4 + 2 * i + k <? 2 + 2)) eqn:X; [lia|].
    rewrite I2. unfold img_write at 1. rewrite E2.
    destruct ((0 <=? 0 + 4 + 2 * i + k) && (0 + 4 + 2 * i + k <? 0 + 2)) eqn:Y; [lia|].
    rewrite I1. unfold img_write at 1. rewrite E4.
    destruct ((v <=? 0 + 4 + 2 * i + k) && (0 + 4 + 2 * i + k <? v + 4)) eqn:W; [lia|].
    rewrite Z0 by lia. split; [reflexivity|]. change (b2z x00) with 0. reflexivity.
Qed.

(** ** Pieces of [SetFieldAt] *)

Lemma copy_loop_one : forall src sp p dst ds, delivers src sp p -> 1 <= zlen p ->
  exists s, copy_loop (Z.to_nat (zlen p)) src sp (zlen p) dst sp ds = Ok (ds ++ [mkDiff dst s]) /\
    sl_data s = p.
Proof.
  intros src sp p dst ds (s & ER & HL & HE) Hp.
  destruct (Z.to_nat (zlen p)) as [|f] eqn:EF; [lia|]. cbn [copy_loop].
  destruct (sp + zlen p <=? sp) eqn:E; [lia|].
  rewrite Z.sub_diag, Z.sub_0_r. rewrite ER. cbn [bind].
  destruct (gs_len s =? 0) eqn:E0; [lia|].
  assert (HX : exists s', (if zlen p <? gs_len s then gs_upto s (zlen p) else Ok s) = Ok s' /\ sl_data s' = p).
  { destruct (zlen p <? gs_len s) eqn:E1.
    - unfold gs_upto. pose proof (gs_cap_ge s). rewrite gs_range_ok by lia.
      eexists; split; [reflexivity|]. cbn [sl_data]. rewrite zskip_0.
      rewrite zfirst_app_le by (unfold gs_len in *; lia). exact HE.
    - exists s. split; [reflexivity|]. rewrite zfirst_all in HE by (unfold gs_len in *; lia). exact HE. }
  destruct HX as (s' & -> & HD). cbn [bind]. exists s'. split; [|exact HD].
  replace (gs_len s') with (zlen p) by (unfold gs_len; rewrite HD; reflexivity).
  replace (0 + dst) with dst by lia.
  destruct f; cbn [copy_loop]; (destruct (sp + zlen p <=? sp + zlen p) eqn:E2; [reflexivity|lia]).
Qed.

Lemma map_extend_0 : forall dst ds,
  map (fun d => if dst <=? d_off d then mkDiff (d_off d + 0) (d_sl d) else d) ds = ds.
Proof.
  intros. rewrite <- (map_id ds) at 2. apply map_ext. intros [o s]; cbn [d_off d_sl].
  destruct (dst <=? o); [rewrite Z.add_0_r|]; reflexivity.
Qed.

Lemma copy_beyond : forall b src sp p dst, delivers src sp p -> 1 <= zlen p ->
  gs_len (b_bytes b) <= dst ->
  exists s, base_copy b src sp (zlen p) dst 0 = Ok (set_diffs b (b_diffs b ++ [mkDiff dst s])) /\
    sl_data s = p.
Proof.
  intros b src sp p dst HD Hp Hdst. unfold base_copy.
  destruct (dst <? gs_len (b_bytes b)) eqn:E; [lia|]. cbn [bind]. rewrite map_extend_0.
  destruct (copy_loop_one src sp p dst (b_diffs b) HD Hp) as (s & -> & HS). cbn [bind].
  exists s. auto.
Qed.

Lemma insert_space_end : forall b p size, gs_len (b_bytes b) <= p -> 0 <= size ->
  Forall (fun d => d_off d + d_len d <= p /\ 0 < d_len d) (b_diffs b) ->
  insert_space b p size true =
    Ok (mkBase (b_bytes b) nil (b_diffs b ++ [mkDiff p (gs_of (zeros size))]) (b_check b) 0).
Proof.
  intros b p size Hp Hs HF. unfold insert_space.
  rewrite ins_split_none.
  2: { apply (Forall_combine_snd _ _ (fun x => straddles p x = false)).
       rewrite Forall_forall in *. intros d Hd. specialize (HF d Hd). unfold straddles. lia. }
  cbn [bind]. destruct (p <? gs_len (b_bytes b)) eqn:E; [lia|]. cbn [bind].
  destruct (size <? 0) eqn:E1; [lia|]. cbn [bind]. do 2 f_equal. f_equal.
  rewrite <- (map_id (b_diffs b)) at 2. apply map_ext_in. intros d Hd.
  rewrite Forall_forall in HF. specialize (HF d Hd). unfold ins_shift.
  destruct (p <=? d_off d) eqn:X; [lia|reflexivity].
Qed.

Lemma base_u_cell : forall b off p, 0 <= off -> 1 <= zlen p ->
  (forall d, In d (b_diffs b) -> covers off d = true -> d_off d + d_len d <= off + zlen p) ->
  exists l, base_u b off (zlen p) p = Ok (set_diffs b (b_diffs b ++ l ++ [mkDiff off (gs_of p)])) /\
    Forall (fun d => d_off d = off /\ d_len d = zlen p) l.
Proof.
  intros b off p Ho Hp H. unfold base_u.
  destruct (zlen p <? 0) eqn:E1; [lia|]. destruct (zlen p <? zlen p) eqn:E2; [lia|].
  rewrite copy_at_full by (rewrite zlen_zeros; lia). unfold base_d.
  destruct (last_index (covers off) (b_diffs b)) as [sn|] eqn:E.
  - destruct (last_index_some _ _ _ _ E) as (l1 & d & l2 & ED & EL & C & F).
    rewrite ED, <- EL, nth_error_mid. rewrite <- ED.
    assert (HI : In d (b_diffs b)) by (rewrite ED; apply in_elt). specialize (H d HI C).
    destruct (d_off d + d_len d <=? off + zlen p) eqn:X; [|lia].
    exists nil. split; [reflexivity|constructor].
  - destruct ((off <? gs_len (b_bytes b)) && (off + zlen p <? gs_cap (b_bytes b))) eqn:X.
    + rewrite gs_range_ok by lia. cbn [bind]. eexists [_]. split; [reflexivity|].
      repeat constructor. unfold d_len, gs_len; cbn [d_sl sl_data].
      rewrite zlen_zskip, zlen_zfirst, zlen_app. unfold gs_cap in X. lia.
    + exists nil. split; [reflexivity|constructor].
Qed.

(** ** The invariant of a free-standing table *)

Section Inv.
Variable ks : list fkind.

Definition tpos : Z := 4 + 2 * zlen ks.

(** Sum of the inline sizes of the fields not yet present. *)
Fixpoint rest_size (l : list fkind) (vt : list Z) : Z :=
  match l, vt with
  | k :: l', e :: vt' =>
      (if e =? 0 then match inline_size k with Some n => n | None => 0 end else 0)
      + rest_size l' vt'
  | _, _ => 0
  end.

Definition cell (b : base) (c n : Z) : Prop := whole (b_diffs b) (gs_len (b_bytes b)) c n.

Definition shape (vt : list Z) (d : diff) : Prop :=
  (exists k, 0 <= k <= zlen ks /\ d_off d = 2 + 2 * k /\ d_len d = 2)
  \/ (exists i e k n, zget vt i = Some e /\ e <> 0 /\ zget ks i = Some k /\
        inline_size k = Some n /\ d_off d = tpos + e /\ d_len d = n).

Record inv (t : tnode) (vt : list Z) (tl : Z) (vals : fmap) : Prop := {
  i_pos : t_pos t = tpos;
  i_mem : in_memory (t_io t);
  i_len : gs_len (b_bytes (t_io t)) = tpos + 4;
  i_vt : zlen vt = zlen ks;
  i_tl : 4 <= tl /\ tl + rest_size ks vt <= 65535;
  i_ge : Forall (fun e => 0 <= e) vt;
  i_shape : Forall (shape vt) (b_diffs (t_io t));
  i_soff : holds_uint (content (t_io t)) tpos 4 tpos /\ cell (t_io t) tpos 4;
  i_vlen : holds_uint (content (t_io t)) 0 2 tpos /\ cell (t_io t) 0 2;
  i_tlen : holds_uint (content (t_io t)) 2 2 tl /\ cell (t_io t) 2 2;
  i_entry : forall i e, zget vt i = Some e ->
     holds_uint (content (t_io t)) (4 + 2 * i) 2 e /\ cell (t_io t) (4 + 2 * i) 2;
  i_none : forall i, (forall e, zget vt i = Some e -> e = 0) -> vals i = None;
  i_field : forall i e, zget vt i = Some e -> e <> 0 ->
     exists k n p, zget ks i = Some k /\ inline_size k = Some n /\ vals i = Some p /\
       zlen p = n /\ 4 <= e /\ e + n <= tl /\ cell (t_io t) (tpos + e) n /\
       forall q, 0 <= q < n -> content (t_io t) (tpos + e + q) = zget p q;
  i_disj : forall i j ei ej ki kj ni nj, i <> j ->
     zget vt i = Some ei -> zget vt j = Some ej -> ei <> 0 -> ej <> 0 ->
     zget ks i = Some ki -> zget ks j = Some kj ->
     inline_size ki = Some ni -> inline_size kj = Some nj ->
     ei + ni <= ej \/ ej + nj <= ei;
  i_full : forall c, 0 <= c < tpos + tl -> content (t_io t) c <> None
}.

Hypothesis sizes_pos : Forall (fun k => forall n, inline_size k = Some n -> 1 <= n) ks.
Hypothesis small : tpos < 65536.

Lemma size_pos : forall i k n, zget ks i = Some k -> inline_size k = Some n -> 1 <= n.
Proof.
  intros i k n H. rewrite Forall_forall in sizes_pos.
  unfold zget in H. destruct (i <? 0); [discriminate|]. apply nth_error_In in H. eauto.
Qed.

Lemma zlen_ks : 0 <= zlen ks.
Proof. apply zlen_nonneg. Qed.

Lemma img_write_full : forall m off p c, m c <> None -> img_write m off p c <> None.
Proof.
  intros m off p c H. unfold img_write. destruct (_ && _) eqn:X; [|exact H].
  destruct (zget_some p (c - off) ltac:(lia)) as [x ->]. discriminate.
Qed.

Lemma inv_rd : forall t vt tl vals n c v, inv t vt tl vals -> 0 <= c -> (1 <= n)%nat ->
  holds_uint (content (t_io t)) c n v /\ cell (t_io t) c (Z.of_nat n) -> rd n (t_io t) c = Ok v.
Proof. intros t vt tl vals n c v I Hc Hn [H1 H2]. apply rd_whole; auto. apply I. Qed.

Lemma inv_vtable_pos : forall t vt tl vals, inv t vt tl vals -> vtable_pos (t_io t) (t_pos t) = Ok 0.
Proof.
  intros t vt tl vals I. unfold vtable_pos. rewrite (i_pos _ _ _ _ I).
  pose proof zlen_ks.
  rewrite (inv_rd t vt tl vals 4 tpos tpos I ltac:(unfold tpos; lia) ltac:(lia) (i_soff _ _ _ _ I)).
  cbn [bind]. f_equal. lia.
Qed.

Lemma len_buf_ge : forall b, in_memory b -> gs_len (b_bytes b) <= len_buf b.
Proof.
  intros b [H _]. unfold len_buf. rewrite H. cbn [fold_left]. generalize (gs_len (b_bytes b)).
  induction (b_diffs b) as [|d ds IH]; intros z; cbn [fold_left]; [lia|].
  specialize (IH (Z.max z (d_off d + d_len d))). lia.
Qed.

Lemma inv_virtual_table : forall t vt tl vals i e, inv t vt tl vals -> zget vt i = Some e ->
  virtual_table (t_io t) (t_pos t) i = Ok (t_pos t + e).
Proof.
  intros t vt tl vals i e I Hi. unfold virtual_table.
  rewrite (inv_vtable_pos t vt tl vals I). cbn [bind].
  pose proof (zget_some_range _ _ _ Hi) as R. rewrite (i_vt _ _ _ _ I) in R.
  pose proof (len_buf_ge _ (i_mem _ _ _ _ I)) as LB. rewrite (i_len _ _ _ _ I) in LB. unfold tpos in LB.
  destruct (len_buf (t_io t) <=? 0 + 4 + i * 2) eqn:X; [lia|]. rewrite andb_false_r.
  replace (0 + 4 + i * 2) with (4 + 2 * i) by lia.
  rewrite (inv_rd t vt tl vals 2 (4 + 2 * i) e I ltac:(lia) ltac:(lia) (i_entry _ _ _ _ I i e Hi)).
  reflexivity.
Qed.

Lemma inv_is_zero : forall t vt tl vals i e, inv t vt tl vals -> zget vt i = Some e ->
  virtual_table_is_zero (t_io t) (t_pos t) i = Ok (e =? 0).
Proof.
  intros t vt tl vals i e I Hi. unfold virtual_table_is_zero.
  rewrite (inv_virtual_table t vt tl vals i e I Hi). cbn [bind]. f_equal.
  destruct (e =? 0) eqn:X; lia.
Qed.

Lemma inv_table_len : forall t vt tl vals, inv t vt tl vals -> table_len (t_io t) (t_pos t) = Ok tl.
Proof.
  intros t vt tl vals I. unfold table_len. rewrite (inv_vtable_pos t vt tl vals I). cbn [bind].
  apply (inv_rd t vt tl vals 2 2 tl I ltac:(lia) ltac:(lia) (i_tlen _ _ _ _ I)).
Qed.

Lemma inv_preload : forall t vt tl vals, inv t vt tl vals ->
  preload_vtable (t_io t) (t_pos t) = Ok tl.
Proof.
  intros t vt tl vals I. unfold preload_vtable. rewrite (inv_vtable_pos t vt tl vals I). cbn [bind].
  rewrite (inv_rd t vt tl vals 2 0 tpos I ltac:(lia) ltac:(lia) (i_vlen _ _ _ _ I)). cbn [bind].
  change (0 + 2) with 2.
  rewrite (inv_rd t vt tl vals 2 2 tl I ltac:(lia) ltac:(lia) (i_tlen _ _ _ _ I)). cbn [bind].
  assert (HP : forall f j, 0 <= j <= zlen ks -> zlen ks - j <= Z.of_nat f ->
            preload_loop f (t_io t) (4 + 2 * j) tpos = Ok tt).
  { induction f as [|f IH]; intros j Hj Hf; cbn [preload_loop]; unfold tpos at 1.
    - replace (4 + 2 * zlen ks <=? 4 + 2 * j) with true by lia. reflexivity.
    - destruct (4 + 2 * zlen ks <=? 4 + 2 * j) eqn:X; [reflexivity|].
      destruct (zget_some vt j) as [e He]; [rewrite (i_vt _ _ _ _ I); lia|].
      rewrite (inv_rd t vt tl vals 2 (4 + 2 * j) e I ltac:(lia) ltac:(lia) (i_entry _ _ _ _ I j e He)).
      cbn [bind]. replace (4 + 2 * j + 2) with (4 + 2 * (j + 1)) by lia. apply IH; lia. }
  pose proof zlen_ks.
  specialize (HP (Z.to_nat tpos) 0 ltac:(lia) ltac:(unfold tpos; lia)).
  change (0 + 4) with (4 + 2 * 0). replace (0 + tpos) with tpos by lia. rewrite HP. reflexivity.
Qed.

Lemma inv_in_root : forall t vt tl vals, inv t vt tl vals -> in_root (t_io t) (t_pos t) = Ok false.
Proof.
  intros t vt tl vals I. unfold in_root. pose proof zlen_ks.
  rewrite (inv_rd t vt tl vals 2 0 tpos I ltac:(lia) ltac:(lia) (i_vlen _ _ _ _ I)). cbn [bind].
  destruct (whole_read (t_io t) tpos 4 4 (i_mem _ _ _ _ I) ltac:(unfold tpos; lia) ltac:(lia) ltac:(lia)
     (proj2 (i_soff _ _ _ _ I))) as (s & -> & HL & _).
  cbn [bind opt_len]. destruct (gs_len s <? 4) eqn:X; [lia|].
  destruct (t_pos t <? 8); [reflexivity|].
  rewrite (inv_rd t vt tl vals 4 tpos tpos I ltac:(unfold tpos; lia) ltac:(lia) (i_soff _ _ _ _ I)).
  cbn [bind]. rewrite Z.eqb_refl. reflexivity.
Qed.

Lemma inv_ends : forall t vt tl vals, inv t vt tl vals ->
  Forall (fun d => d_off d + d_len d <= tpos + tl /\ 0 < d_len d) (b_diffs (t_io t)).
Proof.
  intros t vt tl vals I. apply (Forall_impl _ (P := shape vt)); [|apply I].
  pose proof (i_tl _ _ _ _ I).
  intros d [(k & Hk & E1 & E2)|(i & e & k & n & Hi & He & Hk & Hn & E1 & E2)].
  - unfold tpos. lia.
  - destruct (i_field _ _ _ _ I i e Hi He) as (k' & n' & p & F1 & F2 & F3 & F4 & F5 & F6 & _).
    rewrite F1 in Hk. injection Hk as <-. rewrite F2 in Hn. injection Hn as <-.
    pose proof (size_pos i k' n' F1 F2). lia.
Qed.

Lemma inv_move_refs : forall t vt tl vals idx wpos size, inv t vt tl vals -> 0 <= wpos ->
  forall l i, (forall q k, zget l q = Some k -> zget ks (i + q) = Some k) -> 0 <= i ->
  move_refs l i idx wpos size t = Ok t.
Proof.
  intros t vt tl vals idx wpos size I Hw. induction l as [|k l IH]; intros i Hl Hi; cbn [move_refs].
  - reflexivity.
  - assert (HX : (if i =? idx then Ok t
                else match k with
                     | KRef =>
                         do r <- table_ref (t_io t) (t_pos t) i;
                         if wpos <=? r then move_pos t i wpos size else Ok t
                     | _ => Ok t
                     end) = Ok t).
    { destruct (i =? idx); [reflexivity|]. destruct k; try reflexivity.
      pose proof (Hl 0 KRef) as H0. rewrite zget_cons in H0. cbn in H0. specialize (H0 eq_refl).
      replace (i + 0) with i in H0 by lia.
      destruct (zget_some vt i) as [e He].
      { pose proof (zget_some_range _ _ _ H0). rewrite (i_vt _ _ _ _ I). lia. }
      assert (e = 0).
      { destruct (Z.eq_dec e 0); auto. destruct (i_field _ _ _ _ I i e He n) as (k' & n' & p & F1 & F2 & _).
        rewrite F1 in H0. injection H0 as ->. discriminate. }
      subst e. unfold table_ref. rewrite (inv_virtual_table t vt tl vals i 0 I He), (inv_is_zero t vt tl vals i 0 I He).
      cbn [bind Z.eqb]. destruct (wpos <=? -1) eqn:X; [lia|reflexivity]. }
    rewrite HX. cbn [bind]. apply IH; [|lia]. intros q k' Hq. replace (i + 1 + q) with (i + (1 + q)) by lia.
    apply Hl. rewrite zget_cons. pose proof (zget_some_range _ _ _ Hq).
    destruct (1 + q =? 0) eqn:X; [lia|]. replace (1 + q - 1) with q by lia. exact Hq.
Qed.

(** Overwriting a field that is present. *)
Lemma inv_copy : forall t vt tl vals i e k p src sp, inv t vt tl vals ->
  zget vt i = Some e -> e <> 0 -> zget ks i = Some k -> inline_size k = Some (zlen p) ->
  delivers src sp p ->
  exists b, base_copy (t_io t) src sp (zlen p) (tpos + e) 0 = Ok b /\
    inv (mkT b (t_pos t)) vt tl (fmap_set vals i p).
Proof.
  intros t vt tl vals i e k p src sp I Hi He Hk Hn HD.
  destruct (i_field _ _ _ _ I i e Hi He) as (k' & n' & p0 & F1 & F2 & F3 & F4 & F5 & F6 & F7 & F8).
  rewrite Hk in F1. injection F1 as <-. rewrite Hn in F2. injection F2 as <-.
  pose proof (size_pos i k (zlen p) Hk Hn) as HP.
  destruct (copy_beyond (t_io t) src sp p (tpos + e) HD HP) as (s & EC & HS).
  { rewrite (i_len _ _ _ _ I). lia. }
  exists (set_diffs (t_io t) (b_diffs (t_io t) ++ [mkDiff (tpos + e) s])).
  split; [exact EC|].
  set (d := mkDiff (tpos + e) s).
  assert (DL : d_len d = zlen p) by (unfold d, d_len, gs_len; cbn [d_sl]; rewrite HS; reflexivity).
  assert (CC : forall q, content (set_diffs (t_io t) (b_diffs (t_io t) ++ [d])) q
                 = img_write (content (t_io t)) (tpos + e) p q).
  { intros q. rewrite content_append. cbn [d_off d]. unfold d, d_data; cbn [d_sl]. rewrite HS. reflexivity. }
  assert (KEEP : forall c n v, (c + Z.of_nat n <= tpos + e \/ tpos + e + zlen p <= c) ->
     holds_uint (content (t_io t)) c n v /\ cell (t_io t) c (Z.of_nat n) ->
     holds_uint (content (set_diffs (t_io t) (b_diffs (t_io t) ++ [d]))) c n v /\
     cell (set_diffs (t_io t) (b_diffs (t_io t) ++ [d])) c (Z.of_nat n)).
  { intros c n v Hc [H1 H2]. split.
    - eapply holds_uint_ext; [|exact H1]. intros q Hq. rewrite CC. unfold img_write.
      destruct (_ && _) eqn:X; [lia|reflexivity].
    - unfold cell in *. cbn [set_diffs b_diffs b_bytes]. apply whole_app; auto.
      constructor; [|constructor]. unfold misses. rewrite DL. cbn [d_off d]. lia. }
  pose proof zlen_ks as HN. assert (TP : tpos = 4 + 2 * zlen ks) by reflexivity.
  constructor; cbn [t_pos t_io].
  - apply I.
  - destruct (i_mem _ _ _ _ I) as [M1 M2]. apply in_memory_set_diffs; auto.
    apply Forall_app; split; auto. constructor; [|constructor]. cbn [d_off d]. lia.
  - cbn [set_diffs b_bytes]. apply I.
  - apply I.
  - apply I.
  - apply I.
  - cbn [set_diffs b_diffs]. apply Forall_app; split; [apply I|].
    constructor; [|constructor]. right. exists i, e, k, (zlen p). repeat split; auto.
  - apply (KEEP tpos 4%nat); [lia|apply I].
  - apply (KEEP 0 2%nat); [lia|apply I].
  - apply (KEEP 2 2%nat); [lia|apply I].
  - intros j ej Hj. apply (KEEP (4 + 2 * j) 2%nat); [|apply (i_entry _ _ _ _ I); auto].
    pose proof (zget_some_range _ _ _ Hj) as R. rewrite (i_vt _ _ _ _ I) in R. lia.
  - intros j Hj. unfold fmap_set. destruct (j =? i) eqn:X; [|apply (i_none _ _ _ _ I); auto].
    replace j with i in Hj by lia. specialize (Hj e Hi). lia.
  - intros j ej Hj Hej. destruct (Z.eq_dec j i) as [->|NE].
    + rewrite Hi in Hj. injection Hj as <-. exists k, (zlen p), p.
      unfold fmap_set. rewrite Z.eqb_refl. repeat split; auto.
      * unfold cell. cbn [set_diffs b_diffs b_bytes]. apply whole_last; cbn [d_off d]; [lia|rewrite DL; lia].
      * intros q Hq. rewrite CC. unfold img_write.
        destruct (_ && _) eqn:X; [f_equal; lia|lia].
    + destruct (i_field _ _ _ _ I j ej Hj Hej) as (k2 & n2 & p2 & G1 & G2 & G3 & G4 & G5 & G6 & G7 & G8).
      exists k2, n2, p2. unfold fmap_set. replace (j =? i) with false by lia.
      pose proof (i_disj _ _ _ _ I i j e ej k k2 (zlen p) n2 ltac:(auto) Hi Hj He Hej Hk G1 Hn G2) as D.
      repeat split; auto.
      * unfold cell. cbn [set_diffs b_diffs b_bytes]. apply whole_app; auto.
        constructor; [|constructor]. unfold misses. rewrite DL. cbn [d_off d]. lia.
      * intros q Hq. rewrite CC. unfold img_write.
        destruct (_ && _) eqn:X; [lia|]. apply G8; auto.
  - apply I.
  - intros c Hc. rewrite CC. apply img_write_full, (i_full _ _ _ _ I); auto.
Qed.

(** Replacing one entry of the vtable. *)
Definition upd (l : list Z) (i : Z) (v : Z) : list Z :=
  zfirst i l ++ v :: zskip (i + 1) l.

Lemma zlen_upd : forall l i v, 0 <= i < zlen l -> zlen (upd l i v) = zlen l.
Proof. intros. unfold upd. rewrite zlen_app, zlen_cons, zlen_zfirst, zlen_zskip. lia. Qed.

Lemma zget_upd : forall l i v j, 0 <= i < zlen l ->
  zget (upd l i v) j = if j =? i then Some v else zget l j.
Proof.
  intros l i v j H. unfold upd. rewrite zget_app, zlen_zfirst, zget_cons, zget_zfirst.
  destruct (Z.lt_ge_cases j 0).
  { rewrite zget_neg by auto. destruct (j <? _) eqn:A; [|lia]. destruct (j <? i) eqn:B; [|lia].
    destruct (j =? i) eqn:C; [lia|reflexivity]. }
  destruct (j <? Z.max 0 (Z.min i (zlen l))) eqn:A.
  - destruct (j <? i) eqn:B; [|lia]. destruct (j =? i) eqn:C; [lia|reflexivity].
  - destruct (j - Z.max 0 (Z.min i (zlen l)) =? 0) eqn:C.
    + replace (j =? i) with true by lia. reflexivity.
    + replace (j =? i) with false by lia. rewrite zget_zskip by lia.
      destruct (_ <? 0) eqn:D; [lia|]. f_equal. lia.
Qed.

Lemma rest_upd : forall l vt i k n e, zlen vt = zlen l -> zget l i = Some k -> zget vt i = Some 0 ->
  inline_size k = Some n -> e <> 0 -> rest_size l (upd vt i e) = rest_size l vt - n.
Proof.
  induction l as [|k0 l IH]; intros vt i k n e HL Hk Hv Hn He.
  - rewrite zget_nil in Hk. discriminate.
  - destruct vt as [|v vt]; [rewrite zget_nil in Hv; discriminate|].
    pose proof (zget_some_range _ _ _ Hv) as R. rewrite zget_cons in Hk. rewrite zget_cons in Hv.
    rewrite !zlen_cons in *.
    destruct (i =? 0) eqn:X.
    + injection Hk as ->. injection Hv as ->. replace i with 0 by lia. unfold upd.
      change (zfirst 0 (0 :: vt)) with (@nil Z). change (zskip (0 + 1) (0 :: vt)) with vt.
      cbn [app rest_size]. replace (e =? 0) with false by lia. cbn [Z.eqb]. rewrite Hn. lia.
    + specialize (IH vt (i - 1) k n e ltac:(lia) Hk Hv Hn He).
      assert (EU : upd (v :: vt) i e = v :: upd vt (i - 1) e).
      { apply zget_ext. intros j. rewrite zget_upd by (rewrite zlen_cons; lia). rewrite !zget_cons.
        rewrite zget_upd by lia. destruct (j =? 0) eqn:A; destruct (j =? i) eqn:B; destruct (j - 1 =? i - 1) eqn:C; try lia; reflexivity. }
      rewrite EU. cbn [rest_size]. rewrite IH. lia.
Qed.

Lemma rest_ge : forall l vt i k n, Forall (fun k => forall n, inline_size k = Some n -> 1 <= n) l ->
  zget l i = Some k -> zget vt i = Some 0 -> inline_size k = Some n -> n <= rest_size l vt.
Proof.
  assert (NN : forall l vt, Forall (fun k => forall n, inline_size k = Some n -> 1 <= n) l -> 0 <= rest_size l vt).
  { induction l as [|k l IH]; intros vt H; cbn [rest_size]; [lia|]. destruct vt as [|v vt]; [lia|].
    inversion H as [|? ? H1 H2]; subst. specialize (IH vt H2).
    destruct (v =? 0); [|lia]. destruct (inline_size k) eqn:X; [specialize (H1 z eq_refl); lia|lia]. }
  induction l as [|k0 l IH]; intros vt i k n H Hk Hv Hn.
  - rewrite zget_nil in Hk. discriminate.
  - destruct vt as [|v vt]; [rewrite zget_nil in Hv; discriminate|].
    inversion H as [|? ? H1 H2]; subst. rewrite zget_cons in Hk. rewrite zget_cons in Hv. cbn [rest_size].
    destruct (i =? 0) eqn:X.
    + injection Hk as ->. injection Hv as ->. cbn [Z.eqb]. rewrite Hn. specialize (NN l vt H2). lia.
    + specialize (IH vt (i - 1) k n H2 Hk Hv Hn).
      destruct (v =? 0); [|lia]. destruct (inline_size k0) eqn:Y; [specialize (H1 z eq_refl); lia|lia].
Qed.

(** Adding a field that is absent. *)
Lemma inv_insert : forall t vt tl vals i k n, inv t vt tl vals ->
  zget vt i = Some 0 -> zget ks i = Some k -> inline_size k = Some n ->
  exists t', insert_vtable ks t i n = Ok (Some (t', tpos + tl)) /\
    inv t' (upd vt i tl) (tl + n) (fmap_set vals i (zeros n)).
Proof.
  intros t vt tl vals i k n I Hi Hk Hn.
  pose proof (size_pos i k n Hk Hn) as HP. pose proof zlen_ks as HN.
  pose proof (zget_some_range _ _ _ Hk) as RK.
  assert (RV : 0 <= i < zlen vt) by (rewrite (i_vt _ _ _ _ I); lia).
  destruct (i_tl _ _ _ _ I) as [TL1 TL2].
  pose proof (rest_ge ks vt i k n sizes_pos Hk Hi Hn) as RG.
  assert (TP : tpos = 4 + 2 * zlen ks) by reflexivity.
  unfold insert_vtable. rewrite (inv_table_len t vt tl vals I). cbn [bind].
  assert (U1 : u16 tl = tl) by (apply Z.mod_small; change (2 ^ 16) with 65536; lia).
  assert (U2 : u16 n = n) by (apply Z.mod_small; change (2 ^ 16) with 65536; lia).
  assert (U3 : u16 (tl + n) = tl + n) by (apply Z.mod_small; change (2 ^ 16) with 65536; lia).
  rewrite U1, U2, U3. unfold insert_buf. rewrite (i_pos _ _ _ _ I).
  rewrite insert_space_end; [|rewrite (i_len _ _ _ _ I); lia|lia|apply (inv_ends t vt tl vals I)].
  cbn [bind]. pose proof (inv_in_root t vt tl vals I) as IR. rewrite (i_pos _ _ _ _ I) in IR. rewrite IR. cbn [bind].
  destruct (tpos + tl <? tpos) eqn:X; [lia|]. cbn [t_io t_pos].
  set (b0 := t_io t) in *. set (dz := mkDiff (tpos + tl) (gs_of (zeros n))).
  set (b1 := mkBase (b_bytes b0) nil (b_diffs b0 ++ [dz]) (b_check b0) 0).
  assert (M0 : in_memory b0) by apply I.
  assert (DZ : d_len dz = n) by (unfold dz, d_len, gs_len; cbn [d_sl gs_of sl_data]; rewrite zlen_zeros; lia).
  assert (M1 : in_memory b1).
  { destruct M0 as [M01 M02]. split; [reflexivity|]. unfold b1; cbn [b_diffs].
    apply Forall_app; split; auto. constructor; [|constructor]. cbn [d_off dz]. lia. }
  assert (C1 : forall q, content b1 q = img_write (content b0) (tpos + tl) (zeros n) q).
  { intros q. change (content b1 q) with (content (set_diffs b0 (b_diffs b0 ++ [dz])) q).
    rewrite content_append. reflexivity. }
  assert (VP : vtable_pos b1 tpos = Ok 0).
  { unfold vtable_pos. destruct (i_soff _ _ _ _ I) as [S1 S2].
    rewrite (rd_whole 4 b1 tpos tpos M1 ltac:(lia) ltac:(lia)).
    - cbn [bind]. f_equal. lia.
    - unfold b1; cbn [b_diffs b_bytes]. apply whole_app; [exact S2|].
      constructor; [|constructor]. unfold misses. cbn [d_off dz]. right. lia.
    - eapply holds_uint_ext; [|exact S1]. intros q Hq. rewrite C1. unfold img_write.
      rewrite zlen_zeros. destruct (_ && _) eqn:Y; [lia|reflexivity]. }
  rewrite VP. cbn [bind].
  replace (0 + 4 + i * 2) with (4 + 2 * i) by lia. change (0 + 2) with 2.
  set (ei := le_encode 2 tl). set (et := le_encode 2 (tl + n)).
  assert (LE : zlen ei = 2) by apply zlen_le_encode. assert (LT : zlen et = 2) by apply zlen_le_encode.
  assert (SH1 : forall d, In d (b_diffs b1) -> forall c, 0 <= c <= zlen ks ->
             covers (2 + 2 * c) d = true -> d_off d + d_len d <= 2 + 2 * c + 2).
  { intros d Hd c Hc Hcov. apply covers_iff in Hcov. unfold b1 in Hd; cbn [b_diffs] in Hd.
    apply in_app_or in Hd. destruct Hd as [Hd|[<-|[]]].
    - pose proof (i_shape _ _ _ _ I) as SH. rewrite Forall_forall in SH.
      destruct (SH d Hd) as [(k1 & Hk1 & E1 & E2)|(i1 & e1 & k1 & n1 & Hi1 & He1 & Hk1 & Hn1 & E1 & E2)]; [lia|].
      destruct (i_field _ _ _ _ I i1 e1 Hi1 He1) as (_ & _ & _ & _ & _ & _ & _ & F5 & _). lia.
    - cbn [d_off dz] in Hcov. lia. }
  (* first update *)
  destruct (base_u_cell b1 (4 + 2 * i) ei ltac:(lia) ltac:(lia)) as (l2 & EU2 & FL2).
  { intros d Hd Hcov. rewrite LE. replace (4 + 2 * i) with (2 + 2 * (i + 1)) in * by lia.
    apply (SH1 d Hd); auto; lia. }
  destruct (base_u_spec b1 (4 + 2 * i) 2 ei M1 ltac:(lia) LE) as (b2 & EB2 & M2 & BB2 & _ & _ & C2).
  rewrite LE in EU2. rewrite EB2 in EU2. injection EU2 as EU2. rewrite EB2. cbn [bind].
  assert (D2 : b_diffs b2 = b_diffs b1 ++ l2 ++ [mkDiff (4 + 2 * i) (gs_of ei)]) by (rewrite EU2; reflexivity).
  rewrite LE in FL2.
  (* second update *)
  destruct (base_u_cell b2 2 et ltac:(lia) ltac:(lia)) as (l3 & EU3 & FL3).
  { intros d Hd Hcov. rewrite LT. rewrite D2 in Hd. apply in_app_or in Hd. destruct Hd as [Hd|Hd].
    - apply (SH1 d Hd 0); auto; lia.
    - apply covers_iff in Hcov. apply in_app_or in Hd. destruct Hd as [Hd|[<-|[]]].
      + rewrite Forall_forall in FL2. specialize (FL2 d Hd). lia.
      + cbn [d_off] in Hcov. lia. }
  destruct (base_u_spec b2 2 2 et M2 ltac:(lia) LT) as (b3 & EB3 & M3 & BB3 & _ & _ & C3).
  rewrite LT in EU3. rewrite EB3 in EU3. injection EU3 as EU3. rewrite EB3. cbn [bind].
  assert (D3 : b_diffs b3 = b_diffs b2 ++ l3 ++ [mkDiff 2 (gs_of et)]) by (rewrite EU3; reflexivity).
  rewrite LT in FL3.
  set (lx := [dz] ++ (l2 ++ [mkDiff (4 + 2 * i) (gs_of ei)]) ++ (l3 ++ [mkDiff 2 (gs_of et)])).
  assert (D : b_diffs b3 = b_diffs b0 ++ lx).
  { rewrite D3, D2. unfold b1, lx; cbn [b_diffs]. rewrite <- !app_assoc. reflexivity. }
  assert (BB : b_bytes b3 = b_bytes b0) by (rewrite BB3, BB2; reflexivity).
  assert (CC : forall q, content b3 q =
     img_write (img_write (img_write (content b0) (tpos + tl) (zeros n)) (4 + 2 * i) ei) 2 et q).
  { intros q. rewrite C3. apply img_write_ext. rewrite C2. apply img_write_ext. apply C1. }
  assert (MISS : forall c m, 0 <= m -> c + m <= tpos + tl ->
            (c + m <= 4 + 2 * i \/ 4 + 2 * i + 2 <= c) -> (c + m <= 2 \/ 4 <= c) ->
            Forall (misses c m) lx).
  { intros c m Hm A1 A2 A3. unfold lx. apply Forall_app; split.
    - constructor; [|constructor]. unfold misses. cbn [d_off dz]. lia.
    - apply Forall_app; split; apply Forall_app; split.
      + eapply Forall_impl; [|exact FL2]. cbv beta. unfold misses. intros ? [? ?]. lia.
      + constructor; [|constructor]. unfold misses, d_len, gs_len; cbn [d_off d_sl gs_of sl_data]. lia.
      + eapply Forall_impl; [|exact FL3]. cbv beta. unfold misses. intros ? [? ?]. lia.
      + constructor; [|constructor]. unfold misses, d_len, gs_len; cbn [d_off d_sl gs_of sl_data]. lia. }
  assert (SAME : forall c, c < tpos + tl ->
            (c < 4 + 2 * i \/ 4 + 2 * i + 2 <= c) -> (c < 2 \/ 4 <= c) -> content b3 c = content b0 c).
  { intros c A1 A2 A3. rewrite CC. unfold img_write. rewrite LE, LT, zlen_zeros.
    destruct ((2 <=? c) && _) eqn:Y1; [lia|]. destruct ((4 + 2 * i <=? c) && _) eqn:Y2; [lia|].
    destruct ((tpos + tl <=? c) && _) eqn:Y3; [exfalso; clear - Y3 A1; lia|reflexivity]. }
  assert (KEEP : forall c m v, c + Z.of_nat m <= tpos + tl ->
            (c + Z.of_nat m <= 4 + 2 * i \/ 4 + 2 * i + 2 <= c) -> (c + Z.of_nat m <= 2 \/ 4 <= c) ->
            holds_uint (content b0) c m v /\ cell b0 c (Z.of_nat m) ->
            holds_uint (content b3) c m v /\ cell b3 c (Z.of_nat m)).
  { intros c m v A1 A2 A3 [H1 H2]. split.
    - eapply holds_uint_ext; [|exact H1]. intros q Hq. apply SAME; lia.
    - unfold cell in *. rewrite D, BB. apply whole_app; auto. apply MISS; lia. }
  assert (INV : inv (mkT b3 tpos) (upd vt i tl) (tl + n) (fmap_set vals i (zeros n))).
  { constructor; cbn [t_io t_pos].
    - reflexivity.
    - exact M3.
    - rewrite BB. apply I.
    - rewrite zlen_upd by lia. apply I.
    - split; [lia|]. rewrite (rest_upd ks vt i k n tl (i_vt _ _ _ _ I) Hk Hi Hn ltac:(lia)). lia.
    - unfold upd. apply Forall_app; split.
      + rewrite Forall_forall. intros x Hx. pose proof (i_ge _ _ _ _ I) as G. rewrite Forall_forall in G.
        apply G. unfold zfirst in Hx. rewrite <- (firstn_skipn (Z.to_nat i) vt). apply in_or_app; auto.
      + constructor; [lia|]. rewrite Forall_forall. intros x Hx.
        pose proof (i_ge _ _ _ _ I) as G. rewrite Forall_forall in G.
        apply G. unfold zskip in Hx. rewrite <- (firstn_skipn (Z.to_nat (i + 1)) vt). apply in_or_app; auto.
    - rewrite D. apply Forall_app; split.
      + eapply Forall_impl; [|apply (i_shape _ _ _ _ I)]. cbv beta.
        intros d [S|(i1 & e1 & k1 & n1 & Hi1 & He1 & S)]; [left; exact S|].
        right. exists i1, e1, k1, n1. rewrite zget_upd by lia.
        destruct (i1 =? i) eqn:Y; [|auto]. replace i1 with i in Hi1 by lia. congruence.
      + unfold lx. apply Forall_app; split; [|apply Forall_app; split; apply Forall_app; split].
        * constructor; [|constructor]. right. exists i, tl, k, n. rewrite zget_upd by lia. rewrite Z.eqb_refl.
          repeat split; auto; lia.
        * eapply Forall_impl; [|exact FL2]. cbv beta. intros d [S1 S2]. left. exists (i + 1). lia.
        * constructor; [|constructor]. left. exists (i + 1).
          unfold d_len, gs_len; cbn [d_off d_sl gs_of sl_data]. lia.
        * eapply Forall_impl; [|exact FL3]. cbv beta. intros d [S1 S2]. left. exists 0. lia.
        * constructor; [|constructor]. left. exists 0.
          unfold d_len, gs_len; cbn [d_off d_sl gs_of sl_data]. lia.
    - apply (KEEP tpos 4%nat); try lia. apply I.
    - apply (KEEP 0 2%nat); try lia. apply I.
    - split.
      + apply holds_uint_encode; [|change (256 ^ Z.of_nat 2) with 65536; lia].
        intros q Hq. rewrite CC. unfold img_write at 1. rewrite LT.
        destruct (_ && _) eqn:Y; [f_equal; lia|lia].
      + unfold cell. rewrite D3, app_assoc. apply whole_last; unfold d_len, gs_len; cbn [d_off d_sl gs_of sl_data]; lia.
    - intros j ej Hj. rewrite zget_upd in Hj by lia. destruct (j =? i) eqn:Y.
      + injection Hj as <-. replace j with i by lia. split.
        * apply holds_uint_encode; [|change (256 ^ Z.of_nat 2) with 65536; lia].
          intros q Hq. rewrite CC. unfold img_write at 1. rewrite LT.
          destruct (_ && _) eqn:Y1; [lia|]. unfold img_write at 1. rewrite LE.
          destruct ((4 + 2 * i <=? 4 + 2 * i + q) && _) eqn:Y2; [|exfalso; clear - Y2 Hq; lia].
          f_equal. clear. lia.
        * unfold cell. rewrite D3, D2. apply whole_app.
          -- rewrite app_assoc. apply whole_last; unfold d_len, gs_len; cbn [d_off d_sl gs_of sl_data]; lia.
          -- apply Forall_app; split.
             ++ eapply Forall_impl; [|exact FL3]. cbv beta. unfold misses. intros ? [? ?]. lia.
             ++ constructor; [|constructor]. unfold misses, d_len, gs_len; cbn [d_off d_sl gs_of sl_data]. lia.
      + pose proof (zget_some_range _ _ _ Hj) as R. rewrite (i_vt _ _ _ _ I) in R.
        apply (KEEP (4 + 2 * j) 2%nat); try lia. apply (i_entry _ _ _ _ I); auto.
    - intros j Hj. unfold fmap_set. destruct (j =? i) eqn:Y.
      + exfalso. replace j with i in Hj by lia. specialize (Hj tl).
        rewrite zget_upd, Z.eqb_refl in Hj by lia. specialize (Hj eq_refl). lia.
      + apply (i_none _ _ _ _ I). intros e He. apply Hj. rewrite zget_upd by lia. rewrite Y. exact He.
    - intros j ej Hj Hej. rewrite zget_upd in Hj by lia. destruct (j =? i) eqn:Y.
      + injection Hj as <-. replace j with i by lia. exists k, n, (zeros n).
        unfold fmap_set. rewrite Z.eqb_refl. rewrite zlen_zeros. repeat split; auto; try lia.
        * unfold cell. rewrite D. unfold lx.
          left. exists (b_diffs b0), dz, ((l2 ++ [mkDiff (4 + 2 * i) (gs_of ei)]) ++ (l3 ++ [mkDiff 2 (gs_of et)])).
          split; [reflexivity|]. cbn [d_off dz]. split; [lia|]. rewrite DZ. split; [lia|].
          apply Forall_app; split; apply Forall_app; split.
          -- eapply Forall_impl; [|exact FL2]. cbv beta. unfold misses. intros ? [? ?]. lia.
          -- constructor; [|constructor]. unfold misses, d_len, gs_len; cbn [d_off d_sl gs_of sl_data]. lia.
          -- eapply Forall_impl; [|exact FL3]. cbv beta. unfold misses. intros ? [? ?]. lia.
          -- constructor; [|constructor]. unfold misses, d_len, gs_len; cbn [d_off d_sl gs_of sl_data]. lia.
        * intros q Hq. rewrite CC. unfold img_write. rewrite LE, LT, zlen_zeros.
          destruct ((2 <=? _) && _) eqn:Y1; [lia|]. destruct ((4 + 2 * i <=? _) && _) eqn:Y2; [lia|].
          destruct ((tpos + tl <=? tpos + tl + q) && _) eqn:Y3; [|exfalso; clear - Y3 Hq; lia].
          f_equal. clear. lia.
      + destruct (i_field _ _ _ _ I j ej Hj Hej) as (k2 & n2 & p2 & G1 & G2 & G3 & G4 & G5 & G6 & G7 & G8).
        pose proof (size_pos j k2 n2 G1 G2).
        exists k2, n2, p2. unfold fmap_set. rewrite Y. repeat split; auto; try lia.
        * unfold cell in *. rewrite D, BB. apply whole_app; auto. apply MISS; lia.
        * intros q Hq. rewrite SAME by lia. apply G8; auto.
    - intros a c ea ec ka kc na nc Hac Ha Hc Hea Hec Hka Hkc Hna Hnc.
      rewrite zget_upd in Ha by lia. rewrite zget_upd in Hc by lia.
      destruct (a =? i) eqn:Ya; destruct (c =? i) eqn:Yc; try lia.
      + injection Ha as <-. destruct (i_field _ _ _ _ I c ec Hc Hec) as (k2 & n2 & p2 & G1 & G2 & _ & _ & G5 & G6 & _).
        rewrite Hkc in G1. injection G1 as <-. rewrite Hnc in G2. injection G2 as <-. right. lia.
      + injection Hc as <-. destruct (i_field _ _ _ _ I a ea Ha Hea) as (k2 & n2 & p2 & G1 & G2 & _ & _ & G5 & G6 & _).
        rewrite Hka in G1. injection G1 as <-. rewrite Hna in G2. injection G2 as <-. left. lia.
      + apply (i_disj _ _ _ _ I a c ea ec ka kc na nc); auto.
    - intros c Hc. rewrite CC. do 2 apply img_write_full. unfold img_write. rewrite zlen_zeros.
      destruct (_ && _) eqn:Y.
      + destruct (zget_some (zeros n) (c - (tpos + tl)) ltac:(rewrite zlen_zeros; lia)) as [x ->]. discriminate.
      + apply (i_full _ _ _ _ I). lia. }
  rewrite (inv_move_refs (mkT b3 tpos) _ _ _ i (tpos + tl) n INV ltac:(lia) ks 0).
  - cbn [bind]. exists (mkT b3 tpos). split; [reflexivity|exact INV].
  - intros q k' Hq. exact Hq.
  - lia.
Qed.

Lemma inv_init : forall b, init_table ks = Ok (b, tpos) -> 4 + rest_size ks (repeat 0 (length ks)) <= 65535 ->
  inv (mkT b tpos) (repeat 0 (length ks)) 4 (fun _ => None).
Proof.
  intros b HI HR. destruct (init_table_ok ks small) as (b' & E & F & CK & L & T & V).
  fold tpos in *. rewrite HI in E. injection E as <-.
  pose proof zlen_ks. pose proof T as [T1 T2 T3 T4 T5 T6].
  assert (CE : forall q, content b q = img_bytes (sl_data (b_bytes b)) q) by (intros; apply flat_content; auto).
  assert (CL : forall c m, c + m <= tpos + 4 -> cell b c m).
  { intros c m Hc. unfold cell. destruct F as [_ ->]. apply whole_flat. lia. }
  assert (HE : forall c m v, holds_uint (img_bytes (sl_data (b_bytes b))) c m v -> holds_uint (content b) c m v).
  { intros c m v Hc. eapply holds_uint_ext; [|exact Hc]. intros. apply CE. }
  assert (TP : tpos = 4 + 2 * zlen ks) by reflexivity.
  constructor; cbn [t_io t_pos]; auto.
  - apply flat_in_memory; auto.
  - apply zlen_repeat.
  - lia.
  - rewrite Forall_forall. intros x Hx. apply repeat_spec in Hx. lia.
  - destruct F as [_ ->]. constructor.
  - split; [|apply CL; lia]. apply HE. rewrite Z.mod_small in T1 by (change (2 ^ 32) with 4294967296; lia). exact T1.
  - split; [|apply CL; lia]. apply HE. exact V.
  - split; [|apply CL; lia]. apply HE. rewrite Z.sub_diag in T5. exact T5.
  - intros i e Hi. pose proof (zget_some_range _ _ _ Hi) as R. rewrite zlen_repeat in R. unfold zlen in *.
    split; [|apply CL; lia]. apply HE. specialize (T6 i e Hi). rewrite Z.sub_diag in T6. exact T6.
  - intros i e Hi He. destruct (zget_repeat (length ks) i 0) as [Q|Q]; rewrite Q in Hi; [|discriminate].
    injection Hi as <-. lia.
  - intros i j ei ej ki kj ni nj _ Hi _ He. destruct (zget_repeat (length ks) i 0) as [Q|Q]; rewrite Q in Hi; [|discriminate].
    injection Hi as <-. lia.
  - intros c Hc. rewrite CE. unfold img_bytes.
    destruct (zget_some (sl_data (b_bytes b)) c ltac:(unfold gs_len in L; lia)) as [x ->]. discriminate.
Qed.

Lemma inv_set_field : forall t vt tl vals i k p src sp, inv t vt tl vals ->
  zget ks i = Some k -> inline_size k = Some (zlen p) -> delivers src sp p ->
  exists t' vt' tl', set_field ks t i src sp = Ok (SetOk t') /\ inv t' vt' tl' (fmap_set vals i p).
Proof.
  intros t vt tl vals i k p src sp I Hk Hn HD.
  pose proof (zget_some_range _ _ _ Hk) as R.
  destruct (zget_some vt i) as [e He]; [rewrite (i_vt _ _ _ _ I); lia|].
  unfold set_field. rewrite Hk, Hn. rewrite (inv_preload t vt tl vals I). cbn [bind].
  rewrite (inv_is_zero t vt tl vals i e I He). cbn [bind].
  destruct (e =? 0) eqn:X; cbn [negb].
  - replace e with 0 in He by lia.
    destruct (inv_insert t vt tl vals i k (zlen p) I He Hk Hn) as (t1 & -> & I1). cbn [bind].
    assert (RV : 0 <= i < zlen vt) by (rewrite (i_vt _ _ _ _ I); lia).
    assert (H1 : zget (upd vt i tl) i = Some tl) by (rewrite zget_upd, Z.eqb_refl by lia; reflexivity).
    destruct (i_tl _ _ _ _ I) as [TL1 _].
    destruct (inv_copy t1 _ _ _ i tl k p src sp I1 H1 ltac:(lia) Hk Hn HD) as (b & -> & I2). cbn [bind].
    pose proof (inv_preload _ _ _ _ I2) as PL. cbn [t_io t_pos] in PL. rewrite PL. cbn [bind].
    exists (mkT b (t_pos t1)), (upd vt i tl), (tl + zlen p). split; [reflexivity|].
    destruct I2. constructor; auto.
    + intros j Hj. specialize (i_none0 j Hj). unfold fmap_set in *. destruct (j =? i); auto.
    + intros j ej Hj Hej. destruct (i_field0 j ej Hj Hej) as (k2 & n2 & p2 & G1 & G2 & G3 & G).
      exists k2, n2, p2. repeat split; try tauto; auto.
      unfold fmap_set in *. destruct (j =? i); auto.
  - rewrite (inv_virtual_table t vt tl vals i e I He). cbn [bind]. rewrite (i_pos _ _ _ _ I).
    destruct (inv_copy t vt tl vals i e k p src sp I He ltac:(lia) Hk Hn HD) as (b & -> & I2). cbn [bind].
    exists (mkT b tpos), vt, tl. rewrite (i_pos _ _ _ _ I) in I2. split; [reflexivity|exact I2].
Qed.

Lemma inv_read_field : forall t vt tl vals i k n, inv t vt tl vals ->
  zget ks i = Some k -> inline_size k = Some n -> read_field t i n = Ok (vals i).
Proof.
  intros t vt tl vals i k n I Hk Hn. pose proof (zget_some_range _ _ _ Hk) as R.
  destruct (zget_some vt i) as [e He]; [rewrite (i_vt _ _ _ _ I); lia|].
  unfold read_field, field_at. rewrite (inv_is_zero t vt tl vals i e I He). cbn [bind].
  destruct (e =? 0) eqn:X.
  - rewrite (i_none _ _ _ _ I); [reflexivity|]. intros e' He'. rewrite He in He'. injection He' as <-. lia.
  - rewrite (inv_virtual_table t vt tl vals i e I He). cbn [bind].
    destruct (i_field _ _ _ _ I i e He ltac:(lia)) as (k2 & n2 & p2 & G1 & G2 & G3 & G4 & G5 & G6 & G7 & G8).
    rewrite Hk in G1. injection G1 as <-. rewrite Hn in G2. injection G2 as <-.
    pose proof (size_pos i k n Hk Hn). rewrite (i_pos _ _ _ _ I). pose proof zlen_ks.
    destruct (whole_read (t_io t) (tpos + e) n n (i_mem _ _ _ _ I) ltac:(unfold tpos; lia) ltac:(lia) ltac:(lia) G7)
      as (s & -> & HL & HG). cbn [bind opt_data]. rewrite G3. do 2 f_equal.
    apply zget_ext. intros q. rewrite zget_zfirst. destruct (q <? n) eqn:Q.
    + destruct (Z.lt_ge_cases q 0).
      * rewrite !zget_neg by auto. reflexivity.
      * rewrite HG by lia. apply G8. lia.
    + symmetry. apply zget_ge. lia.
Qed.

End Inv.

(** ** Histories of assignments *)

Lemma rest_zero : forall ks, rest_size ks (repeat 0 (length ks)) = inline_total ks.
Proof.
  unfold inline_total, sum_z. induction ks as [|k ks IH]; [reflexivity|].
  cbn [length repeat rest_size map fold_right Z.eqb]. rewrite IH. reflexivity.
Qed.

Lemma assigns_inv : forall ks, Forall (fun k => forall n, inline_size k = Some n -> 1 <= n) ks ->
  forall l t vt tl vals, inv ks t vt tl vals ->
  Forall (fun ap => assign_ok ks (fst ap) (snd ap)) l ->
  exists t' vt' tl', run_assigns ks t (map fst l) = Ok (Some t') /\
    inv ks t' vt' tl' (fold_left (fun m ap => fmap_set m (fst (fst (fst ap))) (snd ap)) l vals).
Proof.
  intros ks HP. induction l as [|[[[i src] sp] p] l IH]; intros t vt tl vals I H.
  - exists t, vt, tl. split; [reflexivity|exact I].
  - inversion H as [|? ? H1 H2]; subst. cbn [fst snd] in H1. destruct H1 as [(k & Hk & Hn) HD].
    destruct (inv_set_field ks HP t vt tl vals i k p src sp I Hk Hn HD) as (t1 & vt1 & tl1 & E1 & I1).
    destruct (IH t1 vt1 tl1 _ I1 H2) as (t2 & vt2 & tl2 & E2 & I2).
    exists t2, vt2, tl2. cbn [map fst run_assigns]. rewrite E1. cbn [bind]. split; [exact E2|exact I2].
Qed.

Lemma built_inv : forall ks l,
  Forall (fun k => forall n, inline_size k = Some n -> 1 <= n) ks ->
  4 + 2 * zlen ks < 65536 -> 4 + inline_total ks < 65536 ->
  Forall (fun ap => assign_ok ks (fst ap) (snd ap)) l ->
  exists b t vt tl, init_table ks = Ok (b, 4 + 2 * zlen ks) /\
    run_assigns ks (mkT b (4 + 2 * zlen ks)) (map fst l) = Ok (Some t) /\
    inv ks t vt tl (final_map l).
Proof.
  intros ks l HP HS HT HF. destruct (init_table_ok ks HS) as (b & EI & _).
  exists b. pose proof (inv_init ks HS b EI ltac:(rewrite rest_zero; lia)) as I0.
  unfold tpos in I0. destruct (assigns_inv ks HP l _ _ _ _ I0 HF) as (t & vt & tl & E & I).
  exists t, vt, tl. auto.
Qed.

Lemma assigns_map : forall ks l,
  Forall (fun k => forall n, inline_size k = Some n -> 1 <= n) ks ->
  4 + 2 * zlen ks < 65536 -> 4 + inline_total ks < 65536 ->
  Forall (fun ap => assign_ok ks (fst ap) (snd ap)) l ->
  exists b t, init_table ks = Ok (b, 4 + 2 * zlen ks) /\
    run_assigns ks (mkT b (4 + 2 * zlen ks)) (map fst l) = Ok (Some t) /\
    forall i k n, zget ks i = Some k -> inline_size k = Some n ->
      read_field t i n = Ok (final_map l i).
Proof.
  intros ks l HP HS HT HF. destruct (built_inv ks l HP HS HT HF) as (b & t & vt & tl & EI & E & I).
  exists b, t. split; [exact EI|]. split; [exact E|]. intros i k n Hk Hn.
  apply (inv_read_field ks HP t vt tl _ i k n I Hk Hn).
Qed.

(** ** Structs *)

Lemma whole_front : forall ds bs dst t pos n, sl_data t = zskip dst bs -> 0 <= dst < zlen bs ->
  0 <= pos -> 0 <= n -> whole ds (zlen bs) pos n ->
  (pos + n <= dst \/ dst <= pos) ->
  whole (mkDiff dst t :: ds) (zlen bs) pos n.
Proof.
  intros ds bs dst t pos n Ht Hd Hp Hn [(l1 & d & l2 & E & W)|[Hl F]] HC.
  - left. exists (mkDiff dst t :: l1), d, l2. rewrite E. split; [reflexivity|exact W].
  - destruct HC as [HC|HC].
    + right. split; auto. constructor; auto. unfold misses; cbn [d_off]. lia.
    + left. exists nil, (mkDiff dst t), ds. split; [reflexivity|]. cbn [d_off]. split; [lia|].
      split; [|exact F]. unfold d_len, gs_len; cbn [d_sl]. rewrite Ht, zlen_zskip. lia.
Qed.

Lemma copy_any : forall b src sp p dst, delivers src sp p -> 1 <= zlen p -> 0 <= dst ->
  exists s pre, base_copy b src sp (zlen p) dst 0 = Ok (set_diffs b ((pre ++ b_diffs b) ++ [mkDiff dst s])) /\
    sl_data s = p /\
    (pre = nil \/ dst < gs_len (b_bytes b) /\
       exists t, pre = [mkDiff dst t] /\ sl_data t = zskip dst (sl_data (b_bytes b))).
Proof.
  intros b src sp p dst HD Hp Hdst. unfold base_copy.
  destruct (dst <? gs_len (b_bytes b)) eqn:E.
  - rewrite gs_from_ok by lia. cbn [bind]. rewrite map_extend_0.
    set (t := mkSlice _ _).
    destruct (copy_loop_one src sp p dst (diffs_insert (b_diffs b) 0 [mkDiff dst t]) HD Hp) as (s & -> & HS).
    cbn [bind]. exists s, [mkDiff dst t]. split; [reflexivity|]. split; [exact HS|]. right. split; [lia|].
    exists t. split; reflexivity.
  - cbn [bind]. rewrite map_extend_0.
    destruct (copy_loop_one src sp p dst (b_diffs b) HD Hp) as (s & -> & HS). cbn [bind].
    exists s, nil. auto.
Qed.

Lemma over_front : forall ds bs dst t i, sl_data t = zskip dst bs -> 0 <= dst ->
  over (mkDiff dst t :: ds) (img_bytes bs) i = over ds (img_bytes bs) i.
Proof.
  intros ds bs dst t i Ht Hd. rewrite over_cons. apply over_ext. cbn [d_off]. unfold d_data; cbn [d_sl].
  rewrite Ht. unfold img_write, img_bytes. rewrite zlen_zskip. destruct (_ && _) eqn:X; [|reflexivity].
  rewrite zget_zskip by lia. destruct (i - dst <? 0) eqn:Y; [lia|]. f_equal. lia.
Qed.

Section StructInv.
Variables (sizes : list Z) (pos : Z) (l0 : list byte).
Hypothesis sizes_pos : Forall (fun n => 1 <= n) sizes.
Hypothesis pos_ok : 0 <= pos.
Hypothesis fits : pos + struct_size sizes <= zlen l0.

Record sinv (b : base) (vals : nat -> list byte) : Prop := {
  si_mem : in_memory b;
  si_bytes : sl_data (b_bytes b) = l0;
  si_member : forall i n, nth_error sizes i = Some n ->
    zlen (vals i) = n /\
    whole (b_diffs b) (zlen l0) (pos + offset_of sizes i) n /\
    forall q, 0 <= q < n -> content b (pos + offset_of sizes i + q) = zget (vals i) q;
  si_out : forall q, q < pos \/ pos + struct_size sizes <= q -> content b q = img_bytes l0 q
}.

Lemma sizes_nonneg : Forall (fun n => 0 <= n) sizes.
Proof. eapply Forall_impl; [|exact sizes_pos]. cbv beta; intros; lia. Qed.

Lemma member_place : forall i n, nth_error sizes i = Some n ->
  1 <= n /\ 0 <= offset_of sizes i /\ offset_of sizes i + n <= struct_size sizes.
Proof.
  intros i n Hi. split.
  - rewrite Forall_forall in sizes_pos. apply sizes_pos. eapply nth_error_In; eauto.
  - pose proof (offset_step _ _ _ Hi) as Si.
    assert (Li : (i < length sizes)%nat) by (apply nth_error_Some; congruence).
    pose proof (offset_mono sizes 0 i sizes_nonneg ltac:(lia)) as M0.
    change (offset_of sizes 0) with 0 in M0.
    pose proof (offset_mono sizes (S i) (length sizes) sizes_nonneg ltac:(lia)) as M1. rewrite offset_all in M1.
    lia.
Qed.

Lemma sinv_init : forall b, flat b -> sl_data (b_bytes b) = l0 ->
  sinv b (member_bytes l0 pos sizes).
Proof.
  intros b Hf HL. constructor.
  - apply TableProofs.flat_in_memory; auto.
  - exact HL.
  - intros i n Hi. destruct (member_place i n Hi) as (P1 & P2 & P3). unfold member_bytes. rewrite Hi.
    split; [|split].
    + rewrite zlen_zfirst, zlen_zskip. lia.
    + destruct Hf as [_ ->]. apply whole_flat. lia.
    + intros q Hq. rewrite flat_content by auto. rewrite HL. unfold img_bytes.
      rewrite zget_zfirst. destruct (q <? n) eqn:X; [|lia]. rewrite zget_zskip by lia.
      destruct (q <? 0) eqn:Y; [lia|reflexivity].
  - intros q _. rewrite flat_content by auto. rewrite HL. reflexivity.
Qed.

Lemma sinv_set : forall b vals i p src sp, sinv b vals ->
  nth_error sizes i = Some (zlen p) -> delivers src sp p ->
  exists b', set_struct_field sizes b pos i src sp = Ok (Some b') /\
    sinv b' (fun j => if Nat.eqb j i then p else vals j).
Proof.
  intros b vals i p src sp I Hi HD. unfold set_struct_field. rewrite Hi, struct_field_pos_sum.
  destruct (member_place i _ Hi) as (P1 & P2 & P3).
  set (dst := pos + offset_of sizes i) in *.
  destruct (copy_any b src sp p dst HD P1 ltac:(lia)) as (s & pre & -> & HS & HP). cbn [bind].
  eexists; split; [reflexivity|].
  set (d := mkDiff dst s).
  assert (DL : d_len d = zlen p) by (unfold d, d_len, gs_len; cbn [d_sl]; rewrite HS; reflexivity).
  assert (GL : gs_len (b_bytes b) = zlen l0) by (unfold gs_len; rewrite (si_bytes _ _ I); reflexivity).
  assert (CC : forall q, content (set_diffs b ((pre ++ b_diffs b) ++ [d])) q = img_write (content b) dst p q).
  { intros q. unfold content at 1. cbn [set_diffs b_diffs b_bytes]. rewrite over_app, over_one.
    cbn [d_off d]. unfold d, d_data; cbn [d_sl]. rewrite HS. apply img_write_ext. unfold content.
    destruct HP as [->|(Hlt & t & -> & Ht)]; [reflexivity|]. cbn [app]. apply over_front; [exact Ht|lia]. }
  destruct (si_mem _ _ I) as [M1 M2].
  constructor.
  - apply in_memory_set_diffs; auto. apply Forall_app; split; [apply Forall_app; split; auto|].
    + destruct HP as [->|(Hlt & t & -> & Ht)]; constructor; [cbn [d_off]; lia|constructor].
    + constructor; [cbn [d_off d]; lia|constructor].
  - cbn [set_diffs b_bytes]. apply I.
  - intros j n Hj. cbn [set_diffs b_diffs].
    destruct (member_place j _ Hj) as (Q1 & Q2 & Q3).
    destruct (Nat.eqb j i) eqn:X.
    + apply Nat.eqb_eq in X. subst j. rewrite Hi in Hj. injection Hj as <-. split; [reflexivity|]. split.
      * apply whole_last; cbn [d_off d]; unfold dst in *; try lia; rewrite DL; lia.
      * intros q Hq. rewrite CC. unfold img_write. fold dst.
        destruct ((dst <=? dst + q) && _) eqn:Y; [|exfalso; clear - Y Hq; lia]. f_equal. clear; lia.
    + apply Nat.eqb_neq in X. destruct (si_member _ _ I j n Hj) as (S1 & S2 & S3). split; [exact S1|].
      pose proof (struct_fields_disjoint sizes pos i j _ _ sizes_nonneg ltac:(auto) Hi Hj) as [_ D].
      rewrite !struct_field_pos_sum in D. fold dst in D. split.
      * apply whole_app.
        -- destruct HP as [->|(Hlt & t & -> & Ht)]; [exact S2|]. cbn [app].
           rewrite (si_bytes _ _ I) in Ht. apply whole_front; auto; lia.
        -- constructor; [|constructor]. unfold misses. rewrite DL. cbn [d_off d]. lia.
      * intros q Hq. rewrite CC. unfold img_write.
        destruct ((dst <=? _) && _) eqn:Y; [exfalso; clear - Y Hq D; lia|]. auto.
  - intros q Hq. rewrite CC. unfold img_write.
    destruct ((dst <=? _) && _) eqn:Y; [exfalso; unfold dst in *; clear - Y Hq P1 P2 P3; lia|]. apply I; auto.
Qed.

Lemma sinv_read : forall b vals i n, sinv b vals -> nth_error sizes i = Some n ->
  read_member sizes b pos i n = Ok (vals i).
Proof.
  intros b vals i n I Hi. unfold read_member. rewrite struct_field_pos_sum.
  destruct (si_member _ _ I i n Hi) as (S1 & S2 & S3). destruct (member_place i n Hi) as (P1 & P2 & P3).
  assert (GL : gs_len (b_bytes b) = zlen l0) by (unfold gs_len; rewrite (si_bytes _ _ I); reflexivity).
  rewrite <- GL in S2.
  destruct (whole_read b (pos + offset_of sizes i) n n (si_mem _ _ I) ltac:(lia) P1 ltac:(lia) S2)
    as (s & -> & HL & HG). cbn [bind opt_data]. f_equal.
  apply zget_ext. intros q. rewrite zget_zfirst. destruct (q <? n) eqn:Q.
  - destruct (Z.lt_ge_cases q 0); [rewrite !zget_neg by auto; reflexivity|].
    rewrite HG by lia. apply S3. lia.
  - symmetry. apply zget_ge. lia.
Qed.

End StructInv.

Lemma struct_assigns_map : forall sizes b pos l,
  Forall (fun n => 1 <= n) sizes -> flat b -> 0 <= pos ->
  pos + struct_size sizes <= zlen (sl_data (b_bytes b)) ->
  Forall (fun ap => member_ok sizes (fst ap) (snd ap)) l ->
  exists b', run_struct_assigns sizes b pos (map fst l) = Ok (Some b') /\
    (forall i n, nth_error sizes i = Some n ->
       read_member sizes b' pos i n =
       Ok (final_members (member_bytes (sl_data (b_bytes b)) pos sizes) l i)) /\
    (forall q, 0 <= q -> q < pos \/ pos + struct_size sizes <= q -> peek b' q = peek b q).
Proof.
  intros sizes b pos l HP Hf Hp HL HF. set (l0 := sl_data (b_bytes b)) in *.
  pose proof (sinv_init sizes pos l0 HP Hp HL b Hf eq_refl) as I0.
  assert (G : forall l b vals, sinv sizes pos l0 b vals ->
     Forall (fun ap => member_ok sizes (fst ap) (snd ap)) l ->
     exists b' , run_struct_assigns sizes b pos (map fst l) = Ok (Some b') /\
       sinv sizes pos l0 b' (final_members vals l)).
  { clear - HP Hp HL. induction l as [|[[[i src] sp] p] l IH]; intros b0 vals I H.
    - exists b0. split; [reflexivity|exact I].
    - inversion H as [|? ? H1 H2]; subst. cbn [fst snd] in H1. destruct H1 as [Hn HD].
      destruct (sinv_set sizes pos l0 HP Hp HL b0 vals i p src sp I Hn HD) as (b1 & E1 & I1).
      destruct (IH b1 _ I1 H2) as (b2 & E2 & I2).
      exists b2. cbn [map fst run_struct_assigns]. rewrite E1. cbn [bind]. split; [exact E2|exact I2]. }
  destruct (G l _ _ I0 HF) as (b' & E & I).
  exists b'. split; [exact E|]. split.
  - intros i n Hi. apply (sinv_read sizes pos l0 HP Hp b' _ i n I Hi).
  - intros q Hq Ho. rewrite !peek_content; auto; [|apply TableProofs.flat_in_memory; auto|apply I].
    f_equal. rewrite (si_out _ _ _ _ _ I q Ho). symmetry. apply flat_content; auto.
Qed.
