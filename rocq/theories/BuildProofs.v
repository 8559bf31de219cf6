(** Lemmas on the builder: a table under construction as a grid of cells with
    data behind it. *)
From Coq Require Import ZArith List Bool Lia.
From Coq Require Import Strings.Byte.
From Verif Require Import GoLib BaseModel GoLemmas BaseSpec BaseProofs BaseProofs2 BaseProofs3.
From Verif Require Import TableModel TableSpec TableProofs TableProofs2 ListProofs4.
Import ListNotations.
Open Scope Z_scope.

(** Entries that agree with the cell or miss it hold it in one piece. *)
Lemma whole_grid : forall bs ds c n,
  Forall (fun d => (d_off d = c /\ d_len d = n) \/ misses c n d) ds -> 1 <= n ->
  (c + n <= zlen bs \/ (zlen bs <= c /\ over ds (img_bytes bs) c <> None)) ->
  whole ds (zlen bs) c n.
Proof.
  intros bs ds c n. induction ds as [|d ds IH] using rev_ind; intros HF Hn H.
  - destruct H as [H|[H1 H2]]; [apply whole_flat; exact H|].
    rewrite over_nil in H2. unfold img_bytes in H2. rewrite zget_ge in H2 by lia. congruence.
  - apply Forall_app in HF as [F1 F2]. inversion F2 as [|? ? D _]; subst.
    destruct D as [[D1 D2]|D].
    + apply whole_last; lia.
    + apply whole_app; [|constructor; auto]. apply IH; auto.
      destruct H as [H|[H1 H2]]; [left; exact H|right]. split; [exact H1|].
      rewrite over_app, over_one in H2. unfold img_write in H2. unfold misses, d_len, gs_len in D.
      unfold d_data in H2. destruct (_ && _) eqn:X in H2; [lia|exact H2].
Qed.

Lemma le_decode_4 : forall o, 0 <= o < 4294967296 -> le_decode (le_encode 4 o) = o.
Proof. intros o H. rewrite le_decode_encode. apply Z.mod_small. change (256 ^ Z.of_nat 4) with 4294967296. lia. Qed.

Section Grid.
Variable ks : list fkind.
Variable sizes : list Z.
Hypothesis same_len : zlen sizes = zlen ks.
Hypothesis sizes_pos : Forall (fun z => 1 <= z) sizes.
Hypothesis ref_size : forall i, zget ks i = Some KRef -> zget sizes i = Some 4.

Notation tpos := (TableProofs2.tpos ks).
Hypothesis small : tpos < 65536.

(** Sum of the sizes of the fields not yet present. *)
Fixpoint room (l : list Z) (vt : list Z) : Z :=
  match l, vt with
  | z :: l', e :: vt' => (if e =? 0 then z else 0) + room l' vt'
  | _, _ => 0
  end.

Definition vcell (d : diff) : Prop := exists k, 0 <= k <= zlen ks /\ d_off d = 2 + 2 * k /\ d_len d = 2.
Definition fcell (vt : list Z) (d : diff) : Prop :=
  exists i e z, zget vt i = Some e /\ e <> 0 /\ zget sizes i = Some z /\ d_off d = tpos + e /\ d_len d = z.

Record ginv (b : base) (vt : list Z) (tl : Z) (vals : fmap) : Prop := {
  g_mem : in_memory b;
  g_len : gs_len (b_bytes b) = tpos + 4;
  g_vt : zlen vt = zlen ks;
  g_tl : 4 <= tl /\ tl + room sizes vt <= 65535;
  g_shape : Forall (fun d => 0 < d_len d /\ (vcell d \/ fcell vt d \/ tpos + tl <= d_off d)) (b_diffs b);
  g_soff : holds_uint (content b) tpos 4 tpos;
  g_vlen : holds_uint (content b) 0 2 tpos;
  g_tlen : holds_uint (content b) 2 2 tl;
  g_entry : forall i e, zget vt i = Some e -> holds_uint (content b) (4 + 2 * i) 2 e;
  g_none : forall i, (forall e, zget vt i = Some e -> e = 0) -> vals i = None;
  g_field : forall i e, zget vt i = Some e -> e <> 0 ->
     exists z p, zget sizes i = Some z /\ vals i = Some p /\ zlen p = z /\ 4 <= e /\ e + z <= tl /\
       forall q, 0 <= q < z -> content b (tpos + e + q) = zget p q;
  g_disj : forall i j ei ej zi zj, i <> j ->
     zget vt i = Some ei -> zget vt j = Some ej -> ei <> 0 -> ej <> 0 ->
     zget sizes i = Some zi -> zget sizes j = Some zj -> ei + zi <= ej \/ ej + zj <= ei
}.

Lemma tpos_eq : tpos = 4 + 2 * zlen ks.
Proof. reflexivity. Qed.

Lemma size_ge : forall i z, zget sizes i = Some z -> 1 <= z.
Proof.
  intros i z H. rewrite Forall_forall in sizes_pos. unfold zget in H. destruct (i <? 0); [discriminate|].
  apply nth_error_In in H. auto.
Qed.

Lemma zlen_ks0 : 0 <= zlen ks.
Proof. apply zlen_nonneg. Qed.

(** ** Reading cells *)

Lemma grid_shape : forall b vt tl vals d, ginv b vt tl vals -> In d (b_diffs b) ->
  0 < d_len d /\ (vcell d \/ fcell vt d \/ tpos + tl <= d_off d).
Proof. intros b vt tl vals d I Hd. pose proof (g_shape _ _ _ _ I) as F. rewrite Forall_forall in F. auto. Qed.

Lemma grid_whole : forall b vt tl vals c n, ginv b vt tl vals -> 1 <= n ->
  ((c = 0 /\ n = 2) \/ (exists k, 0 <= k <= zlen ks /\ c = 2 + 2 * k /\ n = 2) \/ (c = tpos /\ n = 4) \/
   (exists i e, zget vt i = Some e /\ e <> 0 /\ zget sizes i = Some n /\ c = tpos + e)) ->
  whole (b_diffs b) (gs_len (b_bytes b)) c n.
Proof.
  intros b vt tl vals c n I Hn H. pose proof zlen_ks0 as HK. pose proof tpos_eq as TP.
  pose proof (g_tl _ _ _ _ I) as TL. pose proof (g_len _ _ _ _ I) as GL. unfold gs_len in *.
  apply whole_grid; auto.
  - apply Forall_forall. intros d Hd. destruct (grid_shape _ _ _ _ d I Hd) as (D0 & D).
    assert (EF : forall i e, zget vt i = Some e -> e <> 0 -> exists z, zget sizes i = Some z /\ 4 <= e /\ e + z <= tl /\ 1 <= z).
    { intros i e Hi He. destruct (g_field _ _ _ _ I i e Hi He) as (z & p & A1 & A2 & A3 & A4 & A5 & _).
      exists z. pose proof (size_ge i z A1). auto. }
    destruct H as [(-> & ->)|[(k & Hk & -> & ->)|[(-> & ->)|(i & e & Hi & He & Hz & ->)]]].
    + right. unfold misses. destruct D as [(k' & Hk' & E1 & E2)|[(i & e & z & Hi & He & Hz & E1 & E2)|D]].
      * lia.
      * destruct (EF i e Hi He) as (z' & _ & E3 & _). lia.
      * lia.
    + destruct D as [(k' & Hk' & E1 & E2)|[(i & e & z & Hi & He & Hz & E1 & E2)|D]].
      * destruct (Z.eq_dec k k') as [<-|]; [left; lia|right; unfold misses; lia].
      * destruct (EF i e Hi He) as (z' & _ & E3 & _). right. unfold misses. lia.
      * right. unfold misses. lia.
    + right. unfold misses. destruct D as [(k' & Hk' & E1 & E2)|[(i & e & z & Hi & He & Hz & E1 & E2)|D]].
      * lia.
      * destruct (EF i e Hi He) as (z' & _ & E3 & _). lia.
      * lia.
    + destruct (EF i e Hi He) as (z0 & F1 & F2 & F3 & F4). assert (z0 = n) by congruence. subst z0.
      destruct D as [(k' & Hk' & E1 & E2)|[(i' & e' & z & Hi' & He' & Hz' & E1 & E2)|D]].
      * right. unfold misses. lia.
      * destruct (Z.eq_dec i i') as [<-|NE].
        -- left. assert (e' = e) by congruence. assert (z = n) by congruence. subst. lia.
        -- right. pose proof (g_disj _ _ _ _ I i i' e e' n z NE Hi Hi' He He' Hz Hz'). unfold misses. lia.
      * right. unfold misses. lia.
  - destruct H as [(-> & ->)|[(k & Hk & -> & ->)|[(-> & ->)|(i & e & Hi & He & Hz & ->)]]]; [left; lia|left; lia|left; lia|].
    destruct (g_field _ _ _ _ I i e Hi He) as (z & p & A1 & A2 & A3 & A4 & A5 & A6).
    assert (z = n) by congruence. subst z. right. split; [lia|].
    specialize (A6 0 ltac:(lia)). rewrite Z.add_0_r in A6. unfold content in A6. rewrite A6.
    destruct (zget_some p 0 ltac:(lia)) as [x ->]. discriminate.
Qed.

Lemma grid_vtable_pos : forall b vt tl vals, ginv b vt tl vals -> vtable_pos b tpos = Ok 0.
Proof.
  intros b vt tl vals I. pose proof zlen_ks0. pose proof tpos_eq. unfold vtable_pos.
  rewrite (rd_whole 4 b tpos tpos (g_mem _ _ _ _ I) ltac:(lia) ltac:(lia)).
  - cbn [bind]. f_equal. lia.
  - apply (grid_whole b vt tl vals); auto; lia.
  - apply I.
Qed.

Lemma grid_entry : forall b vt tl vals i e, ginv b vt tl vals -> zget vt i = Some e ->
  rd 2 b (4 + 2 * i) = Ok e.
Proof.
  intros b vt tl vals i e I Hi. pose proof (zget_some_range _ _ _ Hi) as R. rewrite (g_vt _ _ _ _ I) in R.
  apply rd_whole; [apply I|lia|lia| |apply I; auto].
  apply (grid_whole b vt tl vals); auto; [lia|]. right. left. exists (i + 1). lia.
Qed.

Lemma grid_virtual_table : forall b vt tl vals i e, ginv b vt tl vals -> zget vt i = Some e ->
  virtual_table b tpos i = Ok (tpos + e).
Proof.
  intros b vt tl vals i e I Hi. unfold virtual_table.
  rewrite (grid_vtable_pos b vt tl vals I). cbn [bind].
  pose proof (zget_some_range _ _ _ Hi) as R. rewrite (g_vt _ _ _ _ I) in R. pose proof tpos_eq.
  pose proof (len_buf_ge _ (g_mem _ _ _ _ I)) as LB. rewrite (g_len _ _ _ _ I) in LB.
  destruct (len_buf b <=? 0 + 4 + i * 2) eqn:X; [lia|]. rewrite andb_false_r.
  replace (0 + 4 + i * 2) with (4 + 2 * i) by lia. rewrite (grid_entry b vt tl vals i e I Hi). reflexivity.
Qed.

Lemma grid_is_zero : forall b vt tl vals i e, ginv b vt tl vals -> zget vt i = Some e ->
  virtual_table_is_zero b tpos i = Ok (e =? 0).
Proof.
  intros b vt tl vals i e I Hi. unfold virtual_table_is_zero.
  rewrite (grid_virtual_table b vt tl vals i e I Hi). cbn [bind]. f_equal. destruct (e =? 0) eqn:X; lia.
Qed.

Lemma grid_table_len : forall b vt tl vals, ginv b vt tl vals -> table_len b tpos = Ok tl.
Proof.
  intros b vt tl vals I. unfold table_len. rewrite (grid_vtable_pos b vt tl vals I). cbn [bind].
  pose proof zlen_ks0. apply rd_whole; [apply I|lia|lia| |apply I].
  apply (grid_whole b vt tl vals); auto; [lia|]. right. left. exists 0. lia.
Qed.

Lemma grid_preload : forall b vt tl vals, ginv b vt tl vals -> preload_vtable b tpos = Ok tl.
Proof.
  intros b vt tl vals I. unfold preload_vtable. rewrite (grid_vtable_pos b vt tl vals I). cbn [bind].
  pose proof zlen_ks0. pose proof tpos_eq as TP.
  rewrite (rd_whole 2 b 0 tpos (g_mem _ _ _ _ I) ltac:(lia) ltac:(lia));
    [|apply (grid_whole b vt tl vals); auto; lia|apply I]. cbn [bind]. change (0 + 2) with 2.
  rewrite (rd_whole 2 b 2 tl (g_mem _ _ _ _ I) ltac:(lia) ltac:(lia));
    [|apply (grid_whole b vt tl vals); auto; [lia|right; left; exists 0; lia]|apply I]. cbn [bind].
  assert (HP : forall f j, 0 <= j <= zlen ks -> zlen ks - j <= Z.of_nat f ->
            preload_loop f b (4 + 2 * j) tpos = Ok tt).
  { induction f as [|f IH]; intros j Hj Hf; cbn [preload_loop]; rewrite TP at 1.
    - replace (4 + 2 * zlen ks <=? 4 + 2 * j) with true by lia. reflexivity.
    - destruct (4 + 2 * zlen ks <=? 4 + 2 * j) eqn:X; [reflexivity|].
      destruct (zget_some vt j) as [e He]; [rewrite (g_vt _ _ _ _ I); lia|].
      rewrite (grid_entry b vt tl vals j e I He). cbn [bind].
      replace (4 + 2 * j + 2) with (4 + 2 * (j + 1)) by lia. apply IH; lia. }
  specialize (HP (Z.to_nat tpos) 0 ltac:(lia) ltac:(lia)).
  change (0 + 4) with (4 + 2 * 0). replace (0 + tpos) with tpos by lia. rewrite HP. reflexivity.
Qed.

Lemma grid_in_root : forall b vt tl vals, ginv b vt tl vals -> in_root b tpos = Ok false.
Proof.
  intros b vt tl vals I. unfold in_root. pose proof zlen_ks0. pose proof tpos_eq as TP.
  rewrite (rd_whole 2 b 0 tpos (g_mem _ _ _ _ I) ltac:(lia) ltac:(lia));
    [|apply (grid_whole b vt tl vals); auto; lia|apply I]. cbn [bind].
  assert (W : whole (b_diffs b) (gs_len (b_bytes b)) tpos 4) by (apply (grid_whole b vt tl vals); auto; lia).
  destruct (whole_read b tpos 4 4 (g_mem _ _ _ _ I) ltac:(lia) ltac:(lia) ltac:(lia) W) as (s & -> & HL & _).
  cbn [bind opt_len]. destruct (gs_len s <? 4) eqn:X; [lia|]. destruct (tpos <? 8); [reflexivity|].
  rewrite (rd_whole 4 b tpos tpos (g_mem _ _ _ _ I) ltac:(lia) ltac:(lia) W (g_soff _ _ _ _ I)).
  cbn [bind]. rewrite Z.eqb_refl. reflexivity.
Qed.

Lemma grid_beside : forall b vt tl vals, ginv b vt tl vals -> Forall (beside (tpos + tl)) (b_diffs b).
Proof.
  intros b vt tl vals I. apply Forall_forall. intros d Hd. destruct (grid_shape _ _ _ _ d I Hd) as (D0 & D).
  pose proof (g_tl _ _ _ _ I). pose proof zlen_ks0. pose proof tpos_eq. unfold beside.
  destruct D as [(k & Hk & E1 & E2)|[(i & e & z & Hi & He & Hz & E1 & E2)|D]]; [lia| |lia].
  destruct (g_field _ _ _ _ I i e Hi He) as (z' & p & A1 & A2 & A3 & A4 & A5 & _).
  assert (z' = z) by congruence. lia.
Qed.

(** ** Writing a field that is there *)

Lemma grid_write : forall b vt tl vals i e p l s b', ginv b vt tl vals ->
  zget vt i = Some e -> e <> 0 -> zget sizes i = Some (zlen p) ->
  b_bytes b' = b_bytes b -> b_rdiffs b' = b_rdiffs b ->
  b_diffs b' = b_diffs b ++ l ++ [mkDiff (tpos + e) s] -> sl_data s = p ->
  Forall (fun d => d_off d = tpos + e /\ d_len d = zlen p) l ->
  (forall q, content b' q = img_write (content b) (tpos + e) p q) ->
  ginv b' vt tl (fmap_set vals i p).
Proof.
  intros b vt tl vals i e p l s b' I Hi He Hz HB HR HD HS HL HC.
  destruct (g_field _ _ _ _ I i e Hi He) as (z & p0 & F1 & F2 & F3 & F4 & F5 & F6).
  assert (z = zlen p) by congruence. subst z. pose proof (size_ge i _ Hz) as HP.
  pose proof zlen_ks0. pose proof tpos_eq as TP.
  assert (KEEP : forall c n v, (c + Z.of_nat n <= tpos + e \/ tpos + e + zlen p <= c) ->
     holds_uint (content b) c n v -> holds_uint (content b') c n v).
  { intros c n v Hc H1. eapply holds_uint_ext; [|exact H1]. intros q Hq. rewrite HC. unfold img_write.
    destruct (_ && _) eqn:X; [lia|reflexivity]. }
  constructor.
  - destruct (g_mem _ _ _ _ I) as [M1 M2]. split; [congruence|]. rewrite HD.
    apply Forall_app; split; auto. apply Forall_app; split.
    + eapply Forall_impl; [|exact HL]. cbv beta. intros d [D1 D2]. lia.
    + constructor; [cbn [d_off]; lia|constructor].
  - rewrite HB. apply I.
  - apply I.
  - apply I.
  - rewrite HD. apply Forall_app; split; [apply I|]. apply Forall_app; split.
    + eapply Forall_impl; [|exact HL]. cbv beta. intros d [D1 D2]. split; [lia|]. right. left.
      exists i, e, (zlen p). auto.
    + constructor; [|constructor]. assert (EL : d_len (mkDiff (tpos + e) s) = zlen p)
        by (unfold d_len, gs_len; cbn [d_sl]; rewrite HS; reflexivity). rewrite EL. split; [lia|].
      right. left. exists i, e, (zlen p). auto.
  - apply KEEP; [lia|apply I].
  - apply KEEP; [lia|apply I].
  - apply KEEP; [lia|apply I].
  - intros j ej Hj. apply KEEP; [|apply I; auto].
    pose proof (zget_some_range _ _ _ Hj) as R. rewrite (g_vt _ _ _ _ I) in R. lia.
  - intros j Hj. unfold fmap_set. destruct (j =? i) eqn:X; [|apply (g_none _ _ _ _ I); auto].
    replace j with i in Hj by lia. specialize (Hj e Hi). lia.
  - intros j ej Hj Hej. destruct (Z.eq_dec j i) as [->|NE].
    + assert (ej = e) by congruence. subst ej. exists (zlen p), p. unfold fmap_set. rewrite Z.eqb_refl.
      do 5 (split; [first [reflexivity|assumption|lia]|]). intros q Hq. rewrite HC. unfold img_write.
      destruct (_ && _) eqn:X; [f_equal; lia|lia].
    + destruct (g_field _ _ _ _ I j ej Hj Hej) as (z2 & p2 & G1 & G2 & G3 & G4 & G5 & G6).
      exists z2, p2. unfold fmap_set. replace (j =? i) with false by lia.
      pose proof (g_disj _ _ _ _ I i j e ej _ z2 ltac:(auto) Hi Hj He Hej Hz G1) as D.
      do 5 (split; [assumption|]). intros q Hq. rewrite HC. unfold img_write.
      destruct (_ && _) eqn:X; [lia|]. auto.
  - apply I.
Qed.

Lemma grid_u : forall b vt tl vals i e p, ginv b vt tl vals ->
  zget vt i = Some e -> e <> 0 -> zget sizes i = Some (zlen p) ->
  exists b', base_u b (tpos + e) (zlen p) p = Ok b' /\ ginv b' vt tl (fmap_set vals i p) /\
    forall q, tpos + tl <= q -> content b' q = content b q.
Proof.
  intros b vt tl vals i e p I Hi He Hz. pose proof (size_ge i _ Hz) as HP.
  destruct (g_field _ _ _ _ I i e Hi He) as (z & p0 & F1 & F2 & F3 & F4 & F5 & F6).
  assert (z = zlen p) by congruence. subst z. pose proof zlen_ks0. pose proof tpos_eq as TP.
  destruct (base_u_cell b (tpos + e) p ltac:(lia) HP) as (l & EU & FL).
  { intros d Hd Hc. apply covers_iff in Hc. destruct (grid_shape _ _ _ _ d I Hd) as (D0 & D).
    destruct D as [(k' & Hk' & E1 & E2)|[(j & ej & zj & Hj & Hej & Hzj & E1 & E2)|D]]; [lia| |lia].
    destruct (Z.eq_dec i j) as [<-|NE]; [assert (ej = e) by congruence; assert (zj = zlen p) by congruence; lia|].
    pose proof (g_disj _ _ _ _ I i j e ej _ zj NE Hi Hj He Hej Hz Hzj). lia. }
  destruct (base_u_spec b (tpos + e) (zlen p) p (g_mem _ _ _ _ I) ltac:(lia) eq_refl) as (b' & EB & M & BB & _ & _ & C).
  exists b'. split; [exact EB|].
  assert (EQ : b' = set_diffs b (b_diffs b ++ l ++ [mkDiff (tpos + e) (gs_of p)])) by congruence.
  split.
  - apply (grid_write b vt tl vals i e p l (gs_of p) b'); auto.
    + rewrite EQ. reflexivity.
    + rewrite EQ. reflexivity.
  - intros q Hq. rewrite C. unfold img_write. destruct (_ && _) eqn:X; [lia|reflexivity].
Qed.

Lemma grid_copy : forall b vt tl vals i e p src sp, ginv b vt tl vals ->
  zget vt i = Some e -> e <> 0 -> zget sizes i = Some (zlen p) -> delivers src sp p ->
  exists b', base_copy b src sp (zlen p) (tpos + e) 0 = Ok b' /\ ginv b' vt tl (fmap_set vals i p) /\
    forall q, tpos + tl <= q -> content b' q = content b q.
Proof.
  intros b vt tl vals i e p src sp I Hi He Hz HD. pose proof (size_ge i _ Hz) as HP.
  destruct (g_field _ _ _ _ I i e Hi He) as (z & p0 & F1 & F2 & F3 & F4 & F5 & F6).
  assert (z = zlen p) by congruence. subst z. pose proof zlen_ks0. pose proof tpos_eq as TP.
  destruct (copy_beyond b src sp p (tpos + e) HD HP) as (s & EC & HS).
  { rewrite (g_len _ _ _ _ I). lia. }
  assert (CC : forall q, content (set_diffs b (b_diffs b ++ [mkDiff (tpos + e) s])) q
                 = img_write (content b) (tpos + e) p q).
  { intros q. rewrite content_append. cbn [d_off]. unfold d_data; cbn [d_sl]. rewrite HS. reflexivity. }
  eexists. split; [exact EC|]. split.
  - apply (grid_write b vt tl vals i e p nil s); auto.
  - intros q Hq. rewrite CC. unfold img_write. destruct (_ && _) eqn:X; [lia|reflexivity].
Qed.

(** ** Moving references *)

(** Every reference leads behind the table. *)
Definition beyond (vt : list Z) (tl : Z) (vals : fmap) : Prop :=
  forall j e, zget ks j = Some KRef -> zget vt j = Some e -> e <> 0 ->
    exists o, vals j = Some (le_encode 4 o) /\ tl - e <= o /\ o + room sizes vt <= 4294967295.

Definition ref_at (i : Z) : bool := match zget ks i with Some KRef => true | _ => false end.

(** The slots from [i] on of references but [idx] grow by [size]. *)
Definition bump (size idx i : Z) (vals : fmap) : fmap :=
  fun j => if ref_at j && negb (j =? idx) && (i <=? j)
           then option_map (fun p => le_encode 4 (le_decode p + size)) (vals j) else vals j.

Lemma ginv_ext : forall b vt tl vals vals', (forall j, vals j = vals' j) -> ginv b vt tl vals -> ginv b vt tl vals'.
Proof.
  intros b vt tl vals vals' H I. destruct I. constructor; auto.
  - intros i Hi. rewrite <- H. auto.
  - intros i e Hi He. destruct (g_field0 i e Hi He) as (z & p & A). exists z, p. rewrite <- H. exact A.
Qed.

Lemma grid_move_refs : forall idx wpos size tl, 0 <= size -> 0 <= wpos ->
  forall l i b vt tl' vals, (forall q k, zget l q = Some k -> zget ks (i + q) = Some k) -> zlen l + i = zlen ks ->
  0 <= i -> ginv b vt tl' vals ->
  (forall j e, zget ks j = Some KRef -> j <> idx -> i <= j -> zget vt j = Some e -> e <> 0 ->
     exists o, vals j = Some (le_encode 4 o) /\ 0 <= o /\ wpos <= tpos + e + o /\ o + size <= 4294967295) ->
  tpos + tl' = tl ->
  exists b', move_refs l i idx wpos size (mkT b tpos) = Ok (mkT b' tpos) /\
    ginv b' vt tl' (bump size idx i vals) /\
    forall q, tl <= q -> content b' q = content b q.
Proof.
  intros idx wpos size tl Hsz Hw. induction l as [|k l IH]; intros i b vt tl' vals HL HN Hi I HR HE; cbn [move_refs].
  - exists b. split; [reflexivity|]. split; [|auto].
    apply (ginv_ext b vt tl' vals); [|exact I]. intros j. unfold bump, ref_at.
    destruct (zget ks j) as [[]|] eqn:K; cbn [andb]; try reflexivity.
    pose proof (zget_some_range _ _ _ K). change (zlen (@nil fkind)) with 0 in HN.
    replace (i <=? j) with false by lia. rewrite andb_false_r. reflexivity.
  - assert (K0 : zget ks i = Some k).
    { pose proof (HL 0 k) as H0. rewrite zget_cons in H0. cbn in H0. specialize (H0 eq_refl).
      rewrite Z.add_0_r in H0. exact H0. }
    rewrite zlen_cons in HN.
    assert (HL' : forall q k', zget l q = Some k' -> zget ks (i + 1 + q) = Some k').
    { intros q k' Hq. replace (i + 1 + q) with (i + (1 + q)) by lia.
      apply HL. rewrite zget_cons. pose proof (zget_some_range _ _ _ Hq).
      destruct (1 + q =? 0) eqn:X; [lia|]. replace (1 + q - 1) with q by lia. exact Hq. }
    assert (SKIP : ref_at i && negb (i =? idx) = false \/ vals i = None ->
       exists b', move_refs l (i + 1) idx wpos size (mkT b tpos) = Ok (mkT b' tpos) /\
         ginv b' vt tl' (bump size idx i vals) /\ forall q, tl <= q -> content b' q = content b q).
    { intros HS. destruct (IH (i + 1) b vt tl' vals HL' ltac:(lia) ltac:(lia) I) as (b' & E1 & I1 & C1).
      - intros j e Kj Hj Hij. apply HR; auto. lia.
      - exact HE.
      - exists b'. split; [exact E1|]. split; [|exact C1].
        apply (ginv_ext b' vt tl' _ _) with (2 := I1). intros j. unfold bump.
        destruct (Z.eq_dec j i) as [->|NE].
        + destruct HS as [HS|HS]; [rewrite HS|rewrite HS; cbn [option_map]; destruct (_ && _), (_ && _); reflexivity].
          cbn [andb]. reflexivity.
        + replace (i <=? j) with (i + 1 <=? j) by (destruct (i + 1 <=? j) eqn:X; lia). reflexivity. }
    destruct (i =? idx) eqn:EI.
    { cbn [bind]. apply SKIP. left. rewrite andb_false_r. reflexivity. }
    destruct k as [z|z|]; cbn [bind].
    + apply SKIP. left. unfold ref_at. rewrite K0. reflexivity.
    + apply SKIP. left. unfold ref_at. rewrite K0. reflexivity.
    + cbn [t_io t_pos].
      destruct (zget_some vt i) as [e He].
      { rewrite (g_vt _ _ _ _ I). pose proof (zlen_nonneg l). lia. }
      unfold table_ref. rewrite (grid_virtual_table b vt tl' vals i e I He), (grid_is_zero b vt tl' vals i e I He).
      cbn [bind]. destruct (e =? 0) eqn:E0.
      { cbn [bind]. replace (wpos <=? -1) with false by lia. cbn [bind]. apply SKIP. right.
        apply (g_none _ _ _ _ I). intros e' He'. assert (e' = e) by congruence. lia. }
      destruct (HR i e K0 ltac:(lia) ltac:(lia) He ltac:(lia)) as (o & O1 & O2 & O3 & O4).
      destruct (g_field _ _ _ _ I i e He ltac:(lia)) as (z & p & F1 & F2 & F3 & F4 & F5 & F6).
      assert (z = 4) by (pose proof (ref_size i K0); congruence). subst z.
      assert (p = le_encode 4 o) by congruence. subst p.
      pose proof zlen_ks0. pose proof tpos_eq as TP.
      assert (RD : rd 4 b (tpos + e) = Ok o).
      { apply rd_whole; [apply I|lia|lia| |].
        - apply (grid_whole b vt tl' vals); auto; [lia|]. right. right. right. exists i, e.
          repeat split; auto. lia.
        - apply holds_uint_encode; [|change (256 ^ Z.of_nat 4) with 4294967296; lia].
          intros q Hq. apply F6. lia. }
      rewrite RD. cbn [bind]. replace (wpos <=? tpos + e + o) with true by lia.
      unfold move_pos. cbn [t_io t_pos]. rewrite (grid_virtual_table b vt tl' vals i e I He). cbn [bind].
      rewrite RD. cbn [bind]. replace (tpos + e + o <? wpos) with false by lia.
      replace (u32 (o + size)) with (o + size)
        by (symmetry; apply Z.mod_small; change (2 ^ 32) with 4294967296; lia).
      assert (L4 : zlen (le_encode 4 (o + size)) = 4) by apply zlen_le_encode.
      destruct (grid_u b vt tl' vals i e (le_encode 4 (o + size)) I He ltac:(lia)) as (b1 & EU & I1 & C1).
      { rewrite L4. exact F1. }
      rewrite L4 in EU. rewrite EU. cbn [bind].
      destruct (IH (i + 1) b1 vt tl' _ HL' ltac:(lia) ltac:(lia) I1) as (b' & E2 & I2 & C2).
      * intros j ej Kj Hj Hij Hvj Hej. unfold fmap_set. replace (j =? i) with false by lia. apply HR; auto. lia.
      * exact HE.
      * exists b'. split; [exact E2|]. split.
        -- apply (ginv_ext b' vt tl' _ _) with (2 := I2). intros j. unfold bump, fmap_set.
           destruct (Z.eq_dec j i) as [->|NE].
           ++ unfold ref_at. rewrite K0. rewrite EI, Z.eqb_refl. cbn [andb negb].
              replace (i + 1 <=? i) with false by lia. replace (i <=? i) with true by lia.
              rewrite O1. cbn [option_map]. rewrite le_decode_4 by lia. reflexivity.
           ++ replace (j =? i) with false by lia.
              replace (i <=? j) with (i + 1 <=? j) by (destruct (i + 1 <=? j) eqn:X; lia). reflexivity.
        -- intros q Hq. rewrite C2 by auto. apply C1. lia.
Qed.

End Grid.
