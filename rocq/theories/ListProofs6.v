(** Tables built by assignments are self-contained; appending them to a vector
    keeps their field values. *)
From Coq Require Import ZArith List Bool Lia.
From Coq Require Import Strings.Byte.
From Verif Require Import GoLib BaseModel GoLemmas BaseSpec BaseProofs BaseProofs2 BaseProofs3.
From Verif Require Import TableModel TableSpec TableProofs TableProofs2 ListModel ListSpec.
From Verif Require Import ListProofs ListProofs2 ListProofs3 ListProofs4 ListProofs5.
Import ListNotations.
Open Scope Z_scope.

Section Built.
Variable ks : list fkind.
Hypothesis sizes_pos : Forall (fun k => forall n, inline_size k = Some n -> 1 <= n) ks.
Hypothesis inline : Forall (fun k => inline_size k <> None) ks.

Lemma inline_all : forall i k, zget ks i = Some k -> exists n, inline_size k = Some n /\ 1 <= n.
Proof.
  intros i k H. assert (In k ks).
  { unfold zget in H. destruct (i <? 0); [discriminate|]. eapply nth_error_In; eauto. }
  rewrite Forall_forall in sizes_pos, inline. specialize (inline k H0). specialize (sizes_pos k H0).
  destruct (inline_size k) as [n|]; [|congruence]. eauto.
Qed.

Lemma inv_clean : forall t vt tl vals, inv ks t vt tl vals -> no_inner_start (b_diffs (t_io t)).
Proof.
  intros t vt tl vals I l1 d l2 e l3 E. pose proof (i_shape _ _ _ _ _ I) as S. rewrite Forall_forall in S.
  assert (Sd : shape ks vt d) by (apply S; rewrite E; apply in_or_app; right; left; auto).
  assert (Se : shape ks vt e).
  { apply S; rewrite E. apply in_or_app; right; right. apply in_or_app; right; left; auto. }
  assert (TP : tpos ks = 4 + 2 * zlen ks) by reflexivity.
  destruct Sd as [(a & Ha & D1 & D2)|(i & ei & ki & ni & Hi & Hei & Hki & Hni & D1 & D2)];
  destruct Se as [(b & Hb & E1 & E2)|(j & ej & kj & nj & Hj & Hej & Hkj & Hnj & E1 & E2)]; try lia.
  - destruct (i_field _ _ _ _ _ I j ej Hj Hej) as (k2 & n2 & p2 & _ & _ & _ & _ & G5 & _). lia.
  - destruct (i_field _ _ _ _ _ I i ei Hi Hei) as (k2 & n2 & p2 & _ & _ & _ & _ & G5 & _). lia.
  - destruct (Z.eq_dec i j) as [->|NE]; [left; rewrite Hi in Hj; injection Hj as ->; lia|].
    destruct (inline_all j kj Hkj) as (m & Hm1 & Hm2). rewrite Hnj in Hm1. injection Hm1 as <-.
    pose proof (i_disj _ _ _ _ _ I i j ei ej ki kj ni nj NE Hi Hj Hei Hej Hki Hkj Hni Hnj). lia.
Qed.

Lemma inv_info : forall t vt tl vals, inv ks t vt tl vals -> forall ks' i acc,
  (forall q, zget ks' q = if q <? 0 then None else zget ks (i + q)) -> 0 <= i ->
  exists es, table_info (t_io t) (t_pos t) ks' i acc = Ok (Some es) /\ acc <= es /\
    forall q e k n, i <= q -> zget vt q = Some e -> e <> 0 -> zget ks q = Some k -> inline_size k = Some n ->
      e + n <= es.
Proof.
  intros t vt tl vals I. induction ks' as [|k ks' IH]; intros i acc HK Hi; cbn [table_info].
  - exists acc. split; [reflexivity|]. split; [lia|]. intros q e k n Hq _ _ Hk.
    specialize (HK (q - i)). rewrite zget_nil in HK. replace (q - i <? 0) with false in HK by lia.
    replace (i + (q - i)) with q in HK by lia. congruence.
  - assert (K0 : zget ks i = Some k).
    { specialize (HK 0). rewrite zget_cons in HK. cbn [Z.eqb Z.ltb Z.compare] in HK. rewrite Z.add_0_r in HK. congruence. }
    pose proof (zget_some_range _ _ _ K0) as R.
    destruct (zget_some vt i ltac:(rewrite (i_vt _ _ _ _ _ I); lia)) as [e He].
    rewrite (inv_virtual_table ks t vt tl vals i e I He). cbn [bind].
    assert (HK' : forall q, zget ks' q = if q <? 0 then None else zget ks (i + 1 + q)).
    { intros q. destruct (q <? 0) eqn:Q; [apply zget_neg; lia|]. specialize (HK (q + 1)). rewrite zget_cons in HK.
      replace (q + 1 =? 0) with false in HK by lia. replace (q + 1 <? 0) with false in HK by lia.
      replace (q + 1 - 1) with q in HK by lia. rewrite HK. f_equal. lia. }
    destruct (inline_all i k K0) as (n & Hn & Hn1).
    assert (G : forall acc', acc <= acc' -> (e <> 0 -> e + n <= acc') ->
      exists es, table_info (t_io t) (t_pos t) ks' (i + 1) acc' = Ok (Some es) /\ acc <= es /\
        forall q e k n, i <= q -> zget vt q = Some e -> e <> 0 -> zget ks q = Some k -> inline_size k = Some n ->
          e + n <= es).
    { intros acc' H1 H2. destruct (IH (i + 1) acc' HK' ltac:(lia)) as (es & E1 & E2 & E3).
      exists es. split; [exact E1|]. split; [lia|]. intros q e' k' n' Hq He' Hz Hk' Hn'.
      destruct (Z.eq_dec q i) as [->|NE]; [|apply (E3 q e' k' n'); auto; lia].
      rewrite He in He'. injection He' as <-. rewrite K0 in Hk'. injection Hk' as <-.
      rewrite Hn in Hn'. injection Hn' as <-. specialize (H2 Hz). lia. }
    destruct k as [m|m|]; cbn [inline_size] in Hn; [| |discriminate]; injection Hn as ->.
    + apply G; lia.
    + apply G; [lia|]. intros Hz. replace (t_pos t + e =? t_pos t) with false by lia. lia.
Qed.

(** A built table with at least one field is self-contained, and its size
    covers all its fields. *)
Lemma inv_self_contained : forall t vt tl vals, inv ks t vt tl vals -> (exists i, vals i <> None) ->
  exists es, self_contained ks (t_io t) (t_pos t) es /\
    forall q e k n, zget vt q = Some e -> e <> 0 -> zget ks q = Some k -> inline_size k = Some n -> e + n <= es.
Proof.
  intros t vt tl vals I [f Hf]. assert (TP : tpos ks = vtable_size ks) by reflexivity.
  pose proof (zlen_nonneg ks) as HN. assert (VS : vtable_size ks = 4 + 2 * zlen ks) by reflexivity.
  destruct (inv_info t vt tl vals I ks 0 (-1)) as (es & E1 & E2 & E3); [|lia|].
  { intros q. destruct (q <? 0) eqn:Q; [apply zget_neg; lia|f_equal; lia]. }
  exists es. split.
  2: { intros q e k n Hq. apply E3; auto. apply zget_some_range in Hq. lia. }
  constructor.
  - apply I.
  - eapply inv_clean; eauto.
  - rewrite (i_pos _ _ _ _ _ I). lia.
  - rewrite (inv_vtable_pos ks t vt tl vals I), (i_pos _ _ _ _ _ I). f_equal. lia.
  - unfold virtual_table_len. rewrite (inv_vtable_pos ks t vt tl vals I). cbn [bind]. rewrite <- TP.
    apply (inv_rd ks t vt tl vals 2 0 _ I ltac:(lia) ltac:(lia) (i_vlen _ _ _ _ _ I)).
  - exists tl. apply (inv_table_len ks t vt tl vals I).
  - intros i Hi. destruct (zget_some vt i ltac:(rewrite (i_vt _ _ _ _ _ I); lia)) as [e He]. exists e.
    rewrite (i_pos _ _ _ _ _ I). replace (tpos ks - vtable_size ks + 4 + 2 * i) with (4 + 2 * i) by lia.
    apply (inv_rd ks t vt tl vals 2 (4 + 2 * i) e I ltac:(lia) ltac:(lia) (i_entry _ _ _ _ _ I i e He)).
  - exact E1.
  - destruct (zget vt f) as [e|] eqn:Ee.
    + destruct (Z.eq_dec e 0) as [->|NE].
      * exfalso. apply Hf, (i_none _ _ _ _ _ I). intros e He. congruence.
      * destruct (i_field _ _ _ _ _ I f e Ee NE) as (k & n & p & G1 & G2 & G3 & G4 & G5 & _).
        pose proof (zget_some_range _ _ _ Ee). specialize (E3 f e k n ltac:(lia) Ee NE G1 G2).
        destruct (inline_all f k G1) as (n' & Hn' & Hn1). rewrite G2 in Hn'. injection Hn' as <-. lia.
    + exfalso. apply Hf, (i_none _ _ _ _ _ I). intros e He. congruence.
  - intros j Hj. rewrite (i_pos _ _ _ _ _ I) in Hj. apply readable_content; [apply I|lia|].
    apply (i_full _ _ _ _ _ I). pose proof (i_tl _ _ _ _ _ I). lia.
Qed.

(** A faithful copy of a built table has the same field values. *)
Lemma copy_fields : forall t vt tl vals es b p, inv ks t vt tl vals ->
  self_contained ks (t_io t) (t_pos t) es ->
  (forall q e k n, zget vt q = Some e -> e <> 0 -> zget ks q = Some k -> inline_size k = Some n -> e + n <= es) ->
  (forall j, 0 <= j < zlen ks -> exists e,
     virtual_table (t_io t) (t_pos t) j = Ok (t_pos t + e) /\ virtual_table b p j = Ok (p + e)) ->
  same_reads (t_io t) (t_pos t) b p (- vtable_size ks) es ->
  forall i k n, zget ks i = Some k -> inline_size k = Some n -> read_field (mkT b p) i n = Ok (vals i).
Proof.
  intros t vt tl vals es b p I SC HB HV SR i k n Hk Hn. pose proof (zget_some_range _ _ _ Hk) as R.
  destruct (zget_some vt i ltac:(rewrite (i_vt _ _ _ _ _ I); lia)) as [e He].
  destruct (HV i R) as (e' & V1 & V2). rewrite (inv_virtual_table ks t vt tl vals i e I He) in V1.
  assert (e' = e) by (injection V1; lia). subst e'.
  unfold read_field, field_at, virtual_table_is_zero. cbn [t_io t_pos]. rewrite V2. cbn [bind].
  assert (TP : tpos ks = vtable_size ks) by reflexivity. assert (VS : vtable_size ks = 4 + 2 * zlen ks) by reflexivity.
  destruct (Z.eq_dec e 0) as [->|NE].
  - replace (p + 0 =? p) with true by lia. rewrite (i_none _ _ _ _ _ I); [reflexivity|].
    intros e' He'. congruence.
  - replace (p + e =? p) with false by lia.
    destruct (i_field _ _ _ _ _ I i e He NE) as (k2 & n2 & q & G1 & G2 & G3 & G4 & G5 & G6 & G7 & G8).
    rewrite Hk in G1. injection G1 as <-. rewrite Hn in G2. injection G2 as <-.
    destruct (inline_all i k Hk) as (n' & Hn' & Hn1). rewrite Hn in Hn'. injection Hn' as <-.
    assert (D : delivers (t_io t) (t_pos t + e) q).
    { rewrite (i_pos _ _ _ _ _ I). destruct (whole_read (t_io t) (tpos ks + e) n n (i_mem _ _ _ _ _ I) ltac:(lia)
        ltac:(lia) ltac:(lia) G7) as (s & ER & HL & HG).
      exists s. rewrite G4. split; [exact ER|]. split; [exact HL|]. apply zget_ext. intros j. rewrite zget_zfirst.
      destruct (j <? n) eqn:Q; [|symmetry; apply zget_ge; lia].
      destruct (Z.lt_ge_cases j 0); [rewrite !zget_neg by auto; reflexivity|]. rewrite HG by lia. apply G8. lia. }
    apply SR in D; try lia.
    + destruct D as (s & ER & HL & HE). rewrite G4 in *. cbn [bind]. rewrite ER. cbn [bind opt_data]. rewrite HE, G3. reflexivity.
    + specialize (HB i e k n He NE Hk Hn). lia.
    + intros j Hj. rewrite (i_pos _ _ _ _ _ I). apply readable_content; [apply I|lia|].
      apply (i_full _ _ _ _ _ I). lia.
Qed.

(** The statement over histories: tables made by Init and any assignments, then
    appended to an empty list. *)
Lemma built_tables : forall hs, 4 + 2 * zlen ks < 65536 -> 4 + inline_total ks < 65536 ->
  Forall (fun h => h <> nil /\ Forall (fun ap => assign_ok ks (fst ap) (snd ap)) h) hs ->
  exists b0 ts, init_table ks = Ok (b0, 4 + 2 * zlen ks) /\
    Forall2 (fun h e => run_assigns ks (mkT b0 (4 + 2 * zlen ks)) (map fst h) =
                        Ok (Some (mkT (fst (fst e)) (snd (fst e)))) /\
                        elem_info (ETable ks) (fst (fst e)) (snd (fst e)) = Ok (Some (snd e))) hs ts /\
    (appended_size ks ts < 2 ^ 32 - 4 ->
     exists l, run_sets (ETable ks) init_list (append_ops 0 ts) = Ok (LOk l) /\
       list_vlen l = Ok (zlen hs) /\
       forall i h, zget hs i = Some h -> exists t, list_at (ETable ks) l i = Ok (Some t) /\
         forall f k n, zget ks f = Some k -> inline_size k = Some n ->
           read_field (mkT (l_io l) t) f n = Ok (final_map h f)).
Proof.
  intros hs HS HT HF. destruct (init_table_ok ks HS) as (b0 & EI & _). exists b0.
  assert (G : exists ts, Forall2 (fun h e => run_assigns ks (mkT b0 (4 + 2 * zlen ks)) (map fst h) =
                        Ok (Some (mkT (fst (fst e)) (snd (fst e)))) /\
                        exists vt tl, inv ks (mkT (fst (fst e)) (snd (fst e))) vt tl (final_map h) /\
                        self_contained ks (fst (fst e)) (snd (fst e)) (snd e) /\
                        forall q x k n, zget vt q = Some x -> x <> 0 -> zget ks q = Some k -> inline_size k = Some n ->
                          x + n <= snd e) hs ts).
  { induction HF as [|h hs [HN HA] HF IH]; [exists nil; constructor|]. destruct IH as [ts IH].
    destruct (built_inv ks h sizes_pos HS HT HA) as (b & t & vt & tl & EB & ER & I).
    rewrite EI in EB. injection EB as <-.
    destruct (inv_self_contained t vt tl _ I) as (es & SC & HB).
    { clear - HN. unfold final_map.
      assert (K : forall h0 (m : fmap), (exists i, m i <> None) \/ h0 <> nil ->
        exists i, fold_left (fun m (ap : assign * list byte) => fmap_set m (fst (fst (fst ap))) (snd ap)) h0 m i <> None).
      { induction h0 as [|[[[i s] p] q] h0 IH]; intros m H; cbn [fold_left].
        - destruct H as [H|H]; [exact H|congruence].
        - apply IH. left. cbn [fst snd]. exists i. unfold fmap_set. rewrite Z.eqb_refl. discriminate. }
      apply K; auto. }
    exists ((t_io t, t_pos t, es) :: ts). constructor; [|exact IH]. cbn [fst snd].
    destruct t as [tb tp]; cbn [t_io t_pos] in *. split; [exact ER|]. exists vt, tl. auto. }
  destruct G as [ts G]. exists ts. split; [exact EI|]. split.
  { clear - G. induction G as [|h e hs ts H G IH]; constructor; auto. destruct H as (H1 & vt & tl & H2 & H3 & H4).
    split; [exact H1|]. apply (sc_size _ _ _ _ H3). }
  intros HM. destruct (appended_tables ks ts) as (l & EL & EV & EA); [|exact HM|].
  { clear - G. induction G as [|h e hs ts H G IH]; constructor; auto.
    destruct e as [[a b] c]. destruct H as (_ & vt & tl & _ & H & _). exact H. }
  exists l. split; [exact EL|].
  assert (LZ : zlen ts = zlen hs) by (unfold zlen; clear - G; induction G; cbn [length]; lia).
  split; [rewrite <- LZ; exact EV|].
  intros i h Hh. pose proof (zget_some_range _ _ _ Hh) as R.
  destruct (zget_some ts i ltac:(lia)) as [[[src sp] es] He].
  destruct (EA i src sp es He) as (t & AT & SR & VT). exists t. split; [exact AT|].
  assert (HX : exists vt tl, inv ks (mkT src sp) vt tl (final_map h) /\ self_contained ks src sp es /\
      forall q x k n, zget vt q = Some x -> x <> 0 -> zget ks q = Some k -> inline_size k = Some n -> x + n <= es).
  { clear - G Hh He R. revert i Hh He R. induction G as [|h0 e0 hs ts H G IH]; intros i Hh He R.
    - rewrite zget_nil in Hh. discriminate.
    - rewrite zget_cons in Hh. rewrite zget_cons in He. rewrite zlen_cons in R. destruct (i =? 0) eqn:X.
      + injection Hh as <-. injection He as ->. cbn [fst snd] in H. apply H.
      + apply (IH (i - 1)); auto. lia. }
  destruct HX as (vt & tl & I & SC & HB). intros f k n Hk Hn.
  apply (copy_fields (mkT src sp) vt tl _ es (l_io l) t I SC HB VT SR f k n Hk Hn).
Qed.

End Built.
