(** Access, search, exchange and sorting of vectors. *)
From Coq Require Import ZArith List Bool Lia Permutation.
From Coq Require Import Strings.Byte.
From Verif Require Import GoLib BaseModel GoLemmas BaseSpec BaseProofs BaseProofs2 BaseProofs3.
From Verif Require Import TableModel TableSpec TableProofs TableProofs2 ListModel ListSpec ListProofs.
Import ListNotations.
Open Scope Z_scope.

(** ** Access *)

Lemma vlen_flat : forall l n, flat (l_io l) ->
  vector_at (img_bytes (sl_data (b_bytes (l_io l)))) (l_pos l) n -> list_vlen l = Ok n.
Proof.
  intros l n F [Hp H]. unfold list_vlen. apply flat_rd; auto; lia.
Qed.

Lemma at_outside : forall k l n i, list_vlen l = Ok n -> (i < 0 \/ n <= i) -> list_at k l i = Ok None.
Proof.
  intros k l n i H Hi. unfold list_at. rewrite H. cbn [bind].
  replace ((n <=? i) || (i <? 0)) with true by lia. reflexivity.
Qed.

Lemma at_fixed : forall k l n size i, list_vlen l = Ok n -> fixed_size k = Some size ->
  0 <= i < n -> list_at k l i = Ok (Some (l_pos l + i * size)).
Proof.
  intros k l n size i H Hs Hi. unfold list_at. rewrite H. cbn [bind].
  replace ((n <=? i) || (i <? 0)) with false by lia. rewrite Hs. do 3 f_equal.
  destruct (0 <? i) eqn:E; [reflexivity|]. replace i with 0 by lia. reflexivity.
Qed.

Lemma preload_loop_ok : forall fuel b cur last,
  (forall j, 0 <= j -> cur + 2 * j < last -> exists v, rd 2 b (cur + 2 * j) = Ok v) ->
  last - cur <= Z.of_nat fuel -> preload_loop fuel b cur last = Ok tt.
Proof.
  induction fuel as [|f IH]; intros b cur last H HF; cbn [preload_loop].
  - replace (last <=? cur) with true by lia. reflexivity.
  - destruct (last <=? cur) eqn:E; [reflexivity|].
    destruct (H 0 ltac:(lia) ltac:(lia)) as [v Hv]. rewrite Z.add_0_r in Hv. rewrite Hv. cbn [bind].
    apply IH; [|lia]. intros j Hj Hl. destruct (H (j + 1) ltac:(lia) ltac:(lia)) as [w Hw].
    exists w. rewrite <- Hw. f_equal. lia.
Qed.

Lemma table_preload : forall b pos soff es tl, flat b ->
  table_at (img_bytes (sl_data (b_bytes b))) pos soff es tl -> 0 <= soff ->
  preload_vtable b pos = Ok tl.
Proof.
  intros b pos soff es tl F T Hs. pose proof T as [T1 T2 T3 T4 T5 T6]. unfold preload_vtable.
  rewrite (flat_vtable_pos b pos soff es tl F T Hs). cbn [bind].
  rewrite (flat_rd 2 b (pos - soff) _ F ltac:(lia) ltac:(lia) T4). cbn [bind].
  rewrite (flat_rd 2 b (pos - soff + 2) _ F ltac:(lia) ltac:(lia) T5). cbn [bind].
  pose proof (zlen_nonneg es).
  rewrite preload_loop_ok; [reflexivity| |lia].
  intros j Hj Hl. destruct (zget_some es j ltac:(lia)) as [e He]. exists e.
  apply flat_rd; auto; lia.
Qed.

Lemma at_table_flat : forall ks l n i off soff es tl, flat (l_io l) ->
  vector_at (img_bytes (sl_data (b_bytes (l_io l)))) (l_pos l) n -> 0 <= i < n ->
  holds_uint (img_bytes (sl_data (b_bytes (l_io l)))) (l_pos l + i * 4) 4 off ->
  table_at (img_bytes (sl_data (b_bytes (l_io l)))) (l_pos l + i * 4 + off) soff es tl -> 0 <= soff ->
  list_at (ETable ks) l i = Ok (Some (l_pos l + i * 4 + off)).
Proof.
  intros ks l n i off soff es tl F V Hi HO T Hs. unfold list_at.
  rewrite (vlen_flat l n F V). cbn [bind].
  replace ((n <=? i) || (i <? 0)) with false by lia. cbn [fixed_size].
  destruct V as [Hp V].
  rewrite (flat_rd 4 (l_io l) (l_pos l + i * 4) off F ltac:(lia) ltac:(lia) HO). cbn [bind].
  rewrite (table_preload _ _ _ _ _ F T Hs).
  destruct (ta_vpos _ _ _ _ _ T) as [HP _].
  assert (HR : exists s, base_r (l_io l) (l_pos l + i * 4 + off) 4 = Ok (Some s)).
  { pose proof (ta_soff _ _ _ _ _ T) as HS.
    pose proof (flat_rd 4 (l_io l) (l_pos l + i * 4 + off) _ F HP ltac:(lia) HS) as R.
    apply delivers_rd in R; [|lia]. destruct R as [(s & ER & _) _]. rewrite zlen_le_encode in ER. eauto. }
  destruct HR as (s & ->). reflexivity.
Qed.

(** ** Select, Find, All *)

Lemma zseq_S : forall n, zseq (Z.of_nat (S n)) = zseq (Z.of_nat n) ++ [Z.of_nat n].
Proof. intros. unfold zseq. rewrite !Nat2Z.id, seq_S, map_app. reflexivity. Qed.

Lemma zseq_get : forall A (es : list A), 
  Forall2 (fun i e => zget es i = Some e) (zseq (zlen es)) es.
Proof.
  intros A es. unfold zseq, zlen. rewrite Nat2Z.id.
  assert (H : forall l1 l2, es = l1 ++ l2 ->
     Forall2 (fun i e => zget es i = Some e) (map Z.of_nat (seq (length l1) (length l2))) l2).
  { intros l1 l2; revert l1; induction l2 as [|x l2 IH]; intros l1 E; cbn [length seq map]; constructor.
    - rewrite zget_nth_error, E. apply nth_error_mid.
    - replace (S (length l1)) with (length (l1 ++ [x])) by (rewrite app_length; cbn; lia).
      apply IH. rewrite <- app_assoc. exact E. }
  apply (H nil es eq_refl).
Qed.

Lemma select_loop_filter : forall k l f is es,
  Forall2 (fun i e => list_at k l i = Ok (Some e)) is es ->
  select_loop k l f is = Ok (filter f es).
Proof.
  induction 1 as [|i e is es H F IH]; cbn [select_loop filter]; [reflexivity|].
  rewrite H. cbn [bind]. rewrite IH. cbn [bind]. reflexivity.
Qed.

Lemma find_loop_find : forall k l f is es,
  Forall2 (fun i e => list_at k l i = Ok (Some e)) is es ->
  find_loop k l f is = Ok (find f es).
Proof.
  induction 1 as [|i e is es H F IH]; cbn [find_loop find]; [reflexivity|].
  rewrite H. cbn [bind]. rewrite IH. destruct (f e); reflexivity.
Qed.

Lemma at_all : forall k l es, has_elements k l es ->
  Forall2 (fun i e => list_at k l i = Ok (Some e)) (zseq (zlen es)) es.
Proof.
  intros k l es [_ H]. pose proof (zseq_get _ es) as F. revert F. generalize (zseq (zlen es)).
  intros is F. assert (G : forall is es', Forall2 (fun i e => zget es i = Some e) is es' ->
    Forall2 (fun i e => list_at k l i = Ok (Some e)) is es').
  { induction 1; constructor; auto. }
  apply G; auto.
Qed.

Lemma queries : forall k l es f, has_elements k l es -> l_vlen l = zlen es ->
  list_select k l f = Ok (filter f es) /\ list_find k l f = Ok (find f es) /\
  list_all k l = Ok es.
Proof.
  intros k l es f H E. pose proof (at_all k l es H) as F. destruct H as [HV _].
  unfold list_all, list_select, list_find. rewrite HV, E. cbn [bind].
  split; [apply select_loop_filter; auto|]. split; [apply find_loop_find; auto|].
  rewrite (select_loop_filter k l (fun _ => true) (zseq (zlen es)) es F).
  f_equal. clear. induction es; cbn; congruence.
Qed.

(** ** SearchIndex *)

Lemma search_loop_spec : forall fuel k l f es i j asked n, has_elements k l es ->
  0 <= i <= j -> j <= n -> n <= zlen es -> j - i <= Z.of_nat fuel ->
  (forall a b, 0 <= a <= b -> forall x y, zget es a = Some x -> zget es b = Some y ->
     f x = true -> f y = true) ->
  (forall h, In h asked -> 0 <= h < n) ->
  (forall h x, 0 <= h < i -> zget es h = Some x -> f x = false) ->
  (forall h x, j <= h < n -> zget es h = Some x -> f x = true) ->
  exists r asked', search_loop fuel k l f i j asked = Ok (r, asked') /\ 0 <= r <= n /\
    (forall h, In h asked' -> 0 <= h < n) /\
    (forall h x, 0 <= h < r -> zget es h = Some x -> f x = false) /\
    (forall h x, r <= h < n -> zget es h = Some x -> f x = true).
Proof.
  induction fuel as [|fuel IH]; intros k l f es i j asked n HE Hij Hjn Hn Hf Mono HA HL HH; cbn [search_loop].
  - replace (i <? j) with false by lia. exists i, asked. replace j with i in HH by lia.
    split; [reflexivity|]. split; [lia|]. auto.
  - destruct (i <? j) eqn:E.
    2: { exists i, asked. replace j with i in HH by lia.
         split; [reflexivity|]. split; [lia|]. auto. }
    assert (Hh : i <= (i + j) / 2 < j).
    { split; [apply Z.div_le_lower_bound; lia|apply Z.div_lt_upper_bound; lia]. }
    set (h := (i + j) / 2) in *.
    destruct (zget_some es h ltac:(lia)) as [x Hx]. destruct HE as [HV HG].
    rewrite (HG _ _ Hx). cbn [bind].
    assert (HA' : forall q, In q (h :: asked) -> 0 <= q < n).
    { intros q [<-|Hq]; [lia|auto]. }
    destruct (f x) eqn:Fx.
    + apply (IH k l f es i h (h :: asked) n); auto; try lia; [split; auto|].
      intros q y Hq Hy. destruct (Z_lt_dec q j).
      * apply (Mono h q ltac:(lia) x y Hx Hy Fx).
      * apply HH with q; auto; lia.
    + apply (IH k l f es (h + 1) j (h :: asked) n); auto; try lia; [split; auto|].
      intros q y Hq Hy. destruct (f y) eqn:Fy; [|reflexivity].
      rewrite <- Fx. symmetry. apply (Mono q h ltac:(lia) y x Hy Hx Fy).
Qed.

Lemma search_spec : forall k l f es n, has_elements k l es -> 0 <= n <= zlen es ->
  (forall a b x y, 0 <= a <= b -> zget es a = Some x -> zget es b = Some y ->
     f x = true -> f y = true) ->
  exists r asked, search_index k l n f = Ok (r, asked) /\ 0 <= r <= n /\
    (forall h, In h asked -> 0 <= h < n) /\
    (forall h x, 0 <= h < r -> zget es h = Some x -> f x = false) /\
    (forall h x, r <= h < n -> zget es h = Some x -> f x = true).
Proof.
  intros k l f es n HE Hn Mono. unfold search_index.
  apply (search_loop_spec (Z.to_nat n) k l f es 0 n nil n); auto; try lia.
  - intros a b Hab x y Hx Hy. apply (Mono a b x y Hab Hx Hy).
  - intros h [].
Qed.

(** It stops for every predicate, whatever [At] answers. *)
Lemma search_stops : forall k l f n v, list_vlen l = Ok v ->
  (forall i, exists r, list_at k l i = Ok r) ->
  exists r asked, search_index k l n f = Ok (r, asked) /\
    (forall h, In h asked -> 0 <= h < n).
Proof.
  intros k l f n v HV HT. unfold search_index.
  assert (H : forall fuel i j asked, 0 <= i -> j <= n -> j - i <= Z.of_nat fuel ->
    (forall h, In h asked -> 0 <= h < n) ->
    exists r asked', search_loop fuel k l f i j asked = Ok (r, asked') /\
      (forall h, In h asked' -> 0 <= h < n)).
  { induction fuel as [|fuel IH]; intros i j asked Hi Hj Hf HA; cbn [search_loop].
    - replace (i <? j) with false by lia. eauto.
    - destruct (i <? j) eqn:E; [|eauto].
      assert (Hh : i <= (i + j) / 2 < j).
      { split; [apply Z.div_le_lower_bound; lia|apply Z.div_lt_upper_bound; lia]. }
      set (h := (i + j) / 2) in *. destruct (HT h) as [[x|] ->]; cbn [bind].
      + assert (HA' : forall q, In q (h :: asked) -> 0 <= q < n).
        { intros q [<-|Hq]; [lia|auto]. }
        destruct (f x); apply IH; auto; lia.
      + apply IH; auto; lia. }
  apply H; try lia. intros h [].
Qed.

(** ** Exchanging elements of plain lists *)

Lemma zlen_put : forall A (l : list A) i x, 0 <= i < zlen l -> zlen (put l i x) = zlen l.
Proof. intros. unfold put. rewrite zlen_app, zlen_cons, zlen_zfirst, zlen_zskip. lia. Qed.

Lemma zget_put : forall A (l : list A) i x j, 0 <= i < zlen l ->
  zget (put l i x) j = if j =? i then Some x else zget l j.
Proof.
  intros A l i x j H. unfold put. rewrite zget_app, zlen_zfirst, zget_zfirst.
  replace (Z.max 0 (Z.min i (zlen l))) with i by lia.
  destruct (j <? i) eqn:E.
  - destruct (j =? i) eqn:E2; [lia|reflexivity].
  - rewrite zget_cons. destruct (j =? i) eqn:E2.
    + replace (j - i =? 0) with true by lia. reflexivity.
    + replace (j - i =? 0) with false by lia. rewrite zget_zskip by lia.
      destruct (j - i - 1 <? 0) eqn:E3; [lia|]. f_equal. lia.
Qed.

Lemma zlen_swapped : forall A (l : list A) i j, zlen (swapped l i j) = zlen l.
Proof.
  intros. unfold swapped. destruct (zget l i) eqn:E1; [|reflexivity].
  destruct (zget l j) eqn:E2; [|reflexivity].
  apply zget_some_range in E1. apply zget_some_range in E2.
  rewrite zlen_put; rewrite zlen_put; lia.
Qed.

Lemma zget_swapped : forall A (l : list A) i j q, 0 <= i < zlen l -> 0 <= j < zlen l ->
  zget (swapped l i j) q = if q =? j then zget l i else if q =? i then zget l j else zget l q.
Proof.
  intros A l i j q Hi Hj. unfold swapped.
  destruct (zget_some l i Hi) as [a Ha]. destruct (zget_some l j Hj) as [b Hb]. rewrite Ha, Hb.
  rewrite zget_put by (rewrite zlen_put; lia). destruct (q =? j) eqn:E; [reflexivity|].
  rewrite zget_put by lia. destruct (q =? i); reflexivity.
Qed.

Lemma swapped_same : forall A (l : list A) i, 0 <= i < zlen l -> swapped l i i = l.
Proof.
  intros A l i H. apply zget_ext. intros q. rewrite zget_swapped by auto.
  destruct (q =? i) eqn:E; [|reflexivity]. f_equal. lia.
Qed.

Lemma swapped_twice : forall A (l : list A) i j, 0 <= i < zlen l -> 0 <= j < zlen l ->
  swapped (swapped l i j) i j = l.
Proof.
  intros A l i j Hi Hj. apply zget_ext. intros q.
  rewrite zget_swapped by (rewrite zlen_swapped; auto).
  rewrite !zget_swapped by auto.
  repeat match goal with |- context [?a =? ?b] => destruct (a =? b) eqn:? end;
    try reflexivity; try (f_equal; lia); lia.
Qed.

Lemma perm_zget : forall A (l l' : list A) (f g : Z -> Z), zlen l = zlen l' ->
  (forall q, 0 <= q < zlen l -> 0 <= f q < zlen l /\ g (f q) = q /\ zget l' (f q) = zget l q) ->
  Permutation l l'.
Proof.
  intros A l l' f g HL H. apply Permutation_sym, Permutation_nth_error. split; [unfold zlen in HL; lia|].
  exists (fun n => if Z.of_nat n <? zlen l then Z.to_nat (f (Z.of_nat n)) else n). split.
  - intros a b. destruct (Z.of_nat a <? zlen l) eqn:EA, (Z.of_nat b <? zlen l) eqn:EB; intros E.
    + destruct (H (Z.of_nat a) ltac:(lia)) as (A1 & A2 & _). destruct (H (Z.of_nat b) ltac:(lia)) as (B1 & B2 & _).
      assert (f (Z.of_nat a) = f (Z.of_nat b)) by lia. assert (Z.of_nat a = Z.of_nat b) by congruence. lia.
    + destruct (H (Z.of_nat a) ltac:(lia)) as (A1 & _). lia.
    + destruct (H (Z.of_nat b) ltac:(lia)) as (B1 & _). lia.
    + exact E.
  - intros n. destruct (Z.of_nat n <? zlen l) eqn:E.
    + destruct (H (Z.of_nat n) ltac:(lia)) as (A1 & _ & A3).
      rewrite <- !zget_nth_error, Z2Nat.id by lia. auto.
    + rewrite <- !zget_nth_error, !zget_ge by lia. reflexivity.
Qed.

Lemma swapped_perm : forall A (l : list A) i j, Permutation l (swapped l i j).
Proof.
  intros A l i j. destruct (zget l i) as [a|] eqn:E1.
  2: { unfold swapped. rewrite E1. apply Permutation_refl. }
  destruct (zget l j) as [b|] eqn:E2.
  2: { unfold swapped. rewrite E1, E2. apply Permutation_refl. }
  apply zget_some_range in E1. apply zget_some_range in E2.
  set (s := fun q => if q =? j then i else if q =? i then j else q).
  apply (perm_zget _ _ _ s s); [rewrite zlen_swapped; reflexivity|].
  intros q Hq. rewrite zget_swapped by auto. unfold s.
  destruct (q =? j) eqn:X; destruct (q =? i) eqn:Y; cbv beta; rewrite ?Z.eqb_refl;
    repeat match goal with |- context [?a =? ?b] => destruct (a =? b) eqn:? end;
    (split; [lia|]); (split; [lia|]); try reflexivity; f_equal; lia.
Qed.

Lemma run_plain_perm : forall lt s ts, Permutation ts (run_plain lt ts s).
Proof.
  induction s as [|i j c IH|i j c IH]; intros ts; cbn [run_plain].
  - apply Permutation_refl.
  - apply IH.
  - eapply Permutation_trans; [apply swapped_perm|apply IH].
Qed.

(** ** SwapAt on tables *)

Lemma refers_range : forall l ts i t, refers l ts -> targets_follow l ts -> zget ts i = Some t ->
  0 <= i < zlen ts /\ l_pos l + zlen ts * 4 <= t < l_pos l + 4294967296.
Proof.
  intros l ts i t _ [_ H] Hi. split; [eapply zget_some_range; eauto|].
  apply (H t). unfold zget in Hi. destruct (i <? 0); [discriminate|]. eapply nth_error_In; eauto.
Qed.

Lemma swap_tables : forall ks l ts i j, in_memory (l_io l) -> refers l ts -> targets_follow l ts ->
  0 <= i < zlen ts -> 0 <= j < zlen ts ->
  exists l', swap_at (ETable ks) l i j = Ok (l', true) /\ in_memory (l_io l') /\
    l_pos l' = l_pos l /\ l_vlen l' = l_vlen l /\ refers l' (swapped ts i j) /\
    (forall c, 0 <= c -> (c < l_pos l + i * 4 \/ l_pos l + i * 4 + 4 <= c) ->
       (c < l_pos l + j * 4 \/ l_pos l + j * 4 + 4 <= c) -> content (l_io l') c = content (l_io l) c).
Proof.
  intros ks l ts i j Hb HR HT Hi Hj. unfold swap_at. pose proof HR as [HV HS]. rewrite HV. cbn [bind].
  replace ((zlen ts <=? i) || (zlen ts <=? j)) with false by lia.
  destruct (i =? j) eqn:Eij.
  { exists l. assert (j = i) by lia. subst j. rewrite swapped_same by auto. auto 10. }
  cbn [fixed_size].
  destruct (zget_some ts i Hi) as [a Ha]. destruct (zget_some ts j Hj) as [b Hb'].
  destruct (refers_range l ts i a HR HT Ha) as [_ Ra]. destruct (refers_range l ts j b HR HT Hb') as [_ Rb].
  destruct HT as [HP HT].
  rewrite (HS _ _ Ha). cbn [bind]. rewrite (HS _ _ Hb'). cbn [bind].
  set (p := l_pos l) in *.
  destruct (u_rd (l_io l) (p + i * 4) 4 (u32 (b - (p + j * 4) - (p + i * 4 - (p + j * 4)))) Hb ltac:(lia) ltac:(lia))
    as (b1 & E1 & I1 & B1 & C1 & R1 & F1 & _).
  change (Z.of_nat 4) with 4 in *. rewrite E1. cbn [bind].
  destruct (u_rd b1 (p + j * 4) 4 (u32 (a - (p + i * 4) - (p + j * 4 - (p + i * 4)))) I1 ltac:(lia) ltac:(lia))
    as (b2 & E2 & I2 & B2 & C2 & R2 & F2 & _).
  change (Z.of_nat 4) with 4 in *. rewrite E2. cbn [bind].
  exists (set_io l b2). cbn [l_io set_io l_pos l_vlen]. fold p.
  split; [reflexivity|]. split; [exact I2|]. split; [reflexivity|]. split; [reflexivity|].
  split.
  - split.
    + unfold list_vlen in *. cbn [l_io l_pos set_io]. fold p in HV |- *. rewrite zlen_swapped.
      apply F2; [lia|lia|change (Z.of_nat 4) with 4; lia|]. apply F1; [lia|lia|change (Z.of_nat 4) with 4; lia|].
      exact HV.
    + intros q t Hq. cbn [l_io l_pos set_io]. fold p. rewrite zget_swapped in Hq by auto.
      unfold u32 in R1, R2. change (256 ^ 4) with 4294967296 in R1, R2.
      change (2 ^ 32) with 4294967296 in R1, R2.
      destruct (q =? j) eqn:Q1.
      * rewrite Ha in Hq. injection Hq as <-. replace q with j by lia. rewrite R2. f_equal.
        rewrite Zmod_mod, Z.mod_small by lia. lia.
      * destruct (q =? i) eqn:Q2.
        -- rewrite Hb' in Hq. injection Hq as <-. replace q with i by lia.
           apply F2; [lia|lia|change (Z.of_nat 4) with 4; lia|]. rewrite R1. f_equal.
           rewrite Zmod_mod, Z.mod_small by lia. lia.
        -- pose proof (zget_some_range _ _ _ Hq).
           apply F2; [lia|lia|change (Z.of_nat 4) with 4; lia|].
           apply F1; [lia|lia|change (Z.of_nat 4) with 4; lia|]. apply HS; auto.
  - intros c Hc O1 O2. rewrite C2. unfold img_write. rewrite zlen_le_encode. change (Z.of_nat 4) with 4.
    replace ((p + j * 4 <=? c) && (c <? p + j * 4 + 4)) with false by lia.
    rewrite C1. unfold img_write. rewrite zlen_le_encode. change (Z.of_nat 4) with 4.
    replace ((p + i * 4 <=? c) && (c <? p + i * 4 + 4)) with false by lia. reflexivity.
Qed.

Lemma targets_perm : forall l l' ts ts', l_pos l' = l_pos l -> Permutation ts ts' ->
  targets_follow l ts -> targets_follow l' ts'.
Proof.
  intros l l' ts ts' E P [H1 H2]. unfold targets_follow. rewrite E. split; auto.
  intros t Ht. unfold zlen. rewrite <- (Permutation_length P). apply H2.
  apply (Permutation_in t (Permutation_sym P) Ht).
Qed.

(** ** Sorting *)

Lemma sort_permutes : forall ks less s l ts, in_memory (l_io l) -> refers l ts -> targets_follow l ts ->
  (forall l' i j, exists r, less l' i j = Ok r) -> in_bounds (zlen ts) s ->
  exists l' ts', run_sort (ETable ks) less l s = Ok l' /\ in_memory (l_io l') /\
    l_pos l' = l_pos l /\ refers l' ts' /\ Permutation ts ts' /\
    forall c, 0 <= c -> (c < l_pos l \/ l_pos l + zlen ts * 4 <= c) ->
      content (l_io l') c = content (l_io l) c.
Proof.
  induction s as [|i j c IH|i j c IH]; intros l ts Hb HR HT HL HB; cbn [run_sort in_bounds] in *.
  - exists l, ts. auto 10.
  - destruct HB as (Hi & Hj & HB). destruct (HL l i j) as [r ->]. cbn [bind]. apply IH; auto.
  - destruct HB as (Hi & Hj & HB).
    destruct (swap_tables ks l ts i j Hb HR HT Hi Hj) as (l1 & -> & I1 & P1 & V1 & R1 & C1). cbn [bind].
    destruct (IH l1 (swapped ts i j) I1 R1) as (l2 & ts2 & E2 & I2 & P2 & R2 & PP & C2); auto.
    { apply (targets_perm l l1 ts (swapped ts i j) P1 (swapped_perm _ ts i j) HT). }
    { rewrite zlen_swapped; auto. }
    exists l2, ts2. split; [exact E2|]. split; [exact I2|]. split; [congruence|]. split; [exact R2|].
    split; [eapply Permutation_trans; [apply swapped_perm|exact PP]|].
    intros q Hq HO. rewrite C2; auto; [|rewrite P1, zlen_swapped; exact HO]. apply C1; auto; lia.
Qed.

Lemma sort_plain : forall ks less lt s l0 l ts m0, 
  compares less lt l0 (zlen ts) -> shows (l_io l0) m0 -> l_pos l = l_pos l0 ->
  same_outside (l_pos l0) (zlen ts) m0 (content (l_io l)) ->
  in_memory (l_io l) -> refers l ts -> targets_follow l ts -> in_bounds (zlen ts) s ->
  exists l', run_sort (ETable ks) less l s = Ok l' /\ refers l' (run_plain lt ts s).
Proof.
  induction s as [|i j c IH|i j c IH]; intros l0 l ts m0 HC HM0 HP HO Hb HR HT HB; cbn [run_sort in_bounds run_plain] in *.
  - exists l. auto.
  - destruct HB as (Hi & Hj & HB).
    destruct (zget_some ts i Hi) as [a Ha]. destruct (zget_some ts j Hj) as [b Hb'].
    rewrite (HC l ts i j a b m0 (content (l_io l)) HP Hb HM0 (shows_content _ Hb) HO eq_refl HR HT Ha Hb').
    cbn [bind]. rewrite Ha, Hb'. eapply IH; eauto.
  - destruct HB as (Hi & Hj & HB).
    destruct (swap_tables ks l ts i j Hb HR HT Hi Hj) as (l1 & -> & I1 & P1 & V1 & R1 & C1). cbn [bind].
    apply (IH l0 l1 (swapped ts i j) m0); auto.
    + rewrite zlen_swapped; auto.
    + congruence.
    + rewrite zlen_swapped. intros q Hq HO'. rewrite <- (HO q Hq HO'). apply C1; auto; rewrite HP; lia.
    + apply (targets_perm l l1 ts (swapped ts i j) P1 (swapped_perm _ ts i j) HT).
    + rewrite zlen_swapped; auto.
Qed.

Lemma sort_sorted : forall ks less lt s l ts, in_memory (l_io l) -> refers l ts -> targets_follow l ts ->
  strict_weak lt -> compares less lt l (zlen ts) -> sorting (zlen ts) s ->
  exists l' ts', run_sort (ETable ks) less l s = Ok l' /\ refers l' ts' /\ Permutation ts ts' /\ sorted lt ts'.
Proof.
  intros ks less lt s l ts Hb HR HT SW HC [HB HS].
  destruct (sort_plain ks less lt s l l ts (content (l_io l)) HC (shows_content _ Hb) eq_refl) as (l' & E & R'); auto.
  { intros c _ _. reflexivity. }
  exists l', (run_plain lt ts s). split; [exact E|]. split; [exact R'|].
  split; [apply run_plain_perm|]. apply HS; auto.
Qed.

(** ** The insertion sort is a sorting strategy *)

Fixpoint rins (lt : Z -> Z -> bool) (x : Z) (r : list Z) : list Z :=
  match r with
  | nil => [x]
  | y :: r' => if lt x y then y :: rins lt x r' else x :: r
  end.

Lemma swapped_adj : forall A (l : list A) y x post, 
  swapped (l ++ y :: x :: post) (zlen l + 1) (zlen l) = l ++ x :: y :: post.
Proof.
  intros A l y x post. pose proof (zlen_nonneg l). pose proof (zlen_nonneg post).
  apply zget_ext; intros q.
  rewrite zget_swapped by (rewrite zlen_app, !zlen_cons; lia).
  rewrite !zget_app, !zget_cons.
  destruct (q =? zlen l) eqn:Q1.
  - replace (zlen l + 1 <? zlen l) with false by lia.
    replace (zlen l + 1 - zlen l =? 0) with false by lia.
    replace (zlen l + 1 - zlen l - 1 =? 0) with true by lia.
    replace (q <? zlen l) with false by lia. replace (q - zlen l =? 0) with true by lia. reflexivity.
  - destruct (q =? zlen l + 1) eqn:Q2.
    + replace (zlen l <? zlen l) with false by lia. replace (zlen l - zlen l =? 0) with true by lia.
      replace (q <? zlen l) with false by lia. replace (q - zlen l =? 0) with false by lia.
      replace (q - zlen l - 1 =? 0) with true by lia. reflexivity.
    + destruct (q <? zlen l) eqn:Q3; [reflexivity|]. replace (q - zlen l =? 0) with false by lia.
      replace (q - zlen l - 1 =? 0) with false by lia. reflexivity.
Qed.

Lemma sift_run : forall lt r x post k,
  run_plain lt (rev r ++ x :: post) (sift (length r) k) = run_plain lt (rev (rins lt x r) ++ post) k.
Proof.
  intros lt. induction r as [|y r IH]; intros x post k; cbn [length sift run_plain rins].
  - reflexivity.
  - cbn [rev]. rewrite <- app_assoc. cbn [app].
    assert (G1 : zget (rev r ++ y :: x :: post) (Z.of_nat (S (length r))) = Some x).
    { rewrite zget_nth_error. replace (rev r ++ y :: x :: post) with ((rev r ++ [y]) ++ x :: post)
        by (rewrite <- app_assoc; reflexivity).
      replace (S (length r)) with (length (rev r ++ [y])) by (rewrite app_length, rev_length; cbn; lia).
      apply nth_error_mid. }
    assert (G2 : zget (rev r ++ y :: x :: post) (Z.of_nat (length r)) = Some y).
    { rewrite zget_nth_error. rewrite <- (rev_length r). apply nth_error_mid. }
    rewrite G1, G2. destruct (lt x y); cbn [run_plain].
    + replace (Z.of_nat (S (length r))) with (zlen (rev r) + 1) by (unfold zlen; rewrite rev_length; lia).
      replace (Z.of_nat (length r)) with (zlen (rev r)) by (unfold zlen; rewrite rev_length; lia).
      rewrite swapped_adj. rewrite IH. cbn [rev]. rewrite <- app_assoc. reflexivity.
    + cbn [rev]. rewrite <- !app_assoc. reflexivity.
Qed.

(** Reversed prefix: every element is not smaller than those after it. *)
Definition rsorted (lt : Z -> Z -> bool) (r : list Z) : Prop :=
  ForallOrdPairs (fun later earlier => lt later earlier = false) r.

Lemma rins_in : forall lt x r z, In z (rins lt x r) -> z = x \/ In z r.
Proof.
  intros lt x. induction r as [|y r IH]; intros z H; cbn [rins] in H.
  - destruct H as [<-|[]]; auto.
  - destruct (lt x y).
    + destruct H as [<-|H]; [right; left; auto|]. destruct (IH z H); auto. right; right; auto.
    + destruct H as [<-|H]; auto.
Qed.

Lemma rins_sorted : forall lt x r, strict_weak lt -> rsorted lt r -> rsorted lt (rins lt x r).
Proof.
  intros lt x r SW. induction r as [|y r IH]; intros H; cbn [rins].
  - repeat constructor.
  - inversion H as [|? ? F1 F2]; subst. destruct (lt x y) eqn:E.
    + constructor; [|apply IH; auto]. rewrite Forall_forall in *. intros z Hz.
      destruct (rins_in _ _ _ _ Hz) as [->|Hz']; [apply (sw_asym _ SW); auto|auto].
    + constructor; auto. rewrite Forall_forall in *. intros z [<-|Hz]; [auto|].
      apply (sw_trans _ SW x y z); auto.
Qed.

Lemma rins_length : forall lt x r, length (rins lt x r) = S (length r).
Proof.
  induction r as [|y r IH]; cbn [rins]; [reflexivity|]. destruct (lt x y); cbn [length]; lia.
Qed.

Lemma insertion_run : forall lt fuel r post, strict_weak lt -> rsorted lt r -> length post = fuel ->
  exists r', run_plain lt (rev r ++ post) (insertion_from fuel (length r)) = rev r' /\ rsorted lt r'.
Proof.
  intros lt. induction fuel as [|fuel IH]; intros r post SW HR HL; cbn [insertion_from].
  - exists r. destruct post; [|discriminate]. rewrite app_nil_r. auto.
  - destruct post as [|x post]; [discriminate|]. rewrite sift_run.
    rewrite <- (rins_length lt x r). apply IH; auto. apply rins_sorted; auto.
Qed.

Lemma rsorted_sorted : forall lt r, strict_weak lt -> rsorted lt r -> sorted lt (rev r).
Proof.
  intros lt r SW. induction r as [|y r IH]; intros H i j a b Hij Ha Hb.
  - cbn in Ha. rewrite zget_nil in Ha. discriminate.
  - inversion H as [|? ? F1 F2]; subst. specialize (IH F2). cbn [rev] in Ha, Hb.
    pose proof (zget_some_range _ _ _ Hb) as RB. rewrite zlen_app in RB; change (zlen [y]) with 1 in RB.
    pose proof (zget_some_range _ _ _ Ha) as RA. rewrite zget_app in Ha, Hb.
    destruct (j <? zlen (rev r)) eqn:EJ.
    + replace (i <? zlen (rev r)) with true in Ha by lia. eapply IH; eauto.
    + replace (i <? zlen (rev r)) with true in Ha by lia.
      rewrite zget_cons in Hb. replace (j - zlen (rev r) =? 0) with true in Hb by lia.
      injection Hb as <-. rewrite Forall_forall in F1. apply F1. apply in_rev.
      unfold zget in Ha. destruct (i <? 0); [discriminate|]. eapply nth_error_In; eauto.
Qed.

Lemma sift_bounds : forall n j k, Z.of_nat j < n -> in_bounds n k -> in_bounds n (sift j k).
Proof.
  intros n. induction j as [|j IH]; intros k Hj Hk; cbn [sift in_bounds]; [auto|].
  split; [lia|]. split; [lia|]. intros [|]; [|auto]. cbn [in_bounds].
  split; [lia|]. split; [lia|]. apply IH; auto. lia.
Qed.

Lemma insertion_bounds : forall n fuel i, Z.of_nat (i + fuel) <= n -> in_bounds n (insertion_from fuel i).
Proof.
  intros n. induction fuel as [|fuel IH]; intros i H; cbn [insertion_from]; [exact I|].
  apply sift_bounds; [lia|]. apply IH. lia.
Qed.

Lemma insertion_sorting : forall n, 0 <= n -> sorting n (insertion_sort n).
Proof.
  intros n Hn. unfold insertion_sort. split.
  - destruct (Z.to_nat n) as [|m] eqn:E; [cbn; exact I|]. apply insertion_bounds. lia.
  - intros lt ts SW HL. destruct ts as [|x ts].
    { rewrite zlen_nil in HL. subst n. cbn [Z.to_nat Nat.sub insertion_from run_plain]. intros i j a b _ Ha. rewrite zget_nil in Ha. discriminate. }
    rewrite zlen_cons in HL.
    destruct (insertion_run lt (length ts) [x] ts SW) as (r & E & HR); auto; [repeat constructor|].
    replace (Z.to_nat n - 1)%nat with (length ts) by (unfold zlen in HL; lia).
    cbn [rev app length] in E. rewrite E. apply rsorted_sorted; auto.
Qed.
