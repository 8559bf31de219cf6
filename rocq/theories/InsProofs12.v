(** Inserting space moves everything behind it and every reference across it. *)
From Coq Require Import ZArith List Bool Lia String Permutation.
From Coq Require Import Strings.Byte.
From Verif Require Import GoLib BaseModel GoLemmas BaseSpec BaseProofs TableModel TableSpec TableProofs TableProofs2.
From Verif Require Import NameModel NameSpec WalkModel WalkSpec WalkProofs WalkProofs2 WalkProofs3 WalkProofs4 WalkProofs5.
From Verif Require Import BaseProofs3 ListProofs5 EqualSpec EqualProofs.
From Verif Require Import InsModel InsSpec InsProofs InsProofs2 InsProofs4 InsProofs5 InsProofs6 InsProofs7 InsProofs8 InsProofs9
  InsProofs10 InsProofs11.
Import ListNotations.
Open Scope list_scope.
Open Scope Z_scope.

Section Whole.
Variable b : base.
Variable s : schema.
Hypothesis HF : flat b.
Local Notation m := (img_bytes (sl_data (b_bytes b))).
Local Notation L := (zlen (sl_data (b_bytes b))).

Lemma holds_inside : forall x k v, (1 <= k)%nat -> holds_uint m x k v -> 0 <= x /\ x + Z.of_nat k <= L.
Proof.
  intros x k v K [_ H]. destruct (H 0 ltac:(lia)) as (y & Y & _). destruct (H (Z.of_nat k - 1) ltac:(lia)) as (z & W & _).
  unfold img_bytes in *. pose proof (zget_some_range _ _ _ Y). pose proof (zget_some_range _ _ _ W). lia.
Qed.

Lemma good_start : forall v t, good m s v -> start v = Some t -> t < L.
Proof.
  intros v t H E. destruct H as [|p w P W O|q k w Q W K O|name p fs tys soff es tl Hs T Hso SF G|name q es Q K SE G]; cbn [start] in E; try discriminate; injection E as <-.
  - pose proof (holds_inside _ 4 _ ltac:(lia) K). lia.
  - pose proof (holds_inside _ 4 _ ltac:(lia) (ta_soff _ _ _ _ _ T)). lia.
  - pose proof (holds_inside _ 4 _ ltac:(lia) K). lia.
Qed.

Lemma layout_facts : forall v, good m s v -> insertable v ->
  (forall x k, In (x, k) (parts m v) -> 0 <= x) /\ (forall a t, In (a, t) (links m v) -> 4 <= a /\ t < L).
Proof.
  intros v HG. induction HG as [t|p w P W O|q k w Q W K O|name p fs tys soff es tl Hs T Hso SF HGs IH|tn q es Q K SE HGs IH]; intros HT.
  - split; intros ? ? [].
  - split; [|intros ? ? []]. intros x k [E|[]]. injection E as <- <-. exact P.
  - split; [|intros ? ? []]. intros x k' [E|[]]. assert (x = q - 4) by congruence. lia.
  - inversion HT as [| | | | | |? ? ? M|]; subst.
    pose proof (table_vtable m p soff es tl T Hso) as EV. pose proof (ta_vpos _ _ _ _ _ T) as VP.
    destruct (fields_nth b s _ _ _ _ _ SF) as (L1 & L2 & FN). rewrite Forall_forall in M. split.
    + intros x k [E|[E|E]].
      * assert (x = p) by congruence. lia.
      * assert (x = vtable_of m p) by congruence. lia.
      * apply in_flat_map in E. destruct E as (f & F1 & F2). apply (proj1 (IH f F1 (M f F1)) x k F2).
    + intros a t HI. rewrite links_tab in HI. apply concat_numbered_in in HI. destruct HI as (i & f & Hf & HI).
      pose proof (zget_in _ _ _ _ Hf) as Fin. apply in_app_or in HI. destruct HI as [HI|HI].
      * destruct (start f) as [t'|] eqn:ST; [|destruct HI]. destruct HI as [E|[]].
        assert (a = slot_of m p i) by congruence. assert (t' = t) by congruence. subst t'.
        destruct (FN i f Hf) as (ty & e & pv & H1 & H2 & H3 & _). rewrite (table_slot m p soff es tl i e T Hso H2) in H.
        split; [|apply (good_start f); auto].
        pose proof (field_cases m s p pv ty e f H3 (M f Fin)) as FC. destruct f; cbn [start] in ST; try discriminate; try (destruct FC; lia); destruct FC.
      * apply (proj2 (IH f Fin (M f Fin)) a t HI).
  - inversion HT as [| | | | | | |? ? ? M]; subst. rewrite Forall_forall in M. split.
    + intros x k [E|E].
      * assert (x = q - 4) by congruence. lia.
      * apply in_flat_map in E. destruct E as (f & F1 & F2). apply (proj1 (IH f F1 (M f F1)) x k F2).
    + intros a t HI. rewrite links_tabs in HI. apply concat_numbered_in in HI. destruct HI as (i & f & Hf & HI).
      pose proof (zget_in _ _ _ _ Hf) as Fin. pose proof (zget_some_range _ _ _ Hf) as R. destruct HI as [E|HI].
      * assert (a = q + 4 * i) by congruence. assert (val_pos f = t) by congruence. split; [lia|].
        destruct (elems_nth b s _ _ _ SE i f Hf) as (t' & _ & ST). apply (good_start f); auto.
        inversion ST; subst. reflexivity.
      * apply (proj2 (IH f Fin (M f Fin)) a t HI).
Qed.

Variables pos size : Z.
Hypothesis HP : 0 <= pos.
Hypothesis HS : 0 <= size.
Local Notation sh := (shift pos size).

Section After.
Variable v : val.
Hypothesis HG : good m s v.
Hypothesis HT : insertable v.
Hypothesis HB : between m pos v.
Hypothesis HA : apart_links m v.
Variables (nb : base) (D : list (Z * Z)).
Variable create : bool.
Hypothesis ST : state b pos size create nb D.
Hypothesis HD : forall l, In l D <-> In l (filter (crossing pos) (links m v)).

Lemma moved_parts : forall x k, In (x, k) (parts m v) -> forall j, 0 <= j < k -> content nb (sh x + j) = m (x + j).
Proof.
  intros x k HI j Hj. pose proof (proj1 HB x k HI) as OS. pose proof (proj1 (layout_facts v HG HT) x k HI) as X0.
  unfold shift. destruct (x <? pos) eqn:C.
  - apply (s_low _ _ _ _ _ _ ST); [unfold one_side in OS; lia|]. intros a t Ha. apply HD, filter_In in Ha.
    pose proof (proj2 HA a t x k (proj1 Ha) HI) as DJ. unfold disjoint in *. lia.
  - replace (x + size + j) with (x + j + size) by lia. apply (s_high _ _ _ _ _ _ ST). lia.
Qed.

Lemma moved_links : forall a t, In (a, t) (links m v) -> a + 4 <= t -> holds_uint m a 4 (t - a) ->
  holds_uint (content nb) (sh a) 4 (sh t - sh a).
Proof.
  intros a t HI AT H. pose proof (proj1 (proj2 HB) a t HI) as OS. unfold one_side in OS.
  pose proof (proj2 (layout_facts v HG HT) a t HI) as X0. unfold shift. destruct (a <? pos) eqn:C.
  - destruct (t <? pos) eqn:C2.
    + destruct H as [H1 H2]. split; [exact H1|]. intros j Hj. rewrite (s_low _ _ _ _ _ _ ST); [apply H2; exact Hj|lia|].
      intros a' t' Ha. apply HD, filter_In in Ha. destruct Ha as [Ha Hc]. unfold crossing in Hc. cbn [fst snd] in Hc.
      destruct (ForallOrdPairs_In (proj1 HA) (a, t) (a', t') HI Ha) as [E|[E|E]].
      * assert (t = t') by congruence. lia.
      * unfold disjoint in *. cbn [fst] in E. lia.
      * unfold disjoint in *. cbn [fst] in E. lia.
    + replace (t + size - a) with (t - a + size) by lia. apply (s_done _ _ _ _ _ _ ST). apply HD, filter_In. split; [exact HI|].
      unfold crossing. cbn [fst snd]. lia.
  - replace (t <? pos) with false by lia. replace (t + size - (a + size)) with (t - a) by lia.
    destruct H as [H1 H2]. split; [exact H1|]. intros j Hj.
    replace (a + size + j) with (a + j + size) by lia. rewrite (s_high _ _ _ _ _ _ ST) by lia. apply H2. exact Hj.
Qed.

Lemma value_moved : forall name p, stored_table m s name p v ->
  stored_table (content nb) s name (sh p) (moved pos size v) /\ same_value m (content nb) v (moved pos size v).
Proof.
  intros name p H.
  apply (proj1 (stored_moved m (content nb) s pos size HS (parts m v) (links m v) moved_parts moved_links) name p v H).
  split; [apply incl_refl|]. split; [apply incl_refl|]. exact (proj2 (proj2 HB)).
Qed.

Lemma root_kept : forall x, 4 <= pos -> holds_uint m 0 4 x -> holds_uint (content nb) 0 4 x.
Proof.
  intros x P4 [H1 H2]. split; [exact H1|]. intros j Hj. rewrite (s_low _ _ _ _ _ _ ST); [apply H2; exact Hj|lia|].
  intros a t Ha. apply HD, filter_In in Ha. pose proof (proj2 (layout_facts v HG HT) a t (proj1 Ha)). unfold disjoint. lia.
Qed.
End After.

Lemma root_seen : forall name p v np, stored_table m s name p v -> holds_uint m 0 4 p -> p < 65536 -> vtable_of m p <> 0 ->
  8 <= np -> in_root b np = Ok true.
Proof.
  intros name p v np H H0 P VT NP. unfold in_root.
  assert (H2 : holds_uint m 0 2 p).
  { split; [change (256 ^ Z.of_nat 2) with 65536; split; [apply H0|exact P]|]. intros j Hj. apply H0. lia. }
  rewrite (flat_rd 2 b 0 p HF ltac:(lia) ltac:(lia) H2). cbn [bind].
  assert (TT : exists soff es tl, table_at m p soff es tl /\ 0 <= soff) by (inversion H; subst; eauto).
  destruct TT as (soff & es & tl & T & Hso).
  pose proof (ta_soff _ _ _ _ _ T) as TS. pose proof (ta_range _ _ _ _ _ T) as TR. pose proof (ta_vpos _ _ _ _ _ T) as TV.
  assert (OC : occupied m p 4) by (intros j Hj; destruct (proj2 TS j ltac:(lia)) as (x & X & _); eauto).
  destruct (flat_base_r b p 4 4 HF ltac:(lia) ltac:(lia) OC) as (E & LN). rewrite E. cbn [bind opt_len opt_data].
  unfold gs_len. cbn [sl_data]. replace (_ <? 4) with false by lia. replace (np <? 8) with false by lia.
  rewrite (flat_rd 4 b p _ HF ltac:(lia) ltac:(lia) TS). cbn [bind]. rewrite Z.mod_small by lia.
  rewrite (table_vtable m p soff es tl T Hso) in VT. replace (p =? soff) with false by lia. reflexivity.
Qed.
End Whole.

Lemma node_moved : forall c cp z pos size, c_node c = Some (cp, z) -> (exists l, is_list_name (c_name c) (v_len (c_info c)) = Ok l) ->
  exists c', moved_node c pos size = Ok c' /\ node_shifted pos size c c'.
Proof.
  intros c cp z pos size HC (il & HL). unfold moved_node, node_shifted. rewrite HL, HC. cbn [bind]. destruct il.
  - eexists. split; [reflexivity|]. split; [|discriminate]. intros _ NE. unfold shift. destruct c as [nd [vp vz vk] nm ts gs]. cbn [c_info c_node c_name c_types c_groups v_pos v_size v_len] in *.
    destruct (pos <? vp) eqn:C1; [replace (vp <? pos) with false by lia|replace (vp <? pos) with true by lia]; congruence.
  - eexists. split; [reflexivity|]. split; [discriminate|]. intros _ p z' E NE. assert (p = cp) by congruence. assert (z' = z) by congruence. subst p z'.
    unfold shift. destruct c as [nd v nm ts gs]. cbn [c_info c_node c_name c_types c_groups] in *.
    destruct (pos <? cp) eqn:C1; [replace (cp <? pos) with false by lia|replace (cp <? pos) with true by lia]; congruence.
Qed.

Lemma insert_outside : forall n f b c cp z pos size q, in_memory b -> 0 <= pos -> 0 <= size ->
  (List.length (filter (straddles pos) (b_diffs b)) <= 1)%nat -> 2 <= zlen q -> delivers b 0 q ->
  c_node c = Some (cp, z) -> cp < 8 -> (exists l, is_list_name (c_name c) (v_len (c_info c)) = Ok l) ->
  exists b' c', node_insert_buf n f b c pos size = Ok (b', c') /\
    (forall m, shows b m -> shows b' (img_insert m pos size)) /\ node_shifted pos size c c'.
Proof.
  intros n f b c cp z pos size q HM HP HS HX HQ HD HC C8 HL.
  destruct (insert_space_shows b pos size HM HP HS HX) as (b' & E & _ & HW).
  destruct (node_moved c cp z pos size HC HL) as (c' & E' & HN). exists b', c'. split; [|split; assumption].
  unfold node_insert_buf, node_insert_space. rewrite E. cbn [bind]. unfold node_pos. rewrite HC. cbn [bind].
  rewrite (in_root_outside b q cp HM HQ HD C8). cbn [bind]. rewrite E'. reflexivity.
Qed.

Lemma insert_moves : forall n b s name p v c cp z pos size create,
  let m := img_bytes (sl_data (b_bytes b)) in
  flat b -> describes n s -> n_root n = name -> stored_table m s name p v -> holds_uint m 0 4 p -> insertable v ->
  p < 65536 -> vtable_of m p <> 0 -> p < pos -> 0 <= size -> zlen (sl_data (b_bytes b)) + size < 4294967296 ->
  c_node c = Some (cp, z) -> 8 <= cp -> (exists l, is_list_name (c_name c) (v_len (c_info c)) = Ok l) ->
  between m pos v -> apart_links m v -> NoDup (starts v) -> found s (c_name c, cp) pos false v ->
  exists k, forall f, (k <= f)%nat -> exists b' c' m',
    node_insert_space n f b c pos size create = Ok (b', c') /\ shows b' m' /\
    holds_uint m' 0 4 p /\ stored_table m' s name p (moved pos size v) /\ same_value m m' v (moved pos size v) /\
    (create = true -> forall i, pos <= i < pos + size -> m' i = Some x00) /\ node_shifted pos size c c'.
Proof.
  intros n b s name p v c cp z pos size create m HF HD HN H H0 HT P16 VT PP HS SZ HC C8 (il & HL) HB HA ND FO.
  assert (TT : exists soff es tl fs, table_at m p soff es tl /\ 0 <= soff /\ v = Tab name p fs) by (inversion H; subst; do 4 eexists; eauto).
  destruct TT as (soff & es & tl & fs & T & Hso & EV). pose proof (ta_vpos _ _ _ _ _ T) as TV.
  assert (HG : good m s v) by (eapply (proj1 (stored_good b s)); eauto).
  assert (P4 : p + 4 <= pos).
  { destruct (proj1 HB p 4) as [X|X]; [rewrite EV; left; reflexivity|exact X|lia]. }
  pose proof (layout_facts b s v HG HT) as LF.
  destruct (edges_found n b s HF HD name p v (-1) H HT ND) as (k & HK). exists k. intros f Hf.
  destruct (HK f Hf) as (ts & ps & eds & ws & E1 & E2 & E3 & E4).
  assert (HPos : 0 <= pos) by lia.
  destruct (state_start b HF pos size HPos HS create) as (nb & N1 & N2).
  assert (BL : Permutation (flat_map linkof ws) (links m v)).
  { rewrite <- (bonds_links n m v (proj1 (stored_spread b s) name p v H HT) (tnode_at n name p (-1)) (tnode_at n name p (-1))).
    apply flat_map_perm. exact E4. }
  set (none := fun (_ : string) (_ : Z) (_ : list val) => False).
  apply found_seen in FO. fold none in FO.
  assert (BF : forall w, In w ws -> bfact n b s (c_name c, cp) pos none (parts m v) (links m v) w).
  { intros w Hw. apply (bonds_facts n b s HD (c_name c, cp) pos none (parts m v) (links m v) v HG false (tnode_at n name p (-1)) (tnode_at n name p (-1))); auto.
    - rewrite EV. split; [apply place_node|]. split; [eexists; apply new_node_node|]. intros _. exists (-1). reflexivity.
    - rewrite EV. unfold c_ok. repeat split; try apply place_node; try (eexists; apply new_node_node); eauto.
    - apply incl_refl.
    - apply incl_refl.
    - eapply Permutation_in; [exact E4|exact Hw]. }
  destruct (edges_moved n b s HD pos size HS c cp z HC (parts m v) (links m v)) with (create := create) (mine := none) (ts := ts) (es := eds) (ws := ws) (nb := nb) (D := @nil (Z * Z)) as (nb' & D & M1 & M2 & M3 & M4 & M5); auto.
  - intros a t x k' Ha Hx. apply (proj2 HA a t x k' Ha Hx).
  - intros a t Ha. pose proof (proj2 LF a t Ha). lia.
  - intros x [].
  - intros x Hx. eapply Permutation_in; [exact BL|exact Hx].
  - eapply pairs_perm; [|symmetry; exact BL|exact (proj1 HA)]. intros x y X. unfold disjoint in *. lia.
  - intros x y _ [].
  - assert (DD : forall l, In l D <-> In l (filter (crossing pos) (links m v))).
    { intros l. split.
      - intros X. apply M4 in X. destruct X as [[]|(w & W1 & W2 & _)]. rewrite filter_In in *. split; [|apply W2].
        apply (Permutation_in _ BL). apply in_flat_map. exists w. split; [exact W1|apply W2].
      - intros X. apply filter_In in X. destruct X as [X Y]. apply (Permutation_in _ (Permutation_sym BL)) in X.
        apply in_flat_map in X. destruct X as (w & W1 & W2).
        destruct (M5 l w W1) as [Q|Q]; [apply filter_In; auto|exact Q|]. destruct Q as (? & ? & ? & ? & ? & ? & ? & _ & _ & [] & _). }
    assert (MN : exists c', moved_node c pos size = Ok c' /\
      node_shifted pos size c c') by (eapply node_moved; eauto).
    destruct MN as (c' & MN1 & MN2).
    destruct (value_moved b s pos size HS v HG HT HB HA nb' D create M2 DD name p H) as (V1 & V2).
    exists nb', c', (content nb'). split; [|split; [|split; [|split; [|split; [|split]]]]].
    + unfold node_insert_space. rewrite N1. cbn [bind]. unfold node_pos. rewrite HC. cbn [bind].
      rewrite (root_seen b s HF name p v cp H H0 P16 VT C8). cbn [bind]. rewrite HN.
      rewrite (root_stored n b s HF name p v H H0). cbn [bind].
      change (new_node n (Some (p, -1)) no_vinfo name) with (tnode_at n name p (-1)). rewrite E1. cbn [bind].
      rewrite E2. cbn [bind]. rewrite M1. cbn [bind]. rewrite MN1. reflexivity.
    + apply shows_content. apply (s_mem _ _ _ _ _ _ M2).
    + apply (root_kept b s pos size v HG HT nb' D create M2 DD p); [lia|exact H0].
    + replace p with (shift pos size p) at 1 by (unfold shift; replace (p <? pos) with true by lia; reflexivity). exact V1.
    + exact V2.
    + exact (s_gap _ _ _ _ _ _ M2).
    + exact MN2.
Qed.
