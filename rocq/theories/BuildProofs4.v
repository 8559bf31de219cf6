(** The calls of the builder one by one. *)
From Coq Require Import ZArith List Bool Lia String.
From Coq Require Import Strings.Byte.
From Verif Require Import GoLib BaseModel GoLemmas BaseSpec BaseProofs BaseProofs2 BaseProofs3.
From Verif Require Import TableModel TableSpec TableProofs TableProofs2 NameModel NameSpec.
From Verif Require Import WalkModel WalkSpec WalkProofs WalkProofs2 WalkProofs3 WalkProofs4.
From Verif Require Import EqualSpec BuildModel BuildSpec BuildProofs BuildProofs2 BuildProofs3.
Import ListNotations.
Open Scope list_scope.
Open Scope Z_scope.

Section Table.
Variable n : names.
Variable s : schema.
Variable name : string.
Variable tys : list ty.
Hypothesis HD : describes n s.
Hypothesis HS : s name = Some tys.
Hypothesis HB : buildable tys.

Notation c0 := (fun nd => new_node n nd no_vinfo name).
Notation ks := (kinds (new_node n None no_vinfo name)).
Notation sizes := (map field_size tys).
Notation tp := (TableProofs2.tpos ks).
Notation c := (new_node n (Some (tp, -1)) no_vinfo name).

Lemma kinds_same : forall nd, kinds (c0 nd) = ks.
Proof.
  intros nd. unfold kinds, kind_at, group_at, type_size, new_node, fetch_index. cbn [c_name].
  destruct (lookup (n_idxname n) name); reflexivity.
Qed.

Lemma kinds_len : zlen ks = zlen tys.
Proof.
  unfold kinds. destruct (table_node n s HD name tys None no_vinfo HS) as (_ & _ & L & _). rewrite L.
  rewrite zlen_map, zlen_indexes by apply zlen_nonneg. reflexivity.
Qed.

Lemma kinds_get : forall i t, zget tys i = Some t -> (zget ks i = Some KRef <-> is_ref t = true).
Proof.
  intros i t Ht. pose proof (zget_some_range _ _ _ Ht) as R.
  destruct (table_node n s HD name tys None no_vinfo HS) as (_ & _ & L & F).
  destruct (F i t Ht) as (typ & g & G1 & G2 & G3 & G4).
  assert (E : zget ks i = Some (kind_at (new_node n None no_vinfo name) i)).
  { unfold kinds. rewrite L, zget_map, zget_indexes by lia. reflexivity. }
  rewrite E. unfold kind_at. rewrite G1.
  destruct t as [t|sn ms|tn|us|t|sn ms|tn]; cbn [field_described is_ref] in *.
  - destruct G3 as [G3 _]. destruct (says_tests _ _ G3) as (T1 & T2 & T3 & T4 & T5 & T6). rewrite T4, T6, T1.
    destruct (width_cases t) as [W|[W|[W|W]]]; rewrite W; cbn; split; discriminate.
  - destruct G3 as [G3 _]. destruct (says_tests _ _ G3) as (T1 & T2 & T3 & T4 & T5 & T6). rewrite T4, T6, T1.
    cbn. split; discriminate.
  - destruct G3 as [G3 _]. destruct (says_tests _ _ G3) as (T1 & T2 & T3 & T4 & T5 & T6). rewrite T4, T6, T1.
    cbn. tauto.
  - destruct G3 as [G3 _]. destruct (says_tests _ _ G3) as (T1 & T2 & T3 & T4 & T5 & T6). rewrite T4, T6, T1.
    cbn. tauto.
  - destruct G3 as [G3 _]. destruct (says_tests _ _ G3) as (T1 & T2 & T3 & T4 & T5 & T6). rewrite T4.
    destruct (width_cases t) as [W|[W|[W|W]]]; rewrite W; cbn; tauto.
  - destruct G3 as [G3 _]. destruct (says_tests _ _ G3) as (T1 & T2 & T3 & T4 & T5 & T6). rewrite T4.
    cbn. tauto.
  - destruct G3 as [G3 _]. destruct (says_tests _ _ G3) as (T1 & T2 & T3 & T4 & T5 & T6). rewrite T4.
    cbn. tauto.
Qed.

Lemma kinds_ref : forall i, zget ks i = Some KRef -> exists t, zget tys i = Some t /\ is_ref t = true.
Proof.
  intros i H. pose proof (zget_some_range _ _ _ H) as R. rewrite kinds_len in R.
  destruct (zget_some tys i R) as [t Ht]. exists t. split; [exact Ht|]. apply (kinds_get i t Ht). exact H.
Qed.

Lemma same_len : zlen sizes = zlen ks.
Proof. rewrite zlen_map, kinds_len. reflexivity. Qed.
Lemma sizes_pos : Forall (fun z => 1 <= z) sizes.
Proof. destruct HB as (_ & _ & H & _). apply Forall_forall. intros z Hz. apply in_map_iff in Hz as (t & <- & Ht).
  rewrite Forall_forall in H. auto. Qed.
Lemma ref_size : forall i, zget ks i = Some KRef -> zget sizes i = Some 4.
Proof.
  intros i H. destruct (kinds_ref i H) as (t & Ht & R). rewrite zget_map, Ht.
  destruct t; try discriminate; reflexivity.
Qed.
Lemma tp_eq : tp = 4 + 2 * zlen tys.
Proof. rewrite BuildProofs.tpos_eq, kinds_len. reflexivity. Qed.
Lemma small : tp < 65536.
Proof. rewrite tp_eq. apply HB. Qed.

Notation ginv := (ginv ks sizes).
Notation g_insert := (grid_insert ks sizes same_len sizes_pos ref_size).
Notation g_zero := (grid_is_zero ks sizes sizes_pos ref_size).
Notation g_virtual := (grid_virtual_table ks sizes sizes_pos ref_size).
Notation g_preload := (grid_preload ks sizes sizes_pos ref_size).

(** What lies behind a table for a reference: a vector, or a table with its
    vtable before it. *)
Definition payload (t : ty) (m : image) (v : val) (lo d : Z) : Prop :=
  (forall q, lo <= q < reach v -> m q <> None) /\
  ((d = 0 /\ stored_vector (window m lo (reach v)) s t (lo + 4) v) \/
   (4 <= d < 65536 /\ exists tn, (t = TyTable tn \/ exists us, t = TyUnion us /\ In tn us) /\
      stored_table (window m lo (reach v)) s tn (lo + d) v)).

Record bst (b : base) (vt : list Z) (tl : Z) (vals : fmap) (st : state) : Prop := {
  bs_g : ginv b vt tl vals;
  bs_in : forall i t, zget tys i = Some t -> is_ref t = false ->
    match st i with Nothing => vals i = None | Bytes p => vals i = Some p | Value _ _ => False end;
  bs_ref : forall i t, zget tys i = Some t -> is_ref t = true ->
    match st i with
    | Nothing => vals i = None
    | Bytes _ => False
    | Value m v => exists e lo d, zget vt i = Some e /\ e <> 0 /\
        vals i = Some (le_encode 4 (tl - e + d)) /\ payload t m v lo d /\ 0 <= lo /\
        forall k, 0 <= k < reach v - lo -> content b (tp + tl + k) = m (lo + k)
    end }.

Lemma payload_d : forall t m v lo d, payload t m v lo d -> 0 <= d < 65536.
Proof. intros t m v lo d [_ [[-> _]|[H _]]]; lia. Qed.

Lemma entry_of : forall b vt tl vals st i t, bst b vt tl vals st -> zget tys i = Some t ->
  exists e, zget vt i = Some e /\ (st i = Nothing <-> e = 0).
Proof.
  intros b vt tl vals st i t I Ht. pose proof (zget_some_range _ _ _ Ht) as R.
  destruct (zget_some vt i) as [e He]; [rewrite (g_vt _ _ _ _ _ _ (bs_g _ _ _ _ _ I)), kinds_len; lia|].
  exists e. split; [exact He|].
  assert (G : e = 0 <-> vals i = None).
  { split.
    - intros ->. apply (g_none _ _ _ _ _ _ (bs_g _ _ _ _ _ I)). intros e' He'. congruence.
    - intros V. destruct (Z.eq_dec e 0) as [|N]; [auto|].
      destruct (g_field _ _ _ _ _ _ (bs_g _ _ _ _ _ I) i e He N) as (z & p & _ & A & _). congruence. }
  rewrite G. destruct (is_ref t) eqn:E.
  - pose proof (bs_ref _ _ _ _ _ I i t Ht E) as B. destruct (st i) as [|p|m v].
    + tauto.
    + contradiction.
    + destruct B as (e' & lo & d & B1 & B2 & B3 & _). rewrite B3. split; discriminate.
  - pose proof (bs_in _ _ _ _ _ I i t Ht E) as B. destruct (st i) as [|p|m v].
    + tauto.
    + rewrite B. split; discriminate.
    + contradiction.
Qed.

Lemma bst_beyond : forall b vt tl vals st, bst b vt tl vals st -> beyond ks sizes vt tl vals.
Proof.
  intros b vt tl vals st I j e K Hv He. destruct (kinds_ref j K) as (t & Ht & R).
  destruct (entry_of _ _ _ _ _ j t I Ht) as (e' & E1 & E2).
  pose proof (bs_ref _ _ _ _ _ I j t Ht R) as B. destruct (st j) as [|p|m v] eqn:ES.
  - assert (e' = 0) by (apply E2; reflexivity). congruence.
  - contradiction.
  - destruct B as (e2 & lo & d & B1 & B2 & B3 & B4 & _). assert (e2 = e) by congruence. subst e2.
    exists (tl - e + d). pose proof (payload_d _ _ _ _ _ B4).
    pose proof (g_tl _ _ _ _ _ _ (bs_g _ _ _ _ _ I)).
    destruct (g_field _ _ _ _ _ _ (bs_g _ _ _ _ _ I) j e Hv He) as (z & p & _ & _ & _ & A4 & A5 & _).
    split; [exact B3|]. lia.
Qed.

Lemma room_start : forall l : list ty, room (map field_size l) (repeat 0 (List.length l)) =
  fold_right (fun t z => field_size t + z) 0 l.
Proof. induction l as [|t l IH]; [reflexivity|]. cbn [map List.length repeat room fold_right Z.eqb]. rewrite IH. reflexivity. Qed.

Lemma bst_init : exists b, init_node n name = Ok (b, c) /\
  bst b (repeat 0 (List.length ks)) 4 (fun _ => None) start.
Proof.
  destruct (init_table_ok ks small) as (b & E & _). exists b. split.
  - unfold init_node. rewrite E. reflexivity.
  - constructor.
    + eapply grid_init; try apply same_len; try apply sizes_pos; try apply ref_size; try apply small; try exact E.
      * assert (EL : List.length ks = List.length tys).
        { pose proof kinds_len as L. unfold zlen in L. lia. }
        rewrite EL, room_start. apply HB.
    + reflexivity.
    + reflexivity.
Qed.

(** ** Adding a field *)

(** The state after room for field [i] was made and filled. *)
Lemma bst_insert : forall b vt tl vals st i t z, bst b vt tl vals st -> zget tys i = Some t ->
  st i = Nothing -> field_size t = z ->
  exists b', insert_vtable (kinds c) (mkT b tp) i z = Ok (Some (mkT b' tp, tp + tl)) /\
    let vals' := bump ks z i 0 (fmap_set vals i (zeros z)) in
    let vt' := upd vt i tl in
    ginv b' vt' (tl + z) vals' /\ zget vt' i = Some tl /\ tl <> 0 /\
    forall b2 vals2 e, ginv b2 vt' (tl + z) vals2 ->
      (forall j, j <> i -> vals2 j = vals' j) ->
      (forall q, tp + (tl + z) <= q -> (forall j t', zget tys j = Some t' -> is_ref t' = true -> st j = Nothing) \/
                   content b2 q = content b' q) ->
      (if is_ref t
       then match e with
            | Value m v => exists lo d, vals2 i = Some (le_encode 4 (4 + d)) /\ payload t m v lo d /\ 0 <= lo /\
                forall k, 0 <= k < reach v - lo -> content b2 (tp + (tl + z) + k) = m (lo + k)
            | _ => False
            end
       else match e with Bytes p => vals2 i = Some p | _ => False end) ->
      bst b2 vt' (tl + z) vals2 (put st i e).
Proof.
  intros b vt tl vals st i t z I Ht Hst Hz.
  destruct (entry_of _ _ _ _ _ i t I Ht) as (e0 & E1 & E2).
  assert (e0 = 0) by (apply E2; exact Hst). subst e0.
  pose proof (zget_some_range _ _ _ E1) as RV.
  assert (ZS : zget sizes i = Some z) by (rewrite zget_map, Ht; cbn [option_map]; congruence).
  pose proof (bs_g _ _ _ _ _ I) as G. pose proof (g_tl _ _ _ _ _ _ G) as TL.
  pose proof (size_ge sizes sizes_pos i z ZS) as ZP.
  destruct (g_insert b vt tl vals i z G (bst_beyond _ _ _ _ _ I) E1 ZS) as (b' & A1 & A2 & A3).
  exists b'. rewrite kinds_same. split; [exact A1|]. cbv zeta. split; [exact A2|].
  assert (VI : zget (upd vt i tl) i = Some tl) by (rewrite zget_upd, Z.eqb_refl by lia; reflexivity).
  split; [exact VI|]. split; [lia|].
  intros b2 vals2 e G2 HV HC HE. constructor; [exact G2| |].
  - intros j tj Hj Hr. unfold put. destruct (j =? i) eqn:X.
    + assert (j = i) by lia. subst j. assert (tj = t) by congruence. subst tj. rewrite Hr in HE.
      destruct e; try contradiction. exact HE.
    + rewrite HV by lia. unfold bump, ref_at.
      assert (zget ks j <> Some KRef).
      { intros C. apply (kinds_get j tj Hj) in C. congruence. }
      assert (E : vals2 j = vals j); [|rewrite HV in E by lia; unfold bump, ref_at in E].
      { rewrite HV by lia. unfold bump, ref_at, fmap_set. rewrite X.
        destruct (zget ks j) as [[| |]|]; try congruence; reflexivity. }
      rewrite E. apply (bs_in _ _ _ _ _ I j tj Hj Hr).
  - intros j tj Hj Hr. unfold put. destruct (j =? i) eqn:X.
    + assert (j = i) by lia. subst j. assert (tj = t) by congruence. subst tj. rewrite Hr in HE.
      destruct e as [|p|m v]; try contradiction. destruct HE as (lo & d & B1 & B2 & B3 & B4).
      exists tl, lo, d. split; [exact VI|]. split; [lia|]. split.
      * assert (z = 4) by (destruct t; try discriminate Hr; cbn in Hz; lia).
        replace (tl + z - tl + d) with (4 + d) by lia. exact B1.
      * auto.
    + assert (E : vals2 j = option_map (fun p => le_encode 4 (le_decode p + z)) (vals j)).
      { rewrite HV by lia. unfold bump, ref_at, fmap_set. rewrite X.
        rewrite (proj2 (kinds_get j tj Hj) Hr). pose proof (zget_some_range _ _ _ Hj).
        replace (0 <=? j) with true by lia. reflexivity. }
      pose proof (bs_ref _ _ _ _ _ I j tj Hj Hr) as B. destruct (st j) as [|p|m v] eqn:ES.
      * rewrite E, B. reflexivity.
      * contradiction.
      * destruct B as (e1 & lo & d & B1 & B2 & B3 & B4 & B5 & B6).
        exists e1, lo, d. split; [rewrite zget_upd by lia; rewrite X; exact B1|]. split; [exact B2|].
        pose proof (payload_d _ _ _ _ _ B4).
        destruct (g_field _ _ _ _ _ _ G j e1 B1 B2) as (z1 & p1 & J1 & _ & _ & J4 & J5 & _).
        pose proof (size_ge sizes sizes_pos j z1 J1).
        pose proof (room_nonneg sizes vt sizes_pos).
        split.
        { rewrite E, B3. cbn [option_map]. rewrite le_decode_4 by lia. do 2 f_equal. lia. }
        split; [exact B4|]. split; [exact B5|]. intros k Hk.
        destruct (HC (tp + (tl + z) + k) ltac:(lia)) as [N|N].
        { specialize (N j tj Hj Hr). congruence. }
        rewrite N. replace (tp + (tl + z) + k) with (tp + tl + k + z) by lia. rewrite A3 by lia. apply B6. exact Hk.
Qed.

(** ** Inline fields *)

Lemma inline_step : forall b vt tl vals st i t p fb f pos z, bst b vt tl vals st ->
  zget tys i = Some t -> is_ref t = false -> zlen p = field_size t -> c_node f = Some (pos, z) ->
  delivers fb pos p ->
  (forall fuel, (1 <= fuel)%nat ->
     (if is_field_struct (group_at c i) then do v <- node_info n fb fuel f; Ok (v_size v)
      else Ok (type_size c i)) = Ok (field_size t)) ->
  exists b' vt' tl' vals', (forall fuel, (1 <= fuel)%nat -> set_inline n fuel b c tp i fb f = Ok (Set_ok b')) /\
    bst b' vt' tl' vals' (put st i (Bytes p)).
Proof.
  intros b vt tl vals st i t p fb f pos z I Ht Hr Hp Hf Hd Hsz.
  pose proof (bs_g _ _ _ _ _ I) as G.
  destruct (entry_of _ _ _ _ _ i t I Ht) as (e & E1 & E2).
  assert (ZS : zget sizes i = Some (zlen p)) by (rewrite zget_map, Ht, Hp; reflexivity).
  destruct (Z.eq_dec e 0) as [->|NE].
  - assert (Hst : st i = Nothing) by (apply E2; reflexivity).
    destruct (bst_insert b vt tl vals st i t (zlen p) I Ht Hst (eq_sym Hp)) as (b1 & A1 & A2 & A3 & A4 & A5).
    destruct (grid_copy ks sizes sizes_pos ref_size b1 _ _ _ i tl p fb pos A2 A3 A4 ZS Hd) as (b2 & C1 & C2 & C3).
    exists b2, (upd vt i tl), (tl + zlen p), (fmap_set (bump ks (zlen p) i 0 (fmap_set vals i (zeros (zlen p)))) i p). split.
    + intros fuel Hfuel. unfold set_inline. rewrite (Hsz fuel Hfuel). cbn [bind]. rewrite Hf.
      rewrite (g_preload _ _ _ _ G). cbn [bind]. rewrite (g_zero _ _ _ _ i 0 G E1). cbn [bind Z.eqb negb].
      rewrite <- Hp. rewrite A1. cbn [bind t_io]. rewrite C1. cbn [bind].
      rewrite (g_preload _ _ _ _ C2). reflexivity.
    + apply A5; auto.
      * intros j Hj. unfold fmap_set. replace (j =? i) with false by lia. reflexivity.
      * rewrite Hr. unfold fmap_set. rewrite Z.eqb_refl. reflexivity.
  - destruct (grid_copy ks sizes sizes_pos ref_size b vt tl vals i e p fb pos G E1 NE ZS Hd) as (b2 & C1 & C2 & C3).
    exists b2, vt, tl, (fmap_set vals i p). split.
    + intros fuel Hfuel. unfold set_inline. rewrite (Hsz fuel Hfuel). cbn [bind]. rewrite Hf.
      rewrite (g_preload _ _ _ _ G). cbn [bind]. rewrite (g_zero _ _ _ _ i e G E1). cbn [bind].
      replace (e =? 0) with false by lia. cbn [negb]. rewrite (g_virtual _ _ _ _ i e G E1). cbn [bind].
      rewrite <- Hp. rewrite C1. reflexivity.
    + constructor; [exact C2| |].
      * intros j tj Hj Hrj. unfold put, fmap_set. destruct (j =? i) eqn:X; [reflexivity|].
        apply (bs_in _ _ _ _ _ I j tj Hj Hrj).
      * intros j tj Hj Hrj. unfold put, fmap_set. destruct (j =? i) eqn:X.
        { assert (j = i) by lia. subst j. congruence. }
        pose proof (bs_ref _ _ _ _ _ I j tj Hj Hrj) as B. destruct (st j) as [|p1|m v]; auto.
        destruct B as (e1 & lo & d & B1 & B2 & B3 & B4 & B5 & B6).
        exists e1, lo, d. do 5 (split; [assumption|]). intros k Hk. rewrite C3 by lia. apply B6. exact Hk.
Qed.

(** ** Vectors *)

End Table.
