(** Which element comes first and which ends last. *)
From Coq Require Import ZArith List Bool Lia.
From Coq Require Import Strings.Byte.
From Verif Require Import GoLib BaseModel GoLemmas BaseSpec BaseProofs.
From Verif Require Import TableModel TableSpec ListModel ListSpec ListProofs ListProofs2 AddModel AddSpec.
Import ListNotations.
Open Scope Z_scope.

Lemma min_pos_loop_spec : forall ps pre best pos,
  pre ++ ps <> nil ->
  (pre <> nil -> zget pre best = Some pos /\ (forall j x, zget pre j = Some x -> pos <= x) /\
     (forall j x, zget pre j = Some x -> j < best -> pos < x)) ->
  first_least (fun x => x) (pre ++ ps) (min_pos_loop ps (zlen pre) best pos).
Proof.
  induction ps as [|p ps IH]; intros pre best pos HN HP; cbn [min_pos_loop].
  - rewrite app_nil_r in *. destruct (HP HN) as (H1 & H2 & H3). exists pos. auto.
  - replace (pre ++ p :: ps) with ((pre ++ [p]) ++ ps) in * by (rewrite <- app_assoc; reflexivity).
    replace (zlen pre + 1) with (zlen (pre ++ [p])) by (rewrite zlen_app; reflexivity).
    destruct ((zlen pre =? 0) || (p <? pos)) eqn:E; apply IH; auto; intros _.
    + assert (HZ : forall j x, zget (pre ++ [p]) j = Some x -> (j = zlen pre /\ x = p) \/ (j < zlen pre /\ zget pre j = Some x)).
      { intros j x H. pose proof (zget_some_range _ _ _ H) as R. rewrite zlen_app in R. change (zlen [p]) with 1 in R.
        rewrite zget_app in H. destruct (j <? zlen pre) eqn:X; [right; split; [lia|exact H]|].
        left. assert (j = zlen pre) by lia. subst j. rewrite Z.sub_diag in H. cbn in H. split; congruence. }
      assert (HM : forall j x, zget pre j = Some x -> p < x).
      { intros j x H. destruct pre as [|y pre]; [rewrite zget_nil in H; discriminate|].
        rewrite zlen_cons in E. pose proof (zlen_nonneg pre).
        destruct (HP ltac:(discriminate)) as (_ & H2 & _). specialize (H2 j x H). lia. }
      split; [|split].
      * rewrite zget_app. replace (zlen pre <? zlen pre) with false by lia. rewrite Z.sub_diag. reflexivity.
      * intros j x H. apply HZ in H as [[_ ->]|[_ H]]; [lia|]. specialize (HM j x H). lia.
      * intros j x H HL. apply HZ in H as [[-> ->]|[_ H]]; [lia|]. apply (HM j x H).
    + assert (NE : pre <> nil) by (intros ->; discriminate). destruct (HP NE) as (H1 & H2 & H3).
      pose proof (zget_some_range _ _ _ H1) as RB.
      split; [|split].
      * rewrite zget_app. replace (best <? zlen pre) with true by lia. exact H1.
      * intros j x H. rewrite zget_app in H. destruct (j <? zlen pre); [eauto|].
        destruct (j - zlen pre =? 0) eqn:Y.
        -- assert (j - zlen pre = 0) as Z0 by lia. rewrite Z0 in H. cbn in H. assert (x = p) by congruence. lia.
        -- rewrite zget_ge in H; [discriminate|]. cbn. pose proof (zget_some_range _ _ _ H). cbn in *. lia.
      * intros j x H HL. rewrite zget_app in H. replace (j <? zlen pre) with true in H by lia. eauto.
Qed.

Lemma index_min : forall k l es, has_elements k l es -> l_vlen l = zlen es -> es <> nil ->
  exists i, index_on_min_pos k l = Ok i /\ first_least (fun x => x) es i.
Proof.
  intros k l es HE HV HN. unfold index_on_min_pos.
  destruct (queries k l es (fun _ => true) HE HV) as (_ & _ & HA).
  rewrite HA. cbn [bind]. eexists; split; [reflexivity|].
  apply (min_pos_loop_spec es nil (-1) 0 HN). intros H. congruence.
Qed.

Lemma max_as_min : forall k b size ps i best pos,
  (forall p, In p ps -> elem_info k b p = Ok (Some (size p))) ->
  max_pos_loop k b ps i best pos =
    Ok (Some (min_pos_loop (map (fun p => - (p + size p)) ps) i best (- pos))).
Proof.
  intros k b size ps. induction ps as [|p ps IH]; intros i best pos H; cbn [max_pos_loop map min_pos_loop]; [reflexivity|].
  rewrite (H p (or_introl eq_refl)). cbn [bind].
  replace (- (p + size p) <? - pos) with (pos <? p + size p) by lia.
  destruct (_ || _); apply IH; intros; apply H; right; auto.
Qed.

Lemma first_least_map : forall (f : Z -> Z) es i, first_least (fun x => x) (map f es) i -> first_least f es i.
Proof.
  intros f es i (e & H1 & H2 & H3). rewrite zget_map in H1. destruct (zget es i) as [x|] eqn:E; [|discriminate].
  cbn in H1. assert (e = f x) by congruence. subst e. exists x. split; [exact E|]. split.
  - intros j y Hy. apply (H2 j). rewrite zget_map, Hy. reflexivity.
  - intros j y Hy. apply (H3 j). rewrite zget_map, Hy. reflexivity.
Qed.

Lemma index_max : forall k l es size, has_elements k l es -> l_vlen l = zlen es -> es <> nil ->
  (forall p, In p es -> elem_info k (l_io l) p = Ok (Some (size p))) ->
  exists i, index_on_max_pos k l = Ok (Some i) /\ first_greatest (fun p => p + size p) es i.
Proof.
  intros k l es size HE HV HN HS. unfold index_on_max_pos.
  destruct (queries k l es (fun _ => true) HE HV) as (_ & _ & HA). rewrite HA. cbn [bind].
  rewrite (max_as_min k (l_io l) size es 0 (-1) 0 HS). eexists; split; [reflexivity|].
  apply first_least_map. apply (min_pos_loop_spec (map _ es) nil (-1) (- 0)).
  - destruct es; [congruence|discriminate].
  - intros H. congruence.
Qed.

(** ** FromByteList *)

Lemma byte_list_elements : forall bs, zlen bs < 2 ^ 32 ->
  has_elements (EBasic 1) (from_byte_list bs) (map (fun i => 4 + i) (zseq (zlen bs))).
Proof.
  intros bs HB. change (2 ^ 32) with 4294967296 in HB. pose proof (zlen_nonneg bs).
  assert (HU : u32 (zlen bs) = zlen bs) by (unfold u32; apply Z.mod_small; lia).
  assert (LS : forall n, 0 <= n -> zlen (zseq n) = n).
  { intros n Hn. unfold zseq. rewrite zlen_map. unfold zlen. rewrite seq_length. lia. }
  assert (HV : list_vlen (from_byte_list bs) = Ok (zlen bs)).
  { unfold list_vlen, from_byte_list. cbn [l_io l_pos]. rewrite HU. change (4 - 4) with 0.
    assert (D : delivers (new_base (gs_of (le_encode 4 (zlen bs) ++ bs))) 0 (le_encode 4 (zlen bs))).
    { apply delivers_served; [split; [reflexivity|constructor]|lia|rewrite zlen_le_encode; lia|].
      unfold served. cbn [new_base b_diffs find_last b_bytes gs_of sl_data]. split; [intros ? []|].
      rewrite zlen_app, zskip_0. split; [lia|]. rewrite zfirst_app_le by lia. apply zfirst_all. lia. }
    rewrite (rd_delivers 4 _ 0 (zlen bs) ltac:(lia) D). f_equal. apply Z.mod_small.
    change (256 ^ Z.of_nat 4) with 4294967296. lia. }
  split.
  - rewrite HV, zlen_map, LS by lia. reflexivity.
  - intros i e He. rewrite zget_map in He. destruct (zget (zseq (zlen bs)) i) as [x|] eqn:E; [|discriminate].
    pose proof (zget_some_range _ _ _ E) as R. rewrite LS in R by lia.
    assert (x = i).
    { rewrite <- (Z2Nat.id i) in E by lia. rewrite zget_nth_error in E. unfold zseq in E.
      rewrite nth_error_map in E. destruct (nth_error (seq 0 (Z.to_nat (zlen bs))) (Z.to_nat i)) as [y|] eqn:Y; [|discriminate].
      apply nth_error_nth with (d := 0%nat) in Y. rewrite seq_nth in Y by lia. cbn in E. injection E as <-. lia. }
    subst x. cbn [option_map] in He. assert (e = 4 + i) by congruence. subst e.
    unfold list_at. rewrite HV. cbn [bind fixed_size]. replace ((zlen bs <=? i) || (i <? 0)) with false by lia.
    cbn [from_byte_list l_pos]. do 2 f_equal. destruct (0 <? i) eqn:Y; lia.
Qed.

Lemma byte_list_all : forall bs, zlen bs < 2 ^ 32 ->
  let l := from_byte_list bs in
  list_vlen l = Ok (zlen bs) /\ list_all (EBasic 1) l = Ok (map (fun i => 4 + i) (zseq (zlen bs))) /\
  forall i, read_elem (EBasic 1) l i 1 = Ok (option_map (fun x => [x]) (zget bs i)).
Proof.
  intros bs HB l. pose proof (byte_list_elements bs HB) as HE. fold l in HE. pose proof (zlen_nonneg bs).
  assert (LS : zlen (map (fun i => 4 + i) (zseq (zlen bs))) = zlen bs).
  { rewrite zlen_map. unfold zseq. rewrite zlen_map. unfold zlen at 1. rewrite seq_length. lia. }
  assert (HV : list_vlen l = Ok (zlen bs)) by (rewrite <- LS; apply HE).
  split; [exact HV|]. split.
  - apply (queries (EBasic 1) l _ (fun _ => true) HE). rewrite LS. unfold l, from_byte_list. cbn [l_vlen].
    unfold u32. apply Z.mod_small. lia.
  - intros i. unfold read_elem, list_at. rewrite HV. cbn [bind fixed_size].
    destruct ((zlen bs <=? i) || (i <? 0)) eqn:E; cbn [bind].
    + replace (zget bs i) with (@None byte); [reflexivity|]. symmetry.
      destruct (i <? 0) eqn:X; [apply zget_neg; lia|apply zget_ge; lia].
    + destruct (zget_some bs i ltac:(lia)) as [x Hx]. rewrite Hx. cbn [option_map].
      replace (l_pos l + (if 0 <? i then i * 1 else i * 4)) with (4 + i).
      2: { cbn [l from_byte_list l_pos]. destruct (0 <? i) eqn:Y; lia. }
      assert (D : delivers (l_io l) (4 + i) [x]).
      { apply delivers_served; [split; [reflexivity|constructor]|lia|cbn; lia|].
        unfold served. cbn [l l_io from_byte_list new_base b_diffs find_last b_bytes gs_of sl_data].
        split; [intros ? []|]. assert (L4 : zlen (le_encode 4 (u32 (zlen bs))) = 4) by apply zlen_le_encode.
        change (zlen [x]) with 1. rewrite zlen_app, L4. split; [lia|].
        apply zget_ext. intros j. rewrite zget_zfirst. destruct (j <? 1) eqn:J.
        - rewrite zget_zskip by lia. destruct (j <? 0) eqn:J0; [symmetry; apply zget_neg; lia|].
          assert (j = 0) by lia. subst j. rewrite Z.add_0_r, zget_app, L4.
          replace (4 + i <? 4) with false by lia. replace (4 + i - 4) with i by lia. rewrite Hx. reflexivity.
        - symmetry. apply zget_ge. cbn. lia. }
      destruct D as (s & ER & _ & ED). change (zlen [x]) with 1 in *. rewrite ER. cbn [bind opt_data]. rewrite ED. reflexivity.
Qed.
