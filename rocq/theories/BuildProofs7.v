(** What a built table stores. *)
From Coq Require Import ZArith List Bool Lia String.
From Coq Require Import Strings.Byte.
From Verif Require Import GoLib BaseModel GoLemmas BaseSpec BaseProofs BaseProofs2 BaseProofs3.
From Verif Require Import TableModel TableSpec TableProofs TableProofs2 NameModel NameSpec.
From Verif Require Import WalkModel WalkSpec WalkProofs WalkProofs2 WalkProofs3 WalkProofs4.
From Verif Require Import EqualSpec BuildModel BuildSpec BuildProofs BuildProofs2 BuildProofs3 BuildProofs4 BuildProofs5 BuildProofs6.
Import ListNotations.
Open Scope list_scope.
Open Scope Z_scope.

Lemma choose : forall A (P : Z -> A -> Prop) k, (forall i, 0 <= i < Z.of_nat k -> exists w, P i w) ->
  exists l, zlen l = Z.of_nat k /\ forall i w, zget l i = Some w -> P i w.
Proof.
  intros A P. induction k as [|k IH]; intros H.
  - exists []. split; [reflexivity|]. intros i w Hi. rewrite zget_nil in Hi. discriminate.
  - destruct IH as (l & L & HL); [intros i Hi; apply H; lia|].
    destruct (H (Z.of_nat k)) as [w Hw]; [lia|]. exists (l ++ [w]). split.
    + rewrite zlen_app, L. unfold zlen. cbn [List.length]. lia.
    + intros i x Hi. rewrite zget_app, L in Hi.
      destruct (i <? Z.of_nat k) eqn:X; [apply HL; exact Hi|].
      rewrite zget_cons in Hi. destruct (i - Z.of_nat k =? 0) eqn:Y; [|rewrite zget_nil in Hi; discriminate].
      assert (x = w) by congruence. subst x. replace i with (Z.of_nat k) by lia. exact Hw.
Qed.

Lemma fields_intro : forall m s p tys es fs prev, zlen es = zlen tys -> zlen fs = zlen tys ->
  (forall i t e v, zget tys i = Some t -> zget es i = Some e -> zget fs i = Some v ->
     stored_field m s p (if i =? 0 then prev else zget fs (i - 1)) t e v) ->
  stored_fields m s p prev tys es fs.
Proof.
  intros m s p. induction tys as [|t tys IH]; intros es fs prev L1 L2 H.
  - destruct es as [|e es]; [|exfalso; rewrite zlen_cons in L1; pose proof (zlen_nonneg es); change (zlen (@nil ty)) with 0 in L1; lia].
    destruct fs as [|f fs]; [|exfalso; rewrite zlen_cons in L2; pose proof (zlen_nonneg fs); change (zlen (@nil ty)) with 0 in L2; lia].
    constructor.
  - destruct es as [|e es]; [exfalso; rewrite zlen_cons in L1; pose proof (zlen_nonneg tys); change (zlen (@nil Z)) with 0 in L1; lia|].
    destruct fs as [|f fs]; [exfalso; rewrite zlen_cons in L2; pose proof (zlen_nonneg tys); change (zlen (@nil val)) with 0 in L2; lia|].
    rewrite !zlen_cons in *. constructor.
    + apply (H 0); reflexivity.
    + apply IH; [lia|lia|]. intros i t' e' v' Ht He Hv. pose proof (zget_some_range _ _ _ Ht) as R.
      specialize (H (i + 1) t' e' v'). rewrite !zget_cons in H.
      replace (i + 1 =? 0) with false in H by lia. replace (i + 1 - 1) with i in H by lia.
      specialize (H Ht He Hv). destruct (i =? 0) eqn:X; [exact H|].
      exact H.
Qed.

Section Table.
Variable n : names.
Variable s : schema.
Variable name : string.
Variable tys : list ty.
Hypothesis HD : describes n s.
Hypothesis HS : s name = Some tys.
Hypothesis HB : buildable tys.

Notation ks := (kinds (new_node n None no_vinfo name)).
Notation sizes := (map field_size tys).
Notation tp := (TableProofs2.tpos ks).
Notation bst := (bst n s name tys).

Section Final.
Variable b : base.
Variable vt : list Z.
Variable tl : Z.
Variable vals : fmap.
Variable st : state.
Hypothesis HI : bst b vt tl vals st.
Hypothesis HU : typed_unions tys st.

Definition value_at (i : Z) (w : val) : Prop :=
  exists t e, zget tys i = Some t /\ zget vt i = Some e /\
  match st i with
  | Nothing => e = 0 /\ w = Absent t
  | Bytes p => e <> 0 /\ vals i = Some p /\
      match t with
      | TyScalar t => w = Scalar (tp + e) (zwidth t)
      | TyStruct _ ms => w = Struct (tp + e) ms
      | _ => False
      end
  | Value m v => exists lo d, e <> 0 /\ is_ref t = true /\ vals i = Some (le_encode 4 (tl - e + d)) /\ payload s t m v lo d /\
      0 <= lo /\ (forall k, 0 <= k < reach v - lo -> content b (tp + tl + k) = m (lo + k)) /\
      w = shift (tp + tl - lo) v
  end.

Lemma value_exists : forall i, 0 <= i < zlen tys -> exists w, value_at i w.
Proof.
  intros i Hi. destruct (zget_some tys i Hi) as [t Ht].
  destruct (entry_of _ _ _ _ HD HS _ _ _ _ _ i t HI Ht) as (e & E1 & E2).
  destruct (is_ref t) eqn:Hr.
  - pose proof (bs_ref _ _ _ _ _ _ _ _ _ HI i t Ht Hr) as B. unfold value_at.
    destruct (st i) as [|p|m v] eqn:ES.
    + exists (Absent t), t, e. repeat split; auto. apply E2. reflexivity.
    + contradiction.
    + destruct B as (e1 & lo & d & B1 & B2 & B3 & B4 & B5 & B6). assert (e1 = e) by congruence. subst e1.
      exists (shift (tp + tl - lo) v), t, e. split; [auto|]. split; [auto|]. exists lo, d. auto 10.
  - pose proof (bs_in _ _ _ _ _ _ _ _ _ HI i t Ht Hr) as B. unfold value_at.
    destruct (st i) as [|p|m v] eqn:ES.
    + exists (Absent t), t, e. repeat split; auto. apply E2. reflexivity.
    + assert (e <> 0) by (intros C; apply E2 in C; discriminate).
      destruct t as [t|sn ms| | | | |]; try discriminate.
      * exists (Scalar (tp + e) (zwidth t)), (TyScalar t), e. auto 10.
      * exists (Struct (tp + e) ms), (TyStruct sn ms), e. auto 10.
    + contradiction.
Qed.

Lemma window_pos : forall m lo hi q x, 0 <= lo -> window m lo hi q = Some x -> 0 <= q.
Proof. intros m lo hi q x H HW. apply window_some in HW as [H1 _]. lia. Qed.

(** A stored reference reaches at least to its payload. *)
Lemma payload_reach : forall t m v lo d, payload s t m v lo d -> 0 <= lo -> 0 <= tp + tl ->
  lo + d + 4 <= reach v /\ is_absent v = false /\ reach (shift (tp + tl - lo) v) = reach v + (tp + tl - lo).
Proof.
  intros t m v lo d HP Hlo Htl. set (dd := tp + tl - lo).
  set (W := window m lo (reach v)) in *.
  assert (HM : forall q x, W q = Some x -> 0 <= q + dd /\ (fun q => W (q - dd)) (q + dd) = Some x).
  { intros q x Hq. pose proof (window_some _ _ _ _ _ Hq) as [R _]. split; [unfold dd; lia|].
    replace (q + dd - dd) with q by lia. exact Hq. }
  assert (HP0 : forall q x, W q = Some x -> 0 <= q) by (intros q x; apply window_pos; exact Hlo).
  destruct HP as [_ [[-> HV]|[Hd (tn & _ & HT)]]].
  - destruct (vector_shift W _ W s dd HM (fun _ _ H => H) HP0 t (lo + 4) v HV) as (_ & _ & R & _).
    pose proof (vector_reach s _ _ _ _ HV). split; [lia|]. split; [|exact R].
    destruct t; destruct v; cbn [stored_vector] in HV; try contradiction; reflexivity.
  - pose proof (proj1 (reach_shift W _ W s dd HM (fun _ _ H => H) HP0) tn _ v HT) as MV.
    inversion HT as [nm p soff es tl0 tys0 fs H1 H2 H3 H4]; subst.
    split; [|split; [reflexivity|apply MV; reflexivity]].
    cbn [reach]. pose proof (proj1 (fold_max_le (map reach fs) (lo + d + 4) _) (Z.le_refl _)) as [X _]. exact X.
Qed.

Lemma stored_final : exists fs, zlen fs = zlen tys /\
  content b (reach (Tab name tp fs) - 1) <> None /\
  forall m', (forall q x, 0 <= q < reach (Tab name tp fs) -> content b q = Some x -> m' q = Some x) ->
    stored_table m' s name tp (Tab name tp fs) /\
    forall i t w, zget tys i = Some t -> zget fs i = Some w -> as_assigned m' t (st i) w.
Proof.
  pose proof (bs_g _ _ _ _ _ _ _ _ _ HI) as G. pose proof (tp_eq n s name tys HD HS) as TPE.
  pose proof (zlen_nonneg tys) as ZT. pose proof (g_tl _ _ _ _ _ _ G) as TL.
  pose proof (room_nonneg sizes vt (sizes_pos tys HB)) as RN.
  destruct (choose val value_at (List.length tys)) as (fs & LF & HF).
  { intros i Hi. apply value_exists. unfold zlen. exact Hi. }
  fold (zlen tys) in LF. exists fs. split; [exact LF|].
  set (R := reach (Tab name tp fs)).
  assert (RB : tp + 4 <= R /\ forall w, In w fs -> reach w <= R).
  { unfold R. cbn [reach]. destruct (proj1 (fold_max_le (map reach fs) (tp + 4) _) (Z.le_refl _)) as [X Y].
    split; [exact X|]. intros w Hw. apply Y. apply in_map. exact Hw. }
  destruct RB as [RB1 RB2].
  (* entries of present fields end before R *)
  assert (CELL : forall i t e w, zget tys i = Some t -> zget vt i = Some e -> e <> 0 -> zget fs i = Some w ->
    4 <= e /\ e + field_size t <= tl /\ tp + e + field_size t <= R).
  { intros i t e w Ht He Ne Hw.
    destruct (g_field _ _ _ _ _ _ G i e He Ne) as (z & p & A1 & A2 & A3 & A4 & A5 & _).
    rewrite zget_map, Ht in A1. cbn [option_map] in A1. assert (z = field_size t) by congruence. subst z.
    split; [exact A4|]. split; [lia|]. pose proof (RB2 w (zget_in _ _ _ _ Hw)) as RW.
    destruct (HF i w Hw) as (t' & e' & T1 & T2 & V). assert (t' = t) by congruence. assert (e' = e) by congruence. subst t' e'.
    destruct (st i) as [|q|m v].
    - destruct V. contradiction.
    - destruct V as (_ & _ & V). destruct t as [t|sn ms| | | | |]; try contradiction; subst w; cbn [reach field_size] in *; lia.
    - destruct V as (lo & d & _ & Hr & V1 & V2 & V3 & _ & ->).
      destruct (payload_reach t m v lo d V2 V3 ltac:(lia)) as (P1 & _ & P2). rewrite P2 in RW.
      pose proof (payload_d s t m v lo d V2). lia. }
  split.
  { (* the last byte of it is there *)
    destruct (fold_max_in (map reach fs) (tp + 4)) as [E|E].
    - unfold R. cbn [reach]. rewrite E. destruct (g_soff _ _ _ _ _ _ G) as [_ SO].
      destruct (SO 3) as (x & X & _); [lia|]. replace (tp + 4 - 1) with (tp + 3) by lia. rewrite X. discriminate.
    - unfold R. cbn [reach]. apply in_map_iff in E as (w & Ew & Hw). rewrite <- Ew.
      destruct (In_nth_error _ _ Hw) as [j Hj]. assert (Hz : zget fs (Z.of_nat j) = Some w).
      { unfold zget. replace (Z.of_nat j <? 0) with false by lia. rewrite Nat2Z.id. exact Hj. }
      destruct (HF _ w Hz) as (t & e & T1 & T2 & V).
      assert (RW : tp + 4 <= reach w) by (unfold R in RB1; cbn [reach] in RB1; lia).
      destruct (st (Z.of_nat j)) as [|q|m v].
      + destruct V as (_ & ->). cbn [reach] in RW. lia.
      + destruct V as (Ne & _ & V).
        destruct (g_field _ _ _ _ _ _ G _ e T2 Ne) as (z & p & A1 & A2 & A3 & A4 & A5 & A6).
        pose proof (size_ge sizes (sizes_pos tys HB) _ _ A1) as Z1.
        assert (X : content b (tp + e + (z - 1)) <> None).
        { rewrite A6 by lia. destruct (zget_some p (z - 1)) as [y ->]; [lia|discriminate]. }
        rewrite zget_map, T1 in A1. cbn [option_map] in A1.
        destruct t as [t|sn ms| | | | |]; try contradiction; subst w; cbn [reach field_size] in *.
        * assert (z = zwidth t) by congruence. replace (tp + e + zwidth t - 1) with (tp + e + (z - 1)) by lia. exact X.
        * assert (z = struct_size ms) by congruence. replace (tp + e + struct_size ms - 1) with (tp + e + (z - 1)) by lia. exact X.
      + destruct V as (lo & d & _ & Hr & V1 & V2 & V3 & V4 & ->).
        destruct (payload_reach t m v lo d V2 V3 ltac:(lia)) as (P1 & _ & P2). rewrite P2.
        pose proof (payload_d s t m v lo d V2).
        replace (reach v + (tp + tl - lo) - 1) with (tp + tl + (reach v - lo - 1)) by lia.
        rewrite V4 by lia. apply (proj1 V2). lia. }
  intros m' HM.
  assert (VTL : zlen vt = zlen tys) by (rewrite (g_vt _ _ _ _ _ _ G); apply (kinds_len n s name tys HD HS)).
  assert (KEEP : forall q k v, 0 <= q -> q + Z.of_nat k <= R -> holds_uint (content b) q k v -> holds_uint m' q k v).
  { intros q k v Hq Hk [H1 H2]. split; [exact H1|]. intros j Hj. destruct (H2 j Hj) as (x & X1 & X2).
    exists x. split; [|exact X2]. apply HM; [fold R; lia|exact X1]. }
  assert (FIELD : forall i e p k, zget vt i = Some e -> e <> 0 -> vals i = Some p -> tp + e + zlen p <= R ->
    0 <= k < zlen p -> m' (tp + e + k) = zget p k).
  { intros i e p k He Ne Hp HR Hk.
    destruct (g_field _ _ _ _ _ _ G i e He Ne) as (z & p' & A1 & A2 & A3 & A4 & A5 & A6).
    assert (p' = p) by congruence. subst p'. rewrite <- A6 in * by lia.
    destruct (zget_some p k Hk) as [x Hx]. rewrite A6 in * by lia. rewrite Hx. apply HM; [fold R; lia|].
    rewrite A6 by lia. exact Hx. }
  assert (SLOT : forall i e o, zget vt i = Some e -> e <> 0 -> vals i = Some (le_encode 4 o) -> 0 <= o < 4294967296 ->
    tp + e + 4 <= R -> holds_uint m' (tp + e) 4 o).
  { intros i e o He Ne Hp Ho HR. apply holds_uint_encode; [|exact Ho]. intros k Hk.
    apply (FIELD i e (le_encode 4 o) k He Ne Hp); rewrite zlen_le_encode; [lia|exact Hk]. }
  (* references *)
  assert (REF : forall i t e m v w lo d, zget tys i = Some t -> zget vt i = Some e -> e <> 0 -> zget fs i = Some w ->
    is_ref t = true -> vals i = Some (le_encode 4 (tl - e + d)) -> payload s t m v lo d -> 0 <= lo ->
    (forall k, 0 <= k < reach v - lo -> content b (tp + tl + k) = m (lo + k)) -> w = shift (tp + tl - lo) v ->
    same_value m' m w v /\ holds_uint m' (tp + e) 4 (tl - e + d) /\ 4 <= e /\ e + 4 <= tl /\
    ((d = 0 /\ stored_vector m' s t (tp + tl + 4) w) \/
     (4 <= d /\ exists tn, (t = TyTable tn \/ exists us, t = TyUnion us /\ In tn us) /\
        stored_table m' s tn (tp + tl + d) w /\ exists p fs0, v = Tab tn p fs0))).
  { intros i t e m v w lo d Ht He Ne Hw Hr V1 V2 V3 V4 Ew.
    destruct (CELL i t e w Ht He Ne Hw) as (C1 & C2 & C3).
    assert (FS : field_size t = 4) by (destruct t; try discriminate; reflexivity). rewrite FS in *.
    destruct (payload_reach t m v lo d V2 V3 ltac:(lia)) as (P1 & _ & P2).
    pose proof (payload_d s t m v lo d V2) as PD.
    pose proof (RB2 w (zget_in _ _ _ _ Hw)) as RW. rewrite Ew, P2 in RW.
    set (dd := tp + tl - lo) in *. set (W := window m lo (reach v)) in *.
    assert (HMW : forall q x, W q = Some x -> 0 <= q + dd /\ m' (q + dd) = Some x).
    { intros q x Hq. apply window_some in Hq as [R1 R2]. split; [unfold dd; lia|]. apply HM; [fold R; unfold dd in *; lia|].
      replace (q + dd) with (tp + tl + (q - lo)) by (unfold dd; lia). rewrite V4 by lia.
      replace (lo + (q - lo)) with q by lia. exact R2. }
    assert (HM0 : forall q x, W q = Some x -> m q = Some x) by (intros q x Hq; apply window_some in Hq as [_ Hq]; exact Hq).
    assert (HP0 : forall q x, W q = Some x -> 0 <= q) by (intros q x; apply window_pos; exact V3).
    assert (SL : holds_uint m' (tp + e) 4 (tl - e + d)) by (apply (SLOT i); auto; lia).
    destruct (proj2 V2) as [[Ed HV]|[Hd (tn & Htn & HT)]].
    - destruct (vector_shift W m' m s dd HMW HM0 HP0 t (lo + 4) v HV) as (S1 & S2 & _).
      rewrite Ew. split; [exact S2|]. split; [exact SL|]. split; [exact C1|]. split; [exact C2|]. left. split; [exact Ed|].
      replace (tp + tl + 4) with (lo + 4 + dd) by (unfold dd; lia). exact S1.
    - destruct (proj1 (stored_shift W m' m s dd HMW HM0) tn _ v HT) as (S1 & S2).
      rewrite Ew. split; [exact S2|]. split; [exact SL|]. split; [exact C1|]. split; [exact C2|]. right. split; [lia|].
      exists tn. split; [exact Htn|]. split.
      + replace (tp + tl + d) with (lo + d + dd) by (unfold dd; lia). exact S1.
      + inversion HT; subst. eauto. }
  split.
  - apply St_table with (soff := tp) (es := vt) (tl := tl) (tys := tys); auto; [|lia|].
    + pose proof (small n s name tys HD HS HB) as SM. constructor.
      * rewrite Z.mod_small by (change (2 ^ 32) with 4294967296; lia). apply KEEP; [lia|lia|apply G].
      * change (2 ^ 31) with 2147483648. lia.
      * lia.
      * rewrite Z.sub_diag. rewrite VTL. rewrite <- TPE. apply KEEP; [lia|lia|apply G].
      * rewrite Z.sub_diag. apply KEEP; [lia|lia|apply G].
      * intros i e Hi. pose proof (zget_some_range _ _ _ Hi) as RI. rewrite Z.sub_diag.
        replace (0 + 4 + 2 * i) with (4 + 2 * i) by lia. apply KEEP; [lia|lia|apply G; exact Hi].
    + apply fields_intro; [exact VTL|exact LF|]. intros i t e w Ht He Hw.
      destruct (HF i w Hw) as (t' & e' & T1 & T2 & V).
      assert (t' = t) by congruence. assert (e' = e) by congruence. subst t' e'.
      pose proof (zget_some_range _ _ _ Ht) as RI.
      destruct (st i) as [|p|m v] eqn:ES.
      * destruct V as (-> & ->). destruct (is_union t) eqn:EU; [|apply Sv_absent; exact EU].
        destruct t as [| | |us| | |]; try discriminate. pose proof (HU i us Ht) as U. rewrite ES in U.
        destruct HB as (_ & _ & _ & HP). destruct (HP i us Ht) as (tt & P1 & P2).
        pose proof (zget_some_range _ _ _ P1) as RP. replace (i =? 0) with false by lia.
        destruct (zget_some fs (i - 1)) as [w1 Hw1]; [lia|]. rewrite Hw1.
        destruct (HF _ w1 Hw1) as (t1 & e1 & Q1 & Q2 & V1). assert (t1 = TyScalar tt) by congruence. subst t1.
        destruct U as [U|U]; rewrite U in V1.
        -- destruct V1 as (_ & ->). apply Sv_untyped_union. exact P2.
        -- destruct V1 as (Ne & V1 & ->). rewrite P2. apply Sv_no_union. split; [cbn; lia|].
           intros k Hk. exists x00. split; [|replace k with 0 by lia; reflexivity].
           destruct (CELL (i - 1) _ e1 _ P1 Q2 Ne Hw1) as (_ & _ & C3). cbn [field_size] in C3. rewrite P2 in C3.
           rewrite (FIELD (i - 1) e1 [x00] k Q2 Ne V1); [replace k with 0 by lia; reflexivity| |].
           ++ unfold zlen. cbn [List.length]. lia.
           ++ unfold zlen. cbn [List.length]. lia.
      * destruct V as (Ne & V1 & V). destruct (CELL i t e w Ht He Ne Hw) as (C1 & C2 & C3).
        destruct (g_field _ _ _ _ _ _ G i e He Ne) as (z & p' & A1 & A2 & A3 & _).
        assert (p' = p) by congruence. subst p'. rewrite zget_map, Ht in A1. cbn [option_map] in A1.
        assert (LP : zlen p = field_size t) by congruence.
        assert (OC : occupied m' (tp + e) (field_size t)).
        { intros k Hk. destruct (zget_some p k) as [x Hx]; [lia|]. exists x.
          rewrite (FIELD i e p k He Ne V1); [exact Hx|lia|lia]. }
        destruct t as [t|sn ms| | | | |]; try contradiction; subst w; cbn [field_size] in OC.
        -- apply Sv_scalar; auto.
        -- apply Sv_struct; auto.
      * destruct V as (lo & d & Ne & Hr & V1 & V2 & V3 & V4 & Ew).
        destruct (REF i t e m v w lo d Ht He Ne Hw Hr V1 V2 V3 V4 Ew) as (_ & SL & C1 & C2 & K).
        assert (PT : points_to m' (tp + e) (tp + tl + d)).
        { pose proof (payload_d s t m v lo d V2). split; [lia|]. replace (tp + tl + d - (tp + e)) with (tl - e + d) by lia. exact SL. }
        destruct K as [[-> K]|[Hd (tn & Htn & K & p0 & fs0 & Ev)]].
        -- rewrite Z.add_0_r in PT.
           destruct t; destruct w; cbn [stored_vector] in K; try contradiction; destruct K as (-> & -> & K1 & K2).
           ++ apply Sv_scalars; auto. split; [|exact K1]. replace (tp + tl + 4 - 4) with (tp + tl) by lia. exact PT.
           ++ apply Sv_structs; auto. split; [|exact K1]. replace (tp + tl + 4 - 4) with (tp + tl) by lia. exact PT.
           ++ apply Sv_tables; auto. split; [|exact K1]. replace (tp + tl + 4 - 4) with (tp + tl) by lia. exact PT.
        -- destruct Htn as [->|(us & -> & HIn)].
           ++ eapply Sv_table; eauto.
           ++ pose proof (HU i us Ht) as U. rewrite ES in U. destruct U as (k & tn1 & p1 & fs1 & x & U1 & U2 & U3 & U4).
              assert (tn1 = tn) by congruence. subst tn1.
              destruct HB as (_ & _ & _ & HP). destruct (HP i us Ht) as (tt & P1 & P2).
              pose proof (zget_some_range _ _ _ P1) as RP. replace (i =? 0) with false by lia.
              destruct (zget_some fs (i - 1)) as [w1 Hw1]; [lia|]. rewrite Hw1.
              destruct (HF _ w1 Hw1) as (t1 & e1 & Q1 & Q2 & W1). assert (t1 = TyScalar tt) by congruence. subst t1.
              rewrite U3 in W1. destruct W1 as (Ne1 & W1 & ->). rewrite P2.
              destruct (CELL (i - 1) _ e1 _ P1 Q2 Ne1 Hw1) as (_ & _ & C3). cbn [field_size] in C3. rewrite P2 in C3.
              eapply Sv_union with (k := k); eauto.
              pose proof (b2z_range x) as XR. split; [change (256 ^ Z.of_nat 1) with 256; lia|].
              intros j Hj. exists x. split.
              ** rewrite (FIELD (i - 1) e1 [x] j Q2 Ne1 W1); [replace j with 0 by lia; reflexivity| |]; unfold zlen; cbn [List.length]; lia.
              ** replace j with 0 by lia. rewrite Z.pow_0_r, Z.div_1_r, Z.mod_small by lia. lia.
  - intros i t w Ht Hw. destruct (HF i w Hw) as (t' & e & T1 & T2 & V).
    assert (t' = t) by congruence. subst t'. destruct (st i) as [|p|m v] eqn:ES; cbn [as_assigned].
    + destruct V as (_ & ->). reflexivity.
    + destruct V as (Ne & V1 & V). destruct (CELL i t e w Ht T2 Ne Hw) as (C1 & C2 & C3).
      destruct (g_field _ _ _ _ _ _ G i e T2 Ne) as (z & p' & A1 & A2 & A3 & _).
      assert (p' = p) by congruence. subst p'. rewrite zget_map, Ht in A1. cbn [option_map] in A1.
      assert (LP : zlen p = field_size t) by congruence.
      destruct t as [t|sn ms| | | | |]; try contradiction; subst w; cbn [val_pos].
      * split; [|split; [exact LP|eauto]]. intros k Hk. apply (FIELD i e p k T2 Ne V1); [lia|exact Hk].
      * split; [|split; [exact LP|eauto]]. intros k Hk. apply (FIELD i e p k T2 Ne V1); [lia|exact Hk].
    + destruct V as (lo & d & Ne & Hr & V1 & V2 & V3 & V4 & Ew).
      destruct (REF i t e m v w lo d Ht T2 Ne Hw Hr V1 V2 V3 V4 Ew) as (SV & _). exact SV.
Qed.

End Final.
End Table.
