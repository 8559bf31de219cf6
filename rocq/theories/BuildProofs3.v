(** Stored values moved to another place. *)
From Coq Require Import ZArith List Bool Lia String.
From Coq Require Import Strings.Byte.
From Verif Require Import GoLib BaseModel GoLemmas BaseSpec TableModel TableSpec TableProofs NameModel NameSpec.
From Verif Require Import WalkModel WalkSpec WalkProofs3 EqualSpec BuildSpec.
Import ListNotations.
Open Scope list_scope.
Open Scope Z_scope.

Fixpoint shift (d : Z) (v : val) : val :=
  match v with
  | Absent t => Absent t
  | Scalar p w => Scalar (p + d) w
  | Struct p ms => Struct (p + d) ms
  | Scalars p k w => Scalars (p + d) k w
  | Structs p k ms => Structs (p + d) k ms
  | Tab name p fs => Tab name (p + d) (map (shift d) fs)
  | Tabs name p es => Tabs name (p + d) (map (shift d) es)
  end.

Section Shift.
Variable m m' m0 : image.
Variable s : schema.
Variable d : Z.
Hypothesis HM : forall q x, m q = Some x -> 0 <= q + d /\ m' (q + d) = Some x.
Hypothesis HM0 : forall q x, m q = Some x -> m0 q = Some x.

Lemma shift_uint : forall p k v, holds_uint m p k v -> holds_uint m' (p + d) k v.
Proof.
  intros p k v [H1 H2]. split; [exact H1|]. intros i Hi. destruct (H2 i Hi) as (x & A & B). exists x.
  split; [|exact B]. replace (p + d + i) with (p + i + d) by lia. apply HM. exact A.
Qed.

Lemma shift_occupied : forall p k, occupied m p k -> occupied m' (p + d) k.
Proof.
  intros p k H i Hi. destruct (H i Hi) as [x Hx]. exists x.
  replace (p + d + i) with (p + i + d) by lia. apply HM. exact Hx.
Qed.

Lemma shift_points : forall p q, points_to m p q -> points_to m' (p + d) (q + d).
Proof.
  intros p q [H1 H2]. split; [lia|]. replace (q + d - (p + d)) with (q - p) by lia. apply shift_uint. exact H2.
Qed.

Lemma shift_vector : forall p q k, vector_from m p q k -> vector_from m' (p + d) (q + d) k.
Proof.
  intros p q k [H1 H2]. split.
  - replace (q + d - 4) with (q - 4 + d) by lia. apply shift_points. exact H1.
  - replace (q + d - 4) with (q - 4 + d) by lia. apply shift_uint. exact H2.
Qed.

Lemma shift_table : forall p soff es tl, table_at m p soff es tl -> table_at m' (p + d) soff es tl.
Proof.
  intros p soff es tl [T1 T2 T3 T4 T5 T6].
  assert (V : 0 <= p - soff + d).
  { destruct T4 as [_ H]. destruct (H 0 ltac:(lia)) as (x & A & _). rewrite Z.add_0_r in A. apply HM in A. lia. }
  assert (P : 0 <= p + d).
  { destruct T1 as [_ H]. destruct (H 0 ltac:(lia)) as (x & A & _). rewrite Z.add_0_r in A. apply HM in A. lia. }
  constructor; auto.
  - apply shift_uint. exact T1.
  - lia.
  - replace (p + d - soff) with (p - soff + d) by lia. apply shift_uint. exact T4.
  - replace (p + d - soff + 2) with (p - soff + 2 + d) by lia. apply shift_uint. exact T5.
  - intros i e Hi. replace (p + d - soff + 4 + 2 * i) with (p - soff + 4 + 2 * i + d) by lia. apply shift_uint. auto.
Qed.

Lemma shift_same : forall p k, occupied m p k -> same_bytes m' m0 (p + d) p k.
Proof.
  intros p k H i Hi. destruct (H i Hi) as [x Hx]. rewrite (HM0 _ _ Hx).
  replace (p + d + i) with (p + i + d) by lia. apply HM. exact Hx.
Qed.

Lemma stored_shift :
  (forall name p v, stored_table m s name p v ->
     stored_table m' s name (p + d) (shift d v) /\ same_value m' m0 (shift d v) v) /\
  (forall p prev tys es fs, stored_fields m s p prev tys es fs ->
     stored_fields m' s (p + d) (option_map (shift d) prev) tys es (map (shift d) fs) /\
     Forall2 (same_value m' m0) (map (shift d) fs) fs) /\
  (forall p prev t e v, stored_field m s p prev t e v ->
     stored_field m' s (p + d) (option_map (shift d) prev) t e (shift d v) /\ same_value m' m0 (shift d v) v) /\
  (forall slot tn vs, stored_elems m s slot tn vs ->
     stored_elems m' s (slot + d) tn (map (shift d) vs) /\ Forall2 (same_value m' m0) (map (shift d) vs) vs).
Proof.
  apply stored_mind.
  - intros name p soff es tl tys fs Hs T Hso _ [IH1 IH2]. cbn [shift]. split.
    + econstructor; eauto. apply shift_table. exact T.
    + constructor. exact IH2.
  - intros p prev. split; constructor.
  - intros p prev t tys e es v vs _ [A1 A2] _ [B1 B2]. cbn [map]. split; constructor; auto.
  - intros p prev t Hu. cbn [shift]. split; [|constructor]. constructor. exact Hu.
  - intros p prev t e He Ho. cbn [shift]. split.
    + replace (p + e + d) with (p + d + e) by lia. constructor; auto.
      replace (p + d + e) with (p + e + d) by lia. apply shift_occupied. exact Ho.
    + constructor. apply shift_same. exact Ho.
  - intros p prev sn ms e He Ho. cbn [shift]. split.
    + replace (p + e + d) with (p + d + e) by lia. constructor; auto.
      replace (p + d + e) with (p + e + d) by lia. apply shift_occupied. exact Ho.
    + constructor. apply shift_same. exact Ho.
  - intros p prev t e q k He Hv Ho. cbn [shift]. split.
    + constructor; auto.
      * replace (p + d + e) with (p + e + d) by lia. apply shift_vector. exact Hv.
      * apply shift_occupied. exact Ho.
    + constructor; [reflexivity|]. apply shift_same. exact Ho.
  - intros p prev sn ms e q k He Hv Ho. cbn [shift]. split.
    + constructor; auto.
      * replace (p + d + e) with (p + e + d) by lia. apply shift_vector. exact Hv.
      * apply shift_occupied. exact Ho.
    + constructor; [reflexivity|]. apply shift_same. exact Ho.
  - intros p prev tn e q v He Hp _ [A1 A2]. split; [|exact A2].
    econstructor; eauto. replace (p + d + e) with (p + e + d) by lia. apply shift_points. exact Hp.
  - intros p prev tn e q vs He Hv _ [A1 A2]. cbn [shift]. split.
    + constructor; auto. replace (p + d + e) with (p + e + d) by lia. rewrite zlen_map. apply shift_vector. exact Hv.
    + constructor; [rewrite zlen_map; reflexivity|]. rewrite map_length, firstn_all. exact A2.
  - intros p us e x k tn q v He Hx Hk Hp _ [A1 A2]. cbn [option_map shift]. split; [|exact A2].
    eapply Sv_union; eauto.
    + apply shift_uint. exact Hx.
    + replace (p + d + e) with (p + e + d) by lia. apply shift_points. exact Hp.
  - intros p us x Hx. cbn [option_map shift]. split; [|constructor].
    apply Sv_no_union. apply shift_uint. exact Hx.
  - intros p us t Ht. cbn [option_map shift]. split; [|constructor]. eapply Sv_untyped_union. exact Ht.
  - intros slot tn. split; constructor.
  - intros slot tn q v vs Hp _ [A1 A2] _ [B1 B2]. cbn [map]. split.
    + econstructor; [apply shift_points; exact Hp|exact A1|].
      replace (slot + d + 4) with (slot + 4 + d) by lia. exact B1.
    + constructor; auto.
Qed.

(** ** Reach *)

Lemma fold_max_shift : forall fs a, 0 <= a -> 0 <= a + d ->
  (forall v, In v fs -> is_absent v = false -> reach (shift d v) = reach v + d) ->
  fold_right Z.max (a + d) (map reach (map (shift d) fs)) = fold_right Z.max a (map reach fs) + d.
Proof.
  induction fs as [|v fs IH]; intros a Ha Had H; cbn [map fold_right]; [reflexivity|].
  rewrite IH by (auto; intros w Hw; apply H; right; exact Hw).
  assert (G : forall l b, b <= fold_right Z.max b l).
  { clear. induction l as [|x l IHl]; intros b; cbn [fold_right]; [lia|]. specialize (IHl b). lia. }
  specialize (G (map reach fs) a).
  destruct (is_absent v) eqn:E.
  - destruct v; try discriminate. cbn [shift reach]. lia.
  - rewrite (H v (or_introl eq_refl) E). lia.
Qed.

Lemma table_pos : forall p soff es tl, table_at m p soff es tl -> 0 <= p /\ 0 <= p + d.
Proof.
  intros p soff es tl [T1 T2 T3 T4 T5 T6]. split; [lia|].
  destruct T1 as [_ H]. destruct (H 0 ltac:(lia)) as (x & A & _). rewrite Z.add_0_r in A. apply HM in A. lia.
Qed.

Lemma vector_pos : forall q k, holds_uint m (q - 4) 4 k -> 0 <= q - 4 + d.
Proof.
  intros q k [_ H]. destruct (H 0 ltac:(lia)) as (x & A & _). rewrite Z.add_0_r in A. apply HM in A. lia.
Qed.

Definition moves (v : val) : Prop := is_absent v = false -> reach (shift d v) = reach v + d.

Hypothesis nonneg : forall q x, m q = Some x -> 0 <= q.

Lemma reach_shift :
  (forall name p v, stored_table m s name p v -> moves v) /\
  (forall p prev tys es fs, stored_fields m s p prev tys es fs -> Forall moves fs) /\
  (forall p prev t e v, stored_field m s p prev t e v -> moves v) /\
  (forall slot tn vs, stored_elems m s slot tn vs -> Forall moves vs).
Proof.
  apply stored_mind; unfold moves; try (intros; cbn [shift reach is_absent] in *; (lia || discriminate || assumption)).
  - intros name p soff es tl tys fs Hs T Hso _ IH _. cbn [shift reach].
    destruct (table_pos _ _ _ _ T). replace (p + d + 4) with (p + 4 + d) by lia.
    apply fold_max_shift; try lia. rewrite Forall_forall in IH. exact IH.
  - constructor.
  - intros; constructor; auto.
  - intros p prev tn e q vs He [Hv1 Hv2] HS IH _. cbn [shift reach]. rewrite zlen_map.
    pose proof (zlen_nonneg vs). pose proof (vector_pos q _ Hv2).
    assert (0 <= q - 4).
    { destruct Hv2 as [_ H1]. destruct (H1 0 ltac:(lia)) as (x & A & _). rewrite Z.add_0_r in A. apply nonneg in A. lia. }
    replace (q + d + 4 * zlen vs) with (q + 4 * zlen vs + d) by lia.
    apply fold_max_shift; try lia. rewrite Forall_forall in IH. exact IH.
  - constructor.
  - intros; constructor; auto.
Qed.

Lemma vector_shift : forall t q v, stored_vector m s t q v ->
  stored_vector m' s t (q + d) (shift d v) /\ same_value m' m0 (shift d v) v /\
  reach (shift d v) = reach v + d /\ vector_len (shift d v) = vector_len v.
Proof.
  intros t q v H. destruct t; destruct v; cbn [stored_vector] in H; try contradiction; cbn [shift stored_vector vector_len].
  - destruct H as (-> & -> & H1 & H2). split.
    + split; [reflexivity|]. split; [reflexivity|]. split.
      * replace (q + d - 4) with (q - 4 + d) by lia. apply shift_uint. exact H1.
      * apply shift_occupied. exact H2.
    + split; [constructor; [reflexivity|apply shift_same; auto]|]. cbn [reach]. lia.
  - destruct H as (-> & -> & H1 & H2). split.
    + split; [reflexivity|]. split; [reflexivity|]. split.
      * replace (q + d - 4) with (q - 4 + d) by lia. apply shift_uint. exact H1.
      * apply shift_occupied. exact H2.
    + split; [constructor; [reflexivity|apply shift_same; auto]|]. cbn [reach]. lia.
  - destruct H as (-> & -> & H1 & H2). destruct (proj2 (proj2 (proj2 stored_shift)) _ _ _ H2) as [S1 S2].
    split.
    + split; [reflexivity|]. split; [reflexivity|]. split; [|exact S1]. rewrite zlen_map.
      replace (q + d - 4) with (q - 4 + d) by lia. apply shift_uint. exact H1.
    + split; [constructor; [rewrite zlen_map; reflexivity|rewrite map_length, firstn_all; exact S2]|].
      split; [|apply zlen_map]. cbn [reach]. rewrite zlen_map.
      pose proof (zlen_nonneg es). pose proof (vector_pos q _ H1).
      assert (0 <= q - 4).
      { destruct H1 as [_ H1]. destruct (H1 0 ltac:(lia)) as (x & A & _). rewrite Z.add_0_r in A. apply nonneg in A. lia. }
      replace (q + d + 4 * zlen es) with (q + 4 * zlen es + d) by lia.
      apply fold_max_shift; try lia.
      pose proof (proj2 (proj2 (proj2 reach_shift)) _ _ _ H2) as F. rewrite Forall_forall in F. exact F.
Qed.

End Shift.

(** A larger image stores the same. *)
Lemma shift_0 : forall v, shift 0 v = v.
Proof.
  fix go 1. intros [t|p w|p ms|p k w|p k ms|name p fs|name p es]; cbn [shift]; rewrite ?Z.add_0_r; try reflexivity; f_equal.
  - induction fs as [|v fs IH]; [reflexivity|]. cbn [map]. rewrite go, IH. reflexivity.
  - induction es as [|v es IH]; [reflexivity|]. cbn [map]. rewrite go, IH. reflexivity.
Qed.

Lemma stored_mono : forall m m' s name p v, (forall q x, m q = Some x -> 0 <= q /\ m' q = Some x) ->
  stored_table m s name p v -> stored_table m' s name p v.
Proof.
  intros m m' s name p v H HS. rewrite <- (shift_0 v). rewrite <- (Z.add_0_r p).
  apply (stored_shift m m' m s 0); auto. intros q x Hq. rewrite Z.add_0_r. auto.
Qed.

Lemma window_some : forall m lo hi q x, window m lo hi q = Some x -> lo <= q < hi /\ m q = Some x.
Proof. intros m lo hi q x H. unfold window in H. destruct (_ && _) eqn:E in H; [split; [lia|exact H]|discriminate]. Qed.
