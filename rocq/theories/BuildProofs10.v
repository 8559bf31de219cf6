(** Nodes of a wrong type are refused. *)
From Coq Require Import ZArith List Bool Lia String.
From Coq Require Import Strings.Byte.
From Verif Require Import GoLib BaseModel GoLemmas TableModel NameModel NameSpec WalkModel WalkSpec EqualSpec.
From Verif Require Import WalkProofs BuildModel BuildSpec BuildProofs4 BuildProofs6.
Import ListNotations.
Open Scope list_scope.
Open Scope Z_scope.

Section Refused.
Variable n : names.
Variable s : schema.
Hypothesis HD : describes n s.

Lemma refused_call : forall name tys i f nd, s name = Some tys -> mistyped n name tys i f ->
  forall fuel b fb, set_field_at n fuel b (new_node n (Some nd) no_vinfo name) i fb f = Ok Set_error.
Proof.
  intros name tys i f nd HS HM fuel b fb. destruct (table_node n s HD name tys (Some nd) no_vinfo HS) as (_ & _ & ML & TN).
  unfold set_field_at. rewrite ML. destruct HM as [HM|(t & Ht & HL & HU)].
  - replace (zlen tys <=? i) with true by lia. reflexivity.
  - pose proof (zget_some_range _ _ _ Ht) as R. replace (zlen tys <=? i) with false by lia.
    destruct (TN i t Ht) as (typ & g & G1 & G2 & G3 & _).
    destruct (HD name tys HS) as (_ & _ & l & L1 & L2).
    destruct (L2 i t Ht) as (typ' & g' & L3 & L4 & L5).
    assert (typ' = typ).
    { unfold field_type_name in G2. rewrite new_node_name, (sub_lookup _ _ _ _ L1), L3 in G2. congruence. }
    subst typ'.
    replace (is_same_type n (new_node n (Some nd) no_vinfo name) i (c_name f)) with false; [reflexivity|].
    symmetry. unfold is_same_type. rewrite G1, G2. apply orb_false_iff. split.
    + apply String.eqb_neq. intros ->. apply HL. exists l. auto.
    + destruct t as [t|sn ms|tn|us|t|sn ms|tn]; cbn [field_described] in G3.
      1:{ destruct G3 as [G3 _]. destruct (says_tests _ _ G3) as (_ & _ & -> & _).
          destruct (width_cases t) as [W|[W|[W|W]]]; rewrite W; reflexivity. }
      1:{ destruct G3 as [G3 _]. destruct (says_tests _ _ G3) as (_ & _ & -> & _). reflexivity. }
      1:{ destruct G3 as [G3 _]. destruct (says_tests _ _ G3) as (_ & _ & -> & _). reflexivity. }
      1:{ destruct G3 as (_ & GU & _). rewrite (sub_lookup _ _ _ _ GU). apply andb_false_iff. right.
          destruct (existsb (String.eqb (c_name f)) us) eqn:X; [|reflexivity]. exfalso.
          apply existsb_exists in X as (u & U1 & U2). apply String.eqb_eq in U2. subst u. apply (HU us eq_refl U1). }
      1:{ destruct G3 as [G3 _]. destruct (says_tests _ _ G3) as (_ & _ & -> & _).
          destruct (width_cases t) as [W|[W|[W|W]]]; rewrite W; reflexivity. }
      1:{ destruct G3 as [G3 _]. destruct (says_tests _ _ G3) as (_ & _ & -> & _). reflexivity. }
      1:{ destruct G3 as [G3 _]. destruct (says_tests _ _ G3) as (_ & _ & -> & _). reflexivity. }
Qed.

Lemma refused : forall name tys i fb f l1 l2 fuel r, s name = Some tys -> mistyped n name tys i f ->
  build_table n fuel name (l1 ++ (i, fb, f) :: l2) <> Ok (Some r).
Proof.
  intros name tys i fb f l1 l2 fuel r HS HM E. unfold build_table, init_node in E.
  destruct (init_table _) as [[b p]| |] in E; [|discriminate|discriminate]. cbn [bind] in E.
  assert (X : forall b, set_fields n fuel b (new_node n (Some (p, -1)) no_vinfo name) (l1 ++ (i, fb, f) :: l2) = Ok None \/
    set_fields n fuel b (new_node n (Some (p, -1)) no_vinfo name) (l1 ++ (i, fb, f) :: l2) = Panic \/
    set_fields n fuel b (new_node n (Some (p, -1)) no_vinfo name) (l1 ++ (i, fb, f) :: l2) = OutOfFuel).
  { clear E b. induction l1 as [|[[j gb] g] l1 IH]; intros b; cbn [app set_fields].
    - rewrite (refused_call name tys i f (p, -1) HS HM). auto.
    - destruct (set_field_at n fuel b _ j gb g) as [[b'| |]| |]; cbn [bind]; auto. }
  destruct (X b) as [Y|[Y|Y]]; rewrite Y in E; discriminate.
Qed.

End Refused.
