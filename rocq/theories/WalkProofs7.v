(** Fields, unions, members and elements of stored values. *)
From Coq Require Import ZArith List Bool Lia String.
From Coq Require Import Strings.Byte.
From Verif Require Import GoLib BaseModel GoLemmas BaseSpec BaseProofs TableModel TableSpec TableProofs.
From Verif Require Import TableProofs2 NameModel NameSpec NameProofs NameProofs2.
From Verif Require Import WalkModel WalkSpec WalkProofs WalkProofs2 WalkProofs3.
Import ListNotations.
Open Scope list_scope.
Open Scope Z_scope.

Section Schema.
Variable n : names.
Variable b : base.
Variable s : schema.
Hypothesis HF : flat b.
Hypothesis HD : describes n s.

Local Notation m := (img_bytes (sl_data (b_bytes b))).
Local Notation tnode_at := (tnode_at n).
Local Notation field_node := (field_node n).

Lemma node_stands : forall typ p v, stands_for (field_node typ p v) v.
Proof.
  intros typ p v. destruct v; cbn [WalkProofs.field_node stands_for]; rewrite ?new_node_node, ?new_node_info; auto.
  destruct (w =? 1) eqn:E; rewrite new_node_node, new_node_info; cbn; repeat split; auto; intros; try lia.
Qed.

Lemma field_found : forall name p fs i v sz, stored_table m s name p (Tab name p fs) -> zget fs i = Some v ->
  exists f, field_at n b (new_node n (Some (p, sz)) no_vinfo name) i = Ok f /\ stands_for f v.
Proof.
  intros name p fs i v sz H Hv. inversion H as [? ? soff es tl tys ? Hs T Hso HSF]; subst.
  destruct (fields_nth b s p None tys es fs HSF) as (_ & _ & N).
  destruct (N i v Hv) as (t & e & pv & Ht & He & Hf & _).
  pose proof (field_at_stored n b s HF HD name p sz soff es tl tys i t e pv v Hs T Hso Ht He Hf) as FA.
  eexists. split; [exact FA|apply node_stands].
Qed.

Lemma union_found : forall name p fs tys i us v sz, stored_table m s name p (Tab name p fs) ->
  s name = Some tys -> zget tys i = Some (TyUnion us) -> zget fs i = Some v ->
  let c := new_node n (Some (p, sz)) no_vinfo name in
  match v with
  | Tab tn q _ => In tn us /\ can_follow n b c i = Ok true /\
                  follow_union n b c i = Ok (Some (new_node n (Some (q, -1)) no_vinfo tn))
  | _ => can_follow n b c i = Ok false /\ follow_union n b c i = Ok None
  end.
Proof.
  intros name p fs tys i us v sz H Hs' Ht Hv c. inversion H as [? ? soff es tl tys' ? Hs T Hso HSF]; subst.
  rewrite Hs in Hs'. injection Hs' as ->.
  destruct (follow_stored n b s HF HD name p sz soff es tl tys fs i us Hs T Hso HSF Ht v Hv)
    as [(tn & q & fs' & -> & HST & HI & F1 & F2 & F3)|(-> & F1 & F2 & F3)]; auto.
Qed.

Lemma sum_prefix : forall ms (f : Z -> Z) i, (forall j t, zget ms j = Some t -> f j = zwidth t) -> 0 <= i ->
  sum_sizes (map f (filter (fun j => j <? i) (indexes (zlen ms)))) = struct_size (zfirst i ms).
Proof.
  intros ms f i H Hi. unfold indexes, zlen. rewrite Nat2Z.id.
  assert (G : forall ms k, 0 <= k -> (forall j t, zget ms j = Some t -> f (k + j) = zwidth t) ->
    sum_sizes (map f (filter (fun j => j <? i) (map Z.of_nat (seq (Z.to_nat k) (List.length ms))))) =
    struct_size (firstn (Z.to_nat (i - k)) ms)).
  { clear H ms. induction ms as [|t ms IH]; intros k Hk H.
    - cbn. rewrite firstn_nil. reflexivity.
    - cbn [List.length seq map filter]. replace (Z.of_nat (Z.to_nat k)) with k by lia.
      assert (R : sum_sizes (map f (filter (fun j => j <? i) (map Z.of_nat (seq (S (Z.to_nat k)) (List.length ms))))) =
                  struct_size (firstn (Z.to_nat (i - (k + 1))) ms)).
      { replace (S (Z.to_nat k)) with (Z.to_nat (k + 1)) by lia. apply IH; [lia|]. intros j u Hu.
        replace (k + 1 + j) with (k + (j + 1)) by lia. apply H. rewrite zget_cons.
        pose proof (zget_some_range _ _ _ Hu). replace (j + 1 =? 0) with false by lia.
        replace (j + 1 - 1) with j by lia. exact Hu. }
      destruct (k <? i) eqn:E.
      + cbn [map sum_sizes fold_right]. fold (sum_sizes (map f (filter (fun j => j <? i) (map Z.of_nat (seq (S (Z.to_nat k)) (List.length ms)))))).
        rewrite R. replace (Z.to_nat (i - k)) with (S (Z.to_nat (i - (k + 1)))) by lia. cbn [firstn struct_size fold_right].
        fold (struct_size (firstn (Z.to_nat (i - (k + 1))) ms)). f_equal.
        replace k with (k + 0) by lia. apply H. reflexivity.
      + rewrite R. replace (Z.to_nat (i - k)) with 0%nat by lia. replace (Z.to_nat (i - (k + 1))) with 0%nat by lia.
        reflexivity. }
  specialize (G ms 0 ltac:(lia)). unfold zfirst. replace (i - 0) with i in G by lia. apply G. exact H.
Qed.

Lemma member_found : forall sn ms p sz i t, struct_described n sn ms -> zget ms i = Some t ->
  exists f, field_at n b (new_node n (Some (p, sz)) no_vinfo sn) i = Ok f /\
    c_node f = Some (p + struct_size (zfirst i ms), -1).
Proof.
  intros sn ms p sz i t H Ht. destruct (struct_node n sn ms (Some (p, sz)) no_vinfo H) as (S1 & _ & S3 & S4).
  pose proof (zget_some_range _ _ _ Ht) as R.
  eexists. split.
  - unfold field_at. rewrite new_node_node, new_node_name, S1. cbn [bind]. reflexivity.
  - rewrite new_node_node, S3, (sum_prefix ms _ i S4) by lia. reflexivity.
Qed.

Lemma elements_found : forall name p fs i v sz, stored_table m s name p (Tab name p fs) -> zget fs i = Some v ->
  exists f, field_at n b (new_node n (Some (p, sz)) no_vinfo name) i = Ok f /\
    match v with
    | Scalars q k w => forall j, (0 <= j < k -> exists e, vec_at n b f j = Ok (Some e) /\ c_node e = Some (q + j * w, -1)) /\
                                 (~ 0 <= j < k -> vec_at n b f j = Ok None)
    | Structs q k ms => forall j, (0 <= j < k -> exists e, vec_at n b f j = Ok (Some e) /\
                                     c_node e = Some (q + j * struct_size ms, -1)) /\
                                  (~ 0 <= j < k -> vec_at n b f j = Ok None)
    | Tabs tn q es => (forall j x, zget es j = Some x ->
                         vec_at n b f j = Ok (Some (new_node n (Some (val_pos x, -1)) no_vinfo tn))) /\
                      (forall j, ~ 0 <= j < zlen es -> vec_at n b f j = Ok None)
    | _ => True
    end.
Proof.
  intros name p fs i v sz H Hv. inversion H as [? ? soff es tl tys ? Hs T Hso HSF]; subst.
  destruct (fields_nth b s p None tys es fs HSF) as (_ & _ & N).
  destruct (N i v Hv) as (t & e & pv & Ht & He & Hf & _).
  pose proof (field_at_stored n b s HF HD name p sz soff es tl tys i t e pv v Hs T Hso Ht He Hf) as FA.
  eexists. split; [exact FA|].
  destruct (table_node n s HD name tys (Some (p, sz)) no_vinfo Hs) as (S1 & S2 & S3 & S4).
  destruct (S4 i _ Ht) as (typ & g & G1 & G2 & G3 & G4). fold (tnode_at name p sz) in *. rewrite G2.
  pose proof (pos_entry b p soff es tl T) as HP. clear FA S4 N.
  inversion Hf; subst; try exact I; cbn [field_described WalkProofs.field_node] in *.
  - match goal with H : vector_from _ _ _ _ |- _ => destruct (vector_from_pos b p e q k HP ltac:(auto) H) as [Q1 Q2] end.
    destruct G3 as (_ & en & -> & EN & _). intros j.
    assert (G : forall nd z, (0 <= j < k -> exists e, vec_at n b (new_node n (Some nd) (mkV q z k) ("[]" ++ en)%string) j = Ok (Some e) /\
        c_node e = Some (q + j * zwidth t0, -1)) /\
      (~ 0 <= j < k -> vec_at n b (new_node n (Some nd) (mkV q z k) ("[]" ++ en)%string) j = Ok None)).
    { intros nd z. split; intros Hj.
      - eexists. split; [apply (vec_at_scalar n b HF nd q z k en t0 j Q1 Q2 EN Hj)|]. apply new_node_node.
      - apply vec_outside; auto. lia. }
    destruct (zwidth t0 =? 1); apply G.
  - match goal with H : vector_from _ _ _ _ |- _ => destruct (vector_from_pos b p e q k HP ltac:(auto) H) as [Q1 Q2] end.
    destruct G3 as (_ & -> & SD). intros j. split; intros Hj.
    + eexists. split; [apply (vec_at_struct n b HF (p, -1) q 0 k _ _ j Q1 Q2 SD Hj)|]. apply new_node_node.
    + apply vec_outside; auto. lia.
  - match goal with H : stored_table _ _ _ _ v |- _ => destruct (stored_pos b s _ _ _ H) as (_ & _ & tys' & fs' & -> & _) end. exact I.
  - match goal with H : vector_from _ _ _ _ |- _ => destruct (vector_from_pos b p e q _ HP ltac:(auto) H) as [Q1 Q2] end.
    destruct G3 as (_ & -> & TD). split.
    + intros j x Hx. eapply vec_at_table; eauto.
    + intros j Hj. apply vec_outside; auto. lia.
  - match goal with H : stored_table _ _ _ _ v |- _ => destruct (stored_pos b s _ _ _ H) as (_ & _ & tys' & fs' & -> & _) end. exact I.
Qed.

End Schema.
