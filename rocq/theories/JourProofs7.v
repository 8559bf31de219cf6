(** Fields, unions and elements in buffers with journal entries. *)
From Coq Require Import ZArith List Bool Lia String.
From Coq Require Import Strings.Byte.
From Verif Require Import GoLib BaseModel GoLemmas BaseSpec BaseProofs TableModel TableSpec TableProofs.
From Verif Require Import TableProofs2 NameModel NameSpec NameProofs NameProofs2.
From Verif Require Import WalkModel WalkSpec WalkProofs WalkProofs2 WalkProofs3 WalkProofs4 WalkProofs5 WalkProofs7 JourProofs JourProofs2 JourProofs3 JourProofs4 JourProofs5 JourProofs6.
Import ListNotations.
Open Scope list_scope.
Open Scope Z_scope.

Section Schema.
Variable n : names.
Variable b : base.
Variable s : schema.
Hypothesis HD : describes n s.

Local Notation m := b.
Local Notation tnode_at := (tnode_at n).
Local Notation field_node := (field_node n).

Lemma field_found_j : forall name p fs i v sz, seen_table m s name p (Tab name p fs) -> zget fs i = Some v ->
  exists f, field_at n b (new_node n (Some (p, sz)) no_vinfo name) i = Ok f /\ stands_for f v.
Proof.
  intros name p fs i v sz H Hv. inversion H as [? ? soff es tl tys ? Hs T Hso HSF]; subst.
  destruct (fields_nth_j b s p None tys es fs HSF) as (_ & _ & N).
  destruct (N i v Hv) as (t & e & pv & Ht & He & Hf & _).
  pose proof (field_at_stored_j n b s HD name p sz soff es tl tys i t e pv v Hs T Hso Ht He Hf) as FA.
  eexists. split; [exact FA|apply node_stands].
Qed.

Lemma union_found_j : forall name p fs tys i us v sz, seen_table m s name p (Tab name p fs) ->
  s name = Some tys -> zget tys i = Some (TyUnion us) -> zget fs i = Some v ->
  let c := new_node n (Some (p, sz)) no_vinfo name in
  match v with
  | Tab tn q _ => In tn us /\ can_follow n b c i = Ok true /\
                  follow_union n b c i = Ok (Some (new_node n (Some (q, -1)) no_vinfo tn))
  | _ => can_follow n b c i = Ok false /\ follow_union n b c i = Ok None
  end.
Proof.
  intros name p fs tys i us v sz H Hs' Ht Hv c. inversion H as [? ? soff es tl tys' ? Hs T Hso HSF]; subst.
  rewrite Hs in Hs'. injection Hs' as ->.
  destruct (follow_stored_j n b s HD name p sz soff es tl tys fs i us Hs T Hso HSF Ht v Hv)
    as [(tn & q & fs' & -> & HST & HI & F1 & F2 & F3)|(-> & F1 & F2 & F3)]; auto.
Qed.

Lemma elements_found_j : forall name p fs i v sz, seen_table m s name p (Tab name p fs) -> zget fs i = Some v ->
  exists f, field_at n b (new_node n (Some (p, sz)) no_vinfo name) i = Ok f /\
    match v with
    | Scalars q k w => forall j, (0 <= j < k -> exists e, vec_at n b f j = Ok (Some e) /\ c_node e = Some (q + j * w, -1)) /\
                                 (~ 0 <= j < k -> vec_at n b f j = Ok None)
    | Structs q k ms => forall j, (0 <= j < k -> exists e, vec_at n b f j = Ok (Some e) /\
                                     c_node e = Some (q + j * struct_size ms, -1)) /\
                                  (~ 0 <= j < k -> vec_at n b f j = Ok None)
    | Tabs tn q es => (forall j x, zget es j = Some x ->
                         vec_at n b f j = Ok (Some (new_node n (Some (val_pos x, -1)) no_vinfo tn))) /\
                      (forall j, ~ 0 <= j < zlen es -> vec_at n b f j = Ok None)
    | _ => True
    end.
Proof.
  intros name p fs i v sz H Hv. inversion H as [? ? soff es tl tys ? Hs T Hso HSF]; subst.
  destruct (fields_nth_j b s p None tys es fs HSF) as (_ & _ & N).
  destruct (N i v Hv) as (t & e & pv & Ht & He & Hf & _).
  pose proof (field_at_stored_j n b s HD name p sz soff es tl tys i t e pv v Hs T Hso Ht He Hf) as FA.
  eexists. split; [exact FA|].
  destruct (table_node n s HD name tys (Some (p, sz)) no_vinfo Hs) as (S1 & S2 & S3 & S4).
  destruct (S4 i _ Ht) as (typ & g & G1 & G2 & G3 & G4). fold (tnode_at name p sz) in *. rewrite G2.
  pose proof (pos_entry_j b p soff es tl T) as HP. clear FA S4 N.
  inversion Hf; subst; try exact I; cbn [field_described WalkProofs.field_node] in *.
  - match goal with H : sees_vector _ _ _ _ |- _ => destruct (vector_from_pos_j b p e q k HP ltac:(auto) H) as [Q1 Q2] end.
    destruct G3 as (_ & en & -> & EN & _). intros j.
    assert (G : forall nd z, (0 <= j < k -> exists e, vec_at n b (new_node n (Some nd) (mkV q z k) ("[]" ++ en)%string) j = Ok (Some e) /\
        c_node e = Some (q + j * zwidth t0, -1)) /\
      (~ 0 <= j < k -> vec_at n b (new_node n (Some nd) (mkV q z k) ("[]" ++ en)%string) j = Ok None)).
    { intros nd z. split; intros Hj.
      - eexists. split; [apply (vec_at_scalar_j n b nd q z k en t0 j Q1 Q2 EN Hj)|]. apply new_node_node.
      - apply vec_outside_j; auto. lia. }
    destruct (zwidth t0 =? 1); apply G.
  - match goal with H : sees_vector _ _ _ _ |- _ => destruct (vector_from_pos_j b p e q k HP ltac:(auto) H) as [Q1 Q2] end.
    destruct G3 as (_ & -> & SD). intros j. split; intros Hj.
    + eexists. split; [apply (vec_at_struct_j n b (p, -1) q 0 k _ _ j Q1 Q2 SD Hj)|]. apply new_node_node.
    + apply vec_outside_j; auto. lia.
  - match goal with H : seen_table _ _ _ _ v |- _ => destruct (stored_pos_j b s _ _ _ H) as (_ & _ & tys' & fs' & -> & _) end. exact I.
  - match goal with H : sees_vector _ _ _ _ |- _ => destruct (vector_from_pos_j b p e q _ HP ltac:(auto) H) as [Q1 Q2] end.
    destruct G3 as (_ & -> & TD). split.
    + intros j x Hx. eapply vec_at_table_j; eauto.
    + intros j Hj. apply vec_outside_j; auto. lia.
  - match goal with H : seen_table _ _ _ _ v |- _ => destruct (stored_pos_j b s _ _ _ H) as (_ & _ & tys' & fs' & -> & _) end. exact I.
Qed.

End Schema.
