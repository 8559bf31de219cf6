(** What each visit means for the search: its reference lies on one side and is
    passed over, or it is the one to move. *)
From Coq Require Import ZArith List Bool Lia String.
From Verif Require Import GoLib BaseModel GoLemmas BaseSpec TableModel TableSpec TableProofs NameModel NameSpec.
From Verif Require Import WalkModel WalkSpec WalkProofs WalkProofs2 WalkProofs3 WalkProofs5.
From Verif Require Import InsModel InsSpec InsProofs InsProofs2 InsProofs4 InsProofs5.
Import ListNotations.
Open Scope list_scope.
Open Scope Z_scope.

(** ** Numbers *)

Lemma num_holds : forall m k p v, holds_uint m p k v -> num m p k = v.
Proof.
  intros m k. induction k as [|k IH]; intros p v H.
  - destruct H as [H _]. cbn in *. lia.
  - destruct H as [H1 H2]. cbn [num]. destruct (H2 0 ltac:(lia)) as (x & X1 & X2).
    replace (p + 0) with p in X1 by lia. rewrite X1, X2.
    rewrite (IH (p + 1) (v / 256)).
    + change (256 ^ 0) with 1. rewrite Z.div_1_r. pose proof (Z.div_mod v 256). lia.
    + split.
      * replace (Z.of_nat (S k)) with (Z.of_nat k + 1) in H1 by lia. rewrite Z.pow_add_r in H1 by lia.
        split; [apply Z.div_pos; lia|]. apply Z.div_lt_upper_bound; lia.
      * intros j Hj. destruct (H2 (j + 1) ltac:(lia)) as (y & Y1 & Y2). exists y.
        replace (p + 1 + j) with (p + (j + 1)) by lia. split; [exact Y1|]. rewrite Y2.
        rewrite Z.pow_add_r, Z.mul_comm, <- Zdiv.Zdiv_Zdiv by lia. reflexivity.
Qed.

Lemma table_vtable : forall m p soff es tl, table_at m p soff es tl -> 0 <= soff -> vtable_of m p = p - soff.
Proof.
  intros m p soff es tl T H. destruct T as [T1 T2 T3 T4 T5 T6]. unfold vtable_of.
  rewrite (num_holds m 4 p _ T1). rewrite Z.mod_small by lia. reflexivity.
Qed.

Lemma table_slot : forall m p soff es tl i e, table_at m p soff es tl -> 0 <= soff -> zget es i = Some e ->
  slot_of m p i = p + e.
Proof.
  intros m p soff es tl i e T H E. unfold slot_of. rewrite (table_vtable m p soff es tl T H).
  destruct T as [T1 T2 T3 T4 T5 T6]. rewrite (num_holds m 2 _ _ (T6 i e E)). reflexivity.
Qed.

(** A table is not its own vtable. *)
Lemma soff_pos : forall m p soff es tl, table_at m p soff es tl -> 0 <= soff -> 0 < soff.
Proof.
  intros m p soff es tl [T1 T2 T3 T4 T5 T6] H. destruct (Z.eq_dec soff 0) as [->|]; [|lia]. exfalso.
  replace (p - 0) with p in T4 by lia. change (0 mod 2 ^ 32) with 0 in T1.
  assert (H2 : holds_uint m p 2 0).
  { split; [cbn; lia|]. intros k Hk. destruct T1 as [_ T1]. destruct (T1 k ltac:(lia)) as (x & X1 & X2). eauto. }
  pose proof (num_holds _ _ _ _ H2). pose proof (num_holds _ _ _ _ T4). pose proof (zlen_nonneg es). lia.
Qed.

(** ** Names of tables *)

Lemma says_table : forall g, says g [CTable] -> is_field_slice g = false /\ is_field_basic g = false.
Proof. intros g H. destruct (says_tests _ _ H) as (_ & _ & _ & -> & _ & ->). split; reflexivity. Qed.

Lemma table_name : forall n name, table_described n name ->
  (forall k, is_list_name name k = Ok false) /\ is_struct_name n name = false /\
  exists g, get_type_group n name = Ok g /\ is_field_basic g = false.
Proof.
  intros n name (H1 & g & H2 & H3). destruct (says_table g H3) as [S1 S2]. split; [|split; [|eauto]].
  - intros k. assert (R : exists r, str_from2 name = Ok r /\ prefix "[]" name = false).
    { unfold get_type_group in H2. destruct (lookup name_to_type name) as [t|].
      { exfalso. injection H2 as <-. destruct t; vm_compute in S2; discriminate. }
      destruct (lookup (n_unions n) name).
      { exfalso. injection H2 as <-. destruct (says_tests _ _ H3) as (_ & S3 & _). vm_compute in S3. discriminate. }
      destruct (prefix "[]byte" name); [injection H2 as <-; vm_compute in S2; discriminate|].
      destruct (str_from2 name) as [r| |] eqn:E; try discriminate. cbn [bind] in H2. exists r. split; [reflexivity|].
      destruct (prefix "[]" name); [|reflexivity]. exfalso.
      destruct (lookup name_to_type r) as [t|]; [injection H2 as <-; destruct t; vm_compute in S1; discriminate|].
      destruct (lookup (n_structs n) name) as [[|]|]; injection H2 as <-; vm_compute in S1; discriminate. }
    destruct R as (r & R1 & R2). unfold is_list_name. rewrite R1, R2. cbn [bind].
    destruct (String.eqb_spec name "") as [->|]; [discriminate R1|]. reflexivity.
  - unfold is_struct_name. destruct (lookup (n_structs n) name) as [[|]|]; congruence.
Qed.

(** ** Layouts of tables and vectors *)

Lemma links_tab : forall m name p fs, links m (Tab name p fs) =
  List.concat (numbered (fun i f => match start f with Some t => [(slot_of m p i, t)] | None => [] end ++ links m f) fs).
Proof.
  intros m name p fs. cbn [links]. f_equal. unfold numbered. generalize 0 as i.
  induction fs as [|f fs IH]; intros i; cbn [number map fst snd]; [reflexivity|]. f_equal. apply IH.
Qed.

Lemma links_tabs : forall m name q es, links m (Tabs name q es) =
  List.concat (numbered (fun i e => (q + 4 * i, val_pos e) :: links m e) es).
Proof.
  intros m name p fs. cbn [links]. f_equal. unfold numbered. generalize 0 as i.
  induction fs as [|f fs IH]; intros i; cbn [number map fst snd]; [reflexivity|]. f_equal. apply IH.
Qed.

Lemma ties_tab : forall m name p fs, ties m (Tab name p fs) =
  (p, vtable_of m p) ::
  List.concat (numbered (fun i f => if is_absent f then ties m f else (p, slot_of m p i) :: ties m f) fs).
Proof.
  intros m name p fs. cbn [ties]. do 2 f_equal. unfold numbered. generalize 0 as i.
  induction fs as [|f fs IH]; intros i; cbn [number map fst snd]; [reflexivity|]. f_equal. apply IH.
Qed.

Lemma ties_tabs : forall m name q es, ties m (Tabs name q es) =
  List.concat (numbered (fun i e => (q - 4, q + 4 * i) :: ties m e) es).
Proof.
  intros m name p fs. cbn [ties]. f_equal. unfold numbered. generalize 0 as i.
  induction fs as [|f fs IH]; intros i; cbn [number map fst snd]; [reflexivity|]. f_equal. apply IH.
Qed.

Lemma in_concat_numbered : forall A B (g : Z -> A -> list B) l i x y, zget l i = Some x -> In y (g i x) ->
  In y (List.concat (numbered g l)).
Proof.
  intros A B g l i x y H HI. apply in_concat. exists (g i x). split; [|exact HI]. unfold numbered. apply in_map_iff.
  exists (i, x). split; [reflexivity|]. apply in_number. replace (i - 0) with i by lia. exact H.
Qed.

Lemma concat_numbered_in : forall A B (g : Z -> A -> list B) l y, In y (List.concat (numbered g l)) ->
  exists i x, zget l i = Some x /\ In y (g i x).
Proof.
  intros A B g l y H. apply in_concat in H. destruct H as (z & H1 & H2). unfold numbered in H1. apply in_map_iff in H1.
  destruct H1 as ([i x] & <- & H1). apply in_number in H1. replace (i - 0) with i in H1 by lia. exists i, x. auto.
Qed.

Section Sides.
Variable m : image.
Variable pos : Z.

Lemma between_field : forall name p fs i f, between m pos (Tab name p fs) -> zget fs i = Some f -> between m pos f.
Proof.
  intros name p fs i f (H1 & H2 & H3) Hf. split; [|split].
  - intros a k HI. apply H1. cbn [parts]. right. right. apply in_flat_map. exists f. split; [eapply zget_in; exact Hf|exact HI].
  - intros a t HI. apply (H2 a t). rewrite links_tab. eapply in_concat_numbered; [exact Hf|]. apply in_or_app. right. exact HI.
  - intros a c HI. apply H3. rewrite ties_tab. right. eapply in_concat_numbered; [exact Hf|]. destruct (is_absent f); [exact HI|right; exact HI].
Qed.

Lemma between_elem : forall name q es i e, between m pos (Tabs name q es) -> zget es i = Some e -> between m pos e.
Proof.
  intros name p fs i f (H1 & H2 & H3) Hf. split; [|split].
  - intros a k HI. apply H1. cbn [parts]. right. apply in_flat_map. exists f. split; [eapply zget_in; exact Hf|exact HI].
  - intros a t HI. apply (H2 a t). rewrite links_tabs. eapply in_concat_numbered; [exact Hf|]. right. exact HI.
  - intros a c HI. apply H3. rewrite ties_tabs. eapply in_concat_numbered; [exact Hf|]. right. exact HI.
Qed.

End Sides.

(** ** Stored values, one case each *)

Section Good.
Variable m : image.
Variable s : schema.

Inductive good : val -> Prop :=
| G_absent : forall t, good (Absent t)
| G_scalar : forall p w, 0 <= p -> 0 < w -> occupied m p w -> good (Scalar p w)
| G_scalars : forall q k w, 4 <= q -> 0 < w -> holds_uint m (q - 4) 4 k -> occupied m q (k * w) -> good (Scalars q k w)
| G_tab : forall name p fs tys soff es tl, s name = Some tys -> table_at m p soff es tl -> 0 <= soff ->
    stored_fields m s p None tys es fs -> (forall f, In f fs -> good f) -> good (Tab name p fs)
| G_tabs : forall name q es, 4 <= q -> holds_uint m (q - 4) 4 (zlen es) -> stored_elems m s q name es ->
    (forall e, In e es -> good e) -> good (Tabs name q es).

End Good.

Lemma zwidth_pos : forall t, 0 < zwidth t.
Proof. intros t. unfold zwidth. destruct (width_cases t) as [W|[W|[W|W]]]; rewrite W; lia. Qed.

Lemma stored_good : forall b s,
  let m := img_bytes (sl_data (b_bytes b)) in
  (forall name p v, stored_table m s name p v -> insertable v -> good m s v) /\
  (forall p prev tys es fs, stored_fields m s p prev tys es fs -> 0 <= p -> Forall insertable fs ->
     forall f, In f fs -> good m s f) /\
  (forall p prev t e v, stored_field m s p prev t e v -> 0 <= p -> insertable v -> good m s v) /\
  (forall slot tn vs, stored_elems m s slot tn vs -> 0 <= slot -> Forall insertable vs ->
     forall v, In v vs -> good m s v).
Proof.
  intros b s m. apply stored_mind; try (intros; constructor; fail).
  - intros name p soff es tl tys fs Hs T Hso HF IH HT. inversion HT; subst.
    pose proof (pos_entry b _ _ _ _ T) as P. econstructor; eauto.
  - intros p prev _ _ f [].
  - intros p prev t tys e es v vs _ IH1 _ IH2 P HT f Hf. inversion HT; subst.
    destruct Hf as [<-|Hf]; [apply IH1; auto|apply IH2; auto].
  - intros p prev t e He HO P HT. constructor; [lia|apply zwidth_pos|exact HO].
  - intros p prev sn ms e _ _ _ HT. inversion HT.
  - intros p prev t e q k He HV HO P HT. destruct (vector_from_pos b p e q k P He HV).
    constructor; auto. apply zwidth_pos.
  - intros p prev sn ms e q k _ _ _ _ HT. inversion HT.
  - intros p prev tn e q v He HP HS IH P HT. auto.
  - intros p prev tn e q vs He HV HS IH P HT. inversion HT as [| | | | | | |? ? ? M]; subst.
    destruct (vector_from_pos b p e q _ P He HV). constructor; auto. apply IH; [lia|exact M].
  - intros p us e x k tn q v He _ _ HP HS IH P HT. auto.
  - intros slot tn _ _ v [].
  - intros slot tn q v vs HP HS IH1 _ IH2 P HT w Hw. inversion HT; subst. destruct Hw as [<-|Hw]; [auto|].
    apply IH2; auto; lia.
Qed.

(** What is stored for a field that is there. *)
Lemma field_cases : forall m s p prev t e v, stored_field m s p prev t e v -> insertable v ->
  match v with
  | Absent _ => e = 0
  | Scalar q w => 4 <= e /\ q = p + e
  | Scalars q k w => 4 <= e /\ points_to m (p + e) (q - 4) /\ t = TyScalars match t with TyScalars x => x | _ => SBool end
  | Tab tn q _ => 4 <= e /\ points_to m (p + e) q /\ (is_union t = false -> t = TyTable tn) /\
      (is_union t = true \/ t = TyTable tn)
  | Tabs tn q es => 4 <= e /\ points_to m (p + e) (q - 4) /\ t = TyTables tn
  | _ => False
  end.
Proof.
  intros m s p prev t e v H HT.
  destruct H as [p prev t U|p prev t e H1 H2|p prev sn ms e H1 H2|p prev t e q k H1 H2 H3|p prev sn ms e q k H1 H2 H3
    |p prev tn e q v H1 H2 H3|p prev tn e q vs H1 H2 H3|p us e x k tn q v H1 H2 H3 H4 H5|p us x H1|p us t H1];
    try (inversion HT; fail); auto.
  - destruct H2 as [H2 _]. auto.
  - destruct H3. cbn [is_union]. auto.
  - destruct H2 as [H2 _]. auto.
  - destruct H5. cbn [is_union]. repeat split; auto; try discriminate; apply H4.
Qed.
