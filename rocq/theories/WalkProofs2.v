(** Vectors, unions and sizes in buffers of a schema. *)
From Coq Require Import ZArith List Bool Lia String.
From Coq Require Import Strings.Byte.
From Verif Require Import GoLib BaseModel GoLemmas BaseSpec BaseProofs TableModel TableSpec TableProofs.
From Verif Require Import TableProofs2 NameModel NameSpec NameProofs NameProofs2 WalkModel WalkSpec WalkProofs.
Import ListNotations.
Open Scope list_scope.
Open Scope Z_scope.

Section Schema.
Variable n : names.
Variable b : base.
Variable s : schema.
Hypothesis HF : flat b.
Hypothesis HD : describes n s.

Local Notation m := (img_bytes (sl_data (b_bytes b))).
Local Notation tnode_at := (tnode_at n).
Local Notation field_node := (field_node n).

Lemma zget_in : forall A (l : list A) i x, zget l i = Some x -> In x l.
Proof.
  intros A l i x H. unfold zget in H. destruct (i <? 0); [discriminate|]. eapply nth_error_In; eauto.
Qed.

(** ** Vectors *)

Lemma vec_len_at : forall nd q z k name, 4 <= q -> holds_uint m (q - 4) 4 k ->
  vec_len b (new_node n (Some nd) (mkV q z k) name) = Ok k.
Proof.
  intros nd q z k name Hq H. unfold vec_len. rewrite new_node_node, new_node_info. cbn [v_pos].
  apply flat_rd; auto; lia.
Qed.

Lemma vec_outside : forall nd q z k e i, 4 <= q -> holds_uint m (q - 4) 4 k -> i < 0 \/ k <= i ->
  vec_at n b (new_node n (Some nd) (mkV q z k) ("[]" ++ e)%string) i = Ok None.
Proof.
  intros nd q z k e i Hq H Hi. unfold vec_at. rewrite new_node_name, new_node_info. cbn [v_len].
  rewrite is_list_spec. cbn [bind negb]. rewrite (vec_len_at _ _ _ _ _ Hq H). cbn [bind].
  replace ((k <=? i) || (i <? 0)) with true by lia. reflexivity.
Qed.

Lemma scalar_name_group : forall e t, lookup name_to_type e = Some t ->
  get_type_group n e = Ok (type_to_group t) /\ is_field_basic (type_to_group t) = true /\
  is_field_struct (type_to_group t) = false.
Proof.
  intros e t H. unfold get_type_group. rewrite H. split; [reflexivity|]. destruct t; split; reflexivity.
Qed.

Lemma vec_at_scalar : forall nd q z k e t i, 4 <= q -> holds_uint m (q - 4) 4 k ->
  lookup name_to_type e = Some t -> 0 <= i < k ->
  vec_at n b (new_node n (Some nd) (mkV q z k) ("[]" ++ e)%string) i =
  Ok (Some (new_node n (Some (q + i * zwidth t, -1)) no_vinfo e)).
Proof.
  intros nd q z k e t i Hq H He Hi. unfold vec_at. rewrite new_node_name, new_node_info. cbn [v_len v_pos].
  rewrite is_list_spec. cbn [bind negb]. rewrite (vec_len_at _ _ _ _ _ Hq H). cbn [bind].
  change (str_from2 ("[]" ++ e)%string) with (Ok e). cbn [bind].
  replace ((k <=? i) || (i <? 0)) with false by lia.
  destruct (scalar_name_group e t He) as (G1 & G2 & G3). rewrite G1. cbn. rewrite G2. cbn [orb].
  unfold inline_elem_size. rewrite new_node_name, G1. cbn [bind]. rewrite G2.
  unfold name_size. rewrite He. fold (zwidth t).
  destruct (0 <? i) eqn:E; cbn [bind]; [reflexivity|]. replace i with 0 by lia. reflexivity.
Qed.

Lemma vec_at_struct : forall nd q z k sn ms i, 4 <= q -> holds_uint m (q - 4) 4 k ->
  struct_described n sn ms -> 0 <= i < k ->
  vec_at n b (new_node n (Some nd) (mkV q z k) ("[]" ++ sn)%string) i =
  Ok (Some (new_node n (Some (q + i * struct_size ms, -1)) no_vinfo sn)).
Proof.
  intros nd q z k sn ms i Hq H He Hi. unfold vec_at. rewrite new_node_name, new_node_info. cbn [v_len v_pos].
  rewrite is_list_spec. cbn [bind negb]. rewrite (vec_len_at _ _ _ _ _ Hq H). cbn [bind].
  change (str_from2 ("[]" ++ sn)%string) with (Ok sn). cbn [bind].
  replace ((k <=? i) || (i <? 0)) with false by lia.
  pose proof (struct_sum n sn ms None no_vinfo He) as SS. cbv zeta in SS.
  destruct He as (_ & (g & G1 & G2) & _). rewrite G1. cbn [bind].
  destruct (says_tests _ _ G2) as (T1 & T2 & T3 & T4 & T5 & T6). rewrite T1, T6. cbn.
  unfold inline_elem_size. rewrite new_node_name, G1. cbn [bind]. rewrite T6. cbn.
  rewrite SS. destruct (0 <? i) eqn:E; cbn [bind]; [reflexivity|]. replace i with 0 by lia. reflexivity.
Qed.

Lemma elems_nth : forall slot tn vs, stored_elems m s slot tn vs ->
  forall i v, zget vs i = Some v ->
    exists t, points_to m (slot + 4 * i) t /\ stored_table m s tn t v.
Proof.
  intros slot tn vs H. induction H as [|slot tn q v vs H1 H2 H3 IH]; intros i w Hi.
  - rewrite zget_nil in Hi. discriminate.
  - rewrite zget_cons in Hi. destruct (i =? 0) eqn:E.
    + injection Hi as <-. exists q. replace (slot + 4 * i) with slot by lia. auto.
    + destruct (IH (i - 1) w Hi) as (t & T1 & T2). exists t. split; auto.
      replace (slot + 4 * i) with (slot + 4 + 4 * (i - 1)) by lia. exact T1.
Qed.

Lemma table_head : forall name p v, stored_table m s name p v ->
  exists sl, base_r b p 4 = Ok (Some sl).
Proof.
  intros name p v H. destruct H as [name p soff es tl tys fs H1 H2 H3 H4].
  pose proof (ta_vpos _ _ _ _ _ H2) as [HP _]. pose proof (ta_soff _ _ _ _ _ H2) as HS.
  pose proof (flat_rd 4 b p _ HF HP ltac:(lia) HS) as R.
  unfold rd in R. change (Z.of_nat 4) with 4 in R. destruct (base_r b p 4) as [[sl|]| |]; try discriminate; eauto.
Qed.

Lemma vec_at_table : forall nd q z tn vs i v, 4 <= q -> holds_uint m (q - 4) 4 (zlen vs) ->
  table_described n tn -> stored_elems m s q tn vs -> zget vs i = Some v ->
  vec_at n b (new_node n (Some nd) (mkV q z (zlen vs)) ("[]" ++ tn)%string) i =
  Ok (Some (tnode_at tn (val_pos v) (-1))).
Proof.
  intros nd q z tn vs i v Hq H He HE Hv. unfold vec_at. rewrite new_node_name, new_node_info. cbn [v_len v_pos].
  rewrite is_list_spec. cbn [bind negb]. rewrite (vec_len_at _ _ _ _ _ Hq H). cbn [bind].
  change (str_from2 ("[]" ++ tn)%string) with (Ok tn). cbn [bind].
  pose proof (zget_some_range _ _ _ Hv) as Hi.
  replace ((zlen vs <=? i) || (i <? 0)) with false by lia.
  destruct He as (_ & g & G1 & G2). rewrite G1. cbn [bind].
  destruct (says_tests _ _ G2) as (T1 & T2 & T3 & T4 & T5 & T6). rewrite T1, T6. cbn.
  destruct (elems_nth q tn vs HE i v Hv) as (t & (P1 & P2) & P3).
  replace (q + 4 * i) with (q + i * 4) in * by lia.
  rewrite (flat_rd 4 b (q + i * 4) _ HF ltac:(lia) ltac:(lia) P2). cbn [bind].
  replace (q + i * 4 + (t - (q + i * 4))) with t by lia.
  destruct (table_head tn t v P3) as (sl & ->). cbn [bind].
  rewrite (load_table b s HF _ _ _ P3). cbn [bind].
  destruct (stored_pos b s _ _ _ P3) as (_ & -> & _). reflexivity.
Qed.

(** ** Unions *)

Lemma vector_from_pos : forall p e q k, 0 <= p -> 4 <= e -> vector_from m (p + e) q k ->
  4 <= q /\ holds_uint m (q - 4) 4 k.
Proof. intros p e q k Hp He ((H1 & _) & H2). split; [lia|exact H2]. Qed.

(** The type byte of the union at index [i]. *)
Lemma type_byte : forall name p sz soff es tl tys fs i pv,
  s name = Some tys -> table_at m p soff es tl -> 0 <= soff -> stored_fields m s p None tys es fs ->
  0 < i -> zget fs (i - 1) = Some pv ->
  forall k, (exists x, pv = Scalar x 1 /\ holds_uint m x 1 k) \/
            (exists t, pv = Absent (TyScalar t) /\ k = 0) ->
  exists f, field_at n b (tnode_at name p sz) (i - 1) = Ok f /\ node_byte b f = Ok k.
Proof.
  intros name p sz soff es tl tys fs i pv Hs T Hso HSF Hi Hpv k Hk.
  destruct (fields_nth b s p None tys es fs HSF) as (_ & _ & N).
  destruct (N (i - 1) pv Hpv) as (t & e & pv' & Ht & He & Hf & _).
  rewrite (field_at_stored n b s HF HD name p sz soff es tl tys (i - 1) t e pv' pv Hs T Hso Ht He Hf).
  eexists. split; [reflexivity|].
  destruct Hk as [(x & -> & Hx)|(t' & -> & ->)]; unfold node_byte; cbn [WalkProofs.field_node]; rewrite new_node_node.
  - apply flat_rd; auto. pose proof (pos_entry b p soff es tl T). inversion Hf; subst; try lia.
    all: match goal with H : stored_table _ _ _ _ (Scalar _ _) |- _ => inversion H end.
  - reflexivity.
Qed.

Lemma follow_stored : forall name p sz soff es tl tys fs i us,
  s name = Some tys -> table_at m p soff es tl -> 0 <= soff -> stored_fields m s p None tys es fs ->
  zget tys i = Some (TyUnion us) -> forall v, zget fs i = Some v ->
  (exists tn q fs', v = Tab tn q fs' /\ stored_table m s tn q v /\ In tn us /\
     can_follow n b (tnode_at name p sz) i = Ok true /\
     table_ref b p i = Ok q /\
     follow_union n b (tnode_at name p sz) i = Ok (Some (tnode_at tn q (-1)))) \/
  (v = Absent (TyUnion us) /\ can_follow n b (tnode_at name p sz) i = Ok false /\
     table_ref b p i = Ok (-1) /\
     follow_union n b (tnode_at name p sz) i = Ok None).
Proof.
  intros name p sz soff es tl tys fs i us Hs T Hso HSF Ht v Hv.
  destruct (fields_nth b s p None tys es fs HSF) as (_ & _ & N).
  destruct (N i v Hv) as (t & e & pv & Ht' & He & Hf & P0 & P1).
  rewrite Ht in Ht'. injection Ht' as <-.
  assert (Hi : 0 < i /\ exists w, zget fs (i - 1) = Some w /\ pv = Some w).
  { pose proof (zget_some_range _ _ _ Hv). destruct (Z.eq_dec i 0) as [->|].
    - rewrite (P0 eq_refl) in Hf. inversion Hf; subst; discriminate.
    - split; [lia|]. apply P1. lia. }
  destruct Hi as (Hi & w & Hw & ->).
  pose proof (field_at_stored n b s HF HD name p sz soff es tl tys i (TyUnion us) e (Some w) v Hs T Hso Ht He Hf) as FA.
  destruct (table_node n s HD name tys (Some (p, sz)) no_vinfo Hs) as (S1 & S2 & S3 & S4).
  destruct (S4 i _ Ht) as (typ & g & G1 & G2 & G3 & _). fold (tnode_at name p sz) in *.
  cbn [field_described] in G3. destruct G3 as (_ & GU & GL).
  pose proof (type_byte name p sz soff es tl tys fs i w Hs T Hso HSF Hi Hw) as TB.
  destruct (conforming_access b p soff es tl HF T Hso) as (_ & _ & A).
  destruct (A i e He) as (_ & _ & A3 & A4).
  inversion Hf; subst; try discriminate.
  - left. match goal with H : stored_table _ _ _ _ _ |- _ => pose proof H as HST; destruct (stored_pos b s _ _ _ H) as (_ & _ & tys' & fs' & -> & HTS) end.
    destruct (TB (k + 1)) as (f & F1 & F2); [left; eauto|].
    exists tn, q, fs'. split; [reflexivity|]. split; [exact HST|].
    split; [eapply zget_in; eauto|].
    match goal with H : zget us k = _ |- _ => pose proof (zget_some_range _ _ _ H) as HR; rename H into HU end.
    split; [unfold can_follow; rewrite F1; cbn [bind]; rewrite F2; cbn [bind]; f_equal; lia|].
    split; [eapply table_ref_at; eauto|].
    unfold follow_union. rewrite F1. cbn [bind]. rewrite F2. cbn [bind].
    replace (k + 1 - 1) with k by lia. rewrite Z.mod_small by lia.
    rewrite (sub_lookup _ _ _ _ GU), HU, FA. cbn [bind WalkProofs.field_node].
    rewrite new_node_node, new_node_info. do 2 f_equal. rewrite fetch_registered; [reflexivity|].
    destruct (HD tn tys' HTS) as (_ & _ & l & L & _). congruence.
  - right. destruct (TB 0) as (f & F1 & F2); [left; eauto|]. split; [reflexivity|].
    split; [unfold can_follow; rewrite F1; cbn [bind]; rewrite F2; reflexivity|].
    split; [auto|].
    unfold follow_union. rewrite F1. cbn [bind]. rewrite F2. cbn [bind].
    change ((0 - 1) mod 256) with 255. rewrite (sub_lookup _ _ _ _ GU).
    rewrite zget_ge by lia. reflexivity.
  - right. destruct (TB 0) as (f & F1 & F2); [right; eauto|]. split; [reflexivity|].
    split; [unfold can_follow; rewrite F1; cbn [bind]; rewrite F2; reflexivity|].
    split; [auto|].
    unfold follow_union. rewrite F1. cbn [bind]. rewrite F2. cbn [bind].
    change ((0 - 1) mod 256) with 255. rewrite (sub_lookup _ _ _ _ GU).
    rewrite zget_ge by lia. reflexivity.
Qed.

(** ** Sizes of vectors *)

Definition good_info (info : cnode -> res vinfo) : Prop :=
  (forall c, c_node c = None -> info c = Ok no_vinfo) /\
  (forall sn ms q sz, struct_described n sn ms ->
     info (new_node n (Some (q, sz)) no_vinfo sn) = Ok (mkV q (struct_size ms) 0)).

Lemma node_info_good : forall f, good_info (node_info n b (S f)).
Proof.
  intros f. split.
  - intros c H. cbn [node_info]. unfold info_step. rewrite H. reflexivity.
  - intros sn ms q sz H. cbn [node_info]. unfold info_step. rewrite new_node_node, new_node_name.
    pose proof (struct_sum n sn ms (Some (q, sz)) no_vinfo H) as SS. cbv zeta in SS.
    destruct (struct_node n sn ms (Some (q, sz)) no_vinfo H) as (S1 & (g & G1 & G2) & _).
    rewrite G1. cbn [bind]. destruct (says_tests _ _ G2) as (T1 & T2 & T3 & T4 & T5 & T6). rewrite T6. cbn.
    rewrite S1, SS. reflexivity.
Qed.

Lemma max_index_ok : forall info es i best pos,
  Forall (fun e => exists p v, c_node e = Some p /\ info e = Ok v) es ->
  exists r, max_index info es i best pos = Ok r /\ (r = best \/ i <= r < i + zlen es) /\
    (i = 0 -> es <> [] -> 0 <= r).
Proof.
  intros info es. induction es as [|e es IH]; intros i best pos H; cbn [max_index].
  - exists best. split; [reflexivity|]. split; [auto|]. congruence.
  - inversion H as [|? ? (p & v & Hp & Hv) HT]; subst. rewrite Hp. destruct p as [p sz].
    rewrite Hv. cbn [bind]. rewrite zlen_cons. pose proof (zlen_nonneg es).
    destruct (i =? 0) eqn:E0.
    + cbn [orb]. destruct (IH (i + 1) i (p + v_size v) HT) as (r & R1 & R2 & _). exists r. split; [exact R1|].
      split; [lia|]. lia.
    + cbn [orb]. destruct (pos <? p + v_size v).
      * destruct (IH (i + 1) i (p + v_size v) HT) as (r & R1 & R2 & _). exists r. split; [exact R1|].
        split; [lia|]. lia.
      * destruct (IH (i + 1) best pos HT) as (r & R1 & R2 & _). exists r. split; [exact R1|]. split; [lia|]. lia.
Qed.

Lemma last_forall2 : forall A B (R : A -> B -> Prop) x es v vs d, R x v -> Forall2 R es vs ->
  exists y, zget (x :: es) (zlen (x :: es) - 1) = Some y /\ R y (last (v :: vs) d).
Proof.
  intros A B R x es v vs d Hx HV. revert x v Hx. induction HV as [|y w es vs Hy HV IH]; intros x v Hx.
  - exists x. split; [reflexivity|exact Hx].
  - destruct (IH y w Hy) as (u & U1 & U2). exists u. split; [|exact U2].
    rewrite zget_cons, (zlen_cons x (y :: es)). pose proof (zlen_nonneg es). rewrite (zlen_cons y es) in *.
    replace (1 + (1 + zlen es) - 1 =? 0) with false by lia.
    replace (1 + (1 + zlen es) - 1 - 1) with (1 + zlen es - 1) by lia. exact U1.
Qed.

(** A vector whose elements are the nodes [es] with the sizes [vs]. *)
Lemma info_slice_elems : forall info nd q z e es vs,
  4 <= q -> holds_uint m (q - 4) 4 (zlen es) ->
  (exists g, get_type_group n e = Ok g /\ is_field_basic g = false) ->
  let c := new_node n (Some nd) (mkV q z (zlen es)) ("[]" ++ e)%string in
  (forall i x, zget es i = Some x -> vec_at n b c i = Ok (Some x)) ->
  Forall2 (fun x v => info x = Ok v /\ exists p, c_node x = Some p) es vs ->
  info_slice n b info c =
  Ok (mkV q (grow q (if zlen es =? 0 then 0 else -1) (last vs no_vinfo)) (zlen es)).
Proof.
  intros info nd q z e es vs Hq H (g & G1 & G2) c HA HV. unfold info_slice.
  assert (CI : c_info c = mkV q z (zlen es)) by apply new_node_info.
  assert (CN : c_name c = ("[]" ++ e)%string) by apply new_node_name.
  rewrite CI, CN. cbn [v_pos v_len].
  change (str_from2 ("[]" ++ e)%string) with (Ok e). cbn [bind]. rewrite G1. cbn [bind]. rewrite G2.
  assert (VL : vec_len b c = Ok (zlen es)) by (apply vec_len_at; auto).
  assert (AL : vec_all n b c = Ok es).
  { unfold vec_all. rewrite VL. cbn [bind]. rewrite CI. cbn [v_len].
    rewrite <- (zlen_map _ (@Some cnode) es).
    rewrite (collect_indexes _ _ (map Some es)).
    - cbn [bind]. f_equal. clear. induction es as [|x es IH]; cbn; [reflexivity|]. f_equal. exact IH.
    - intros i y Hy. rewrite zget_map in Hy. destruct (zget es i) eqn:E; [|discriminate].
      injection Hy as <-. apply HA. exact E. }
  assert (HI : Forall (fun e => exists p v, c_node e = Some p /\ info e = Ok v) es).
  { clear -HV. induction HV as [|x v es vs (H1 & p & H2) _ IH]; constructor; eauto. }
  destruct (max_index_ok info es 0 (-1) 0 HI) as (r & R1 & R2 & R3).
  unfold vec_last. rewrite VL. cbn [bind]. rewrite AL.
  assert (L : exists x, vec_at n b c (zlen es - 1) = Ok x /\
                match x with Some e => info e | None => Ok no_vinfo end = Ok (last vs no_vinfo)).
  { destruct HV as [|x v es vs Hx HV].
    - exists None. split; [|reflexivity]. apply vec_outside; auto. left. reflexivity.
    - destruct (last_forall2 _ _ _ x es v vs no_vinfo Hx HV) as (y & L1 & L2 & _).
      exists (Some y). split; [apply HA; exact L1|exact L2]. }
  destruct L as (x & -> & L). cbn [bind]. rewrite L. cbn [bind]. rewrite R1. cbn [bind].
  assert (M : exists y, vec_at n b c r = Ok y /\ exists w, match y with Some e => info e | None => Ok no_vinfo end = Ok w).
  { destruct (Z_lt_dec r 0).
    - exists None. split; [apply vec_outside; auto; lia|]. eauto.
    - destruct (zget_some es r) as [y Hy]; [lia|]. exists (Some y). split; [apply HA; auto|].
      rewrite Forall_forall in HI. destruct (HI y (zget_in _ _ _ _ Hy)) as (p & w & _ & W). eauto. }
  destruct M as (y & -> & w & M). cbn [bind]. rewrite M. cbn [bind]. reflexivity.
Qed.

End Schema.
