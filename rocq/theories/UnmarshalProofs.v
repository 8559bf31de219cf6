(** Filling Go structs from stored tables and structs. *)
From Coq Require Import ZArith List Bool Lia String.
From Coq Require Import Strings.Byte.
From Verif Require Import GoLib BaseModel GoLemmas BaseSpec BaseProofs TableModel TableSpec TableProofs.
From Verif Require Import TableProofs2 TableProofs3 NameModel NameSpec NameProofs NameProofs2.
From Verif Require Import WalkModel WalkSpec WalkProofs WalkProofs2 WalkProofs3 WalkProofs7 UnmarshalModel UnmarshalSpec.
Import ListNotations.
Open Scope list_scope.
Open Scope Z_scope.

Lemma upto_data : forall s k, 0 <= k <= gs_len s -> exists y, gs_upto s k = Ok y /\ sl_data y = zfirst k (sl_data s).
Proof.
  intros s k H. unfold gs_upto, gs_range, gs_len, gs_cap in *. pose proof (zlen_nonneg (sl_spare s)).
  replace ((0 <=? 0) && (0 <=? k) && (k <=? zlen (sl_data s) + zlen (sl_spare s))) with true by lia.
  eexists. split; [reflexivity|]. cbn [sl_data]. rewrite ?zskip_0.
  apply zget_ext. intros i. rewrite !zget_zfirst, ?Z.sub_0_r, ?zget_app. destruct (i <? k) eqn:E; [|reflexivity].
  replace (i <? zlen (sl_data s)) with true by lia. reflexivity.
Qed.

Lemma method_name : forall t, method (scalar_name t true) = Some t.
Proof. intros t. destruct t; reflexivity. Qed.

Lemma occupied_len : forall l p k, 0 <= p -> 1 <= k -> occupied (img_bytes l) p k -> p + k <= zlen l.
Proof.
  intros l p k Hp Hk H. destruct (H (k - 1) ltac:(lia)) as [x Hx]. unfold img_bytes in Hx. apply zget_some_range in Hx. lia.
Qed.

Section Flat.
Variable b : base.
Hypothesis HF : flat b.
Local Notation m := (img_bytes (sl_data (b_bytes b))).

Lemma flat_reads : forall p k req, 0 <= p -> 1 <= k -> 0 <= req -> occupied m p k ->
  exists s, base_r b p req = Ok (Some s) /\ k <= gs_len s /\ forall i, 0 <= i < k -> zget (sl_data s) i = m (p + i).
Proof.
  intros p k req Hp Hk Hr HO. pose proof (occupied_len _ _ _ Hp Hk HO) as L.
  destruct (whole_read b p k req (flat_in_memory b HF) Hp Hk Hr) as (s & S1 & S2 & S3).
  - destruct HF as [_ ->]. apply whole_flat. exact L.
  - exists s. split; [exact S1|]. split; [exact S2|]. intros i Hi. rewrite S3 by exact Hi. apply flat_content. exact HF.
Qed.

Lemma get_num : forall t p, 0 <= p -> occupied m p (zwidth t) -> exists v, get_scalar t b p = Ok v /\ num_at m p t v.
Proof.
  intros t p Hp HO. assert (W : 1 <= zwidth t) by (destruct t; cbn; lia).
  destruct (flat_reads p (zwidth t) (match t with SInt8 => 0 | _ => zwidth t end) Hp W) as (s & S1 & S2 & S3);
    [destruct t; lia|exact HO|].
  unfold get_scalar. fold (zwidth t). rewrite S1. cbn [bind opt_data].
  set (l := zfirst (zwidth t) (sl_data s)).
  assert (LL : zlen l = zwidth t) by (unfold l; rewrite zlen_zfirst; unfold gs_len in S2; lia).
  assert (EQ : sl_data s = l ++ zskip (zwidth t) (sl_data s)) by (unfold l, zfirst, zskip; symmetry; apply firstn_skipn).
  assert (LN : List.length l = width t) by (unfold zlen, zwidth in LL; lia).
  assert (G : forall i, 0 <= i < zwidth t -> zget l i = m (p + i)).
  { intros i Hi. unfold l. rewrite zget_zfirst. replace (i <? zwidth t) with true by lia. apply S3. exact Hi. }
  rewrite EQ, scalar_get_prefix by exact LN.
  assert (EV : exists v, scalar_get t l = Ok v).
  { unfold scalar_get, get_le. replace (List.length l <? width t)%nat with false by (symmetry; apply Nat.ltb_ge; lia).
    cbn [bind]. eexists. reflexivity. }
  destruct EV as [v EV]. exists v. split; [exact EV|].
  assert (D : t = SBool \/ t <> SBool) by (destruct t; (left; reflexivity) || (right; discriminate)).
  destruct D as [->|D].
  - cbn [num_at]. destruct (HO 0 ltac:(cbn; lia)) as [x Hx]. rewrite Z.add_0_r in Hx. exists x. split; [exact Hx|].
    pose proof (G 0 ltac:(cbn; lia)) as G0. rewrite Z.add_0_r, Hx in G0.
    destruct l as [|y [|z l]]; cbn in LN; try lia. cbn in G0. injection G0 as ->.
    unfold scalar_get, get_le in EV. cbn in EV. rewrite Z.add_0_r in EV || idtac.
    injection EV as <-. rewrite ?Z.add_0_r. reflexivity.
  - destruct (scalar_decode_encode t l v D LN EV) as [R1 R2].
    assert (N : num_at m p t v <-> in_range t v /\ forall k, 0 <= k < zwidth t -> exists x, m (p + k) = Some x /\ b2z x = (v / 256 ^ k) mod 256)
      by (destruct t; try reflexivity; congruence).
    apply N. split; [exact R1|]. intros k Hk. destruct (scalar_bytes_digits t v R1) as [_ B].
    destruct (B k Hk) as (x & X1 & X2). exists x. split; [|exact X2]. rewrite R2, G in X1 by exact Hk. exact X1.
Qed.

Lemma get_string : forall q k, 0 <= k -> 4 <= q -> occupied m (q - 4) 4 -> occupied m q k ->
  forall c z, c_node c = Some (q, z) -> z = k ->
  exists l, node_bytes b c = Ok l /\ zlen l = k /\ forall j, 0 <= j < k -> zget l j = m (q + j).
Proof.
  intros q k Hk Hq H4 HO c z HC ->. unfold node_bytes. rewrite HC.
  destruct (Z.eq_dec k 0) as [->|NZ].
  - destruct (base_r_spec b q 0 (flat_in_memory b HF) ltac:(lia) ltac:(lia)) as (s & S1 & _). rewrite S1. cbn [bind].
    destruct s as [s|].
    + destruct (upto_data s 0) as (y & -> & Y2); [unfold gs_len; pose proof (zlen_nonneg (sl_data s)); lia|].
      cbn [bind]. eexists. split; [reflexivity|]. rewrite Y2. split; [rewrite zlen_zfirst; pose proof (zlen_nonneg (sl_data s)); lia|]. lia.
    + exists []. split; [reflexivity|]. split; [reflexivity|]. lia.
  - destruct (flat_reads q k k ltac:(lia) ltac:(lia) ltac:(lia) HO) as (s & S1 & S2 & S3). rewrite S1. cbn [bind].
    destruct (upto_data s k ltac:(lia)) as (y & -> & Y2). cbn [bind]. eexists. split; [reflexivity|]. rewrite Y2.
    split; [rewrite zlen_zfirst; unfold gs_len in S2; lia|]. intros j Hj. rewrite zget_zfirst.
    replace (j <? k) with true by lia. apply S3. exact Hj.
Qed.
End Flat.

Lemma set_num_ok : forall f t v, g_set f = true -> holds (g_type f) t -> set_num f t v = Ok (mkG (g_tag f) (g_set f) (g_type f) (VNum t v)).
Proof.
  intros f t v H1 H2. unfold set_num. rewrite H1. cbn [andb].
  assert (E : match g_type f with GNum u => scalar_eqb (go_type u) (go_type t) | GAny => true | _ => false end = true).
  { destruct H2 as [->|[->|[[-> ->]|[-> ->]]]]; try reflexivity. destruct t; reflexivity. }
  rewrite E. reflexivity.
Qed.

Lemma collect_forall2 : forall A B (F : A -> res B) (P : A -> B -> Prop) l,
  (forall x, In x l -> exists y, F x = Ok y /\ P x y) -> exists ys, collect F l = Ok ys /\ Forall2 P l ys.
Proof.
  intros A B F P l H. induction l as [|x l IH]; [exists []; split; [reflexivity|constructor]|].
  destruct (H x (or_introl eq_refl)) as (y & Y1 & Y2). destruct IH as (ys & I1 & I2); [intros z HI; apply H; right; exact HI|].
  exists (y :: ys). cbn [collect]. rewrite Y1. cbn [bind]. rewrite I1. split; [reflexivity|constructor; auto].
Qed.

Section Table.
Variable n : names.
Variable b : base.
Variable s : schema.
Hypothesis HF : flat b.
Hypothesis HD : describes n s.
Local Notation m := (img_bytes (sl_data (b_bytes b))).

(** One index at most has the name. *)
Lemma index_of : forall name l st, field_names n name l -> exists o, lookup (sub (n_nameidx n) name) st = o /\
  forall i, o = Some i <-> zget l i = Some st.
Proof.
  intros name l st (mm & M1 & M2). eexists. split; [reflexivity|]. intros i. rewrite (sub_lookup _ _ _ _ M1). apply M2.
Qed.

Lemma kept : forall tys vs l f, (forall i, names_field l f i -> match zget tys i with Some (TyScalar _) | Some (TyScalars _) => False | _ => True end) ->
  (forall i v, zget vs i = Some v -> exists t pv p e, zget tys i = Some t /\ stored_field m s p pv t e v) ->
  received m tys vs l f f.
Proof.
  intros tys vs l f H HS. do 3 (split; [reflexivity|]). split.
  - intros i t q w N T _. specialize (H i N). rewrite T in H. contradiction.
  - split; [|split; [|reflexivity]].
    + intros i t N V. destruct (HS i _ V) as (t' & pv & p & e & T & F). specialize (H i N). rewrite T in H.
      inversion F; subst; try contradiction; match goal with X : stored_table _ _ _ _ _ |- _ => inversion X end.
    + intros i q k N V. destruct (HS i _ V) as (t' & pv & p & e & T & F). specialize (H i N). rewrite T in H.
      inversion F; subst; try contradiction; match goal with X : stored_table _ _ _ _ _ |- _ => inversion X end.
Qed.

(** What is needed of a node to fill Go fields from it. *)
Lemma fill : forall c tys vs l, field_names n (c_name c) l ->
  (forall i v, zget vs i = Some v -> exists t pv p e, zget tys i = Some t /\ stored_field m s p pv t e v) ->
  zlen tys = zlen vs -> zlen l = zlen tys ->
  (forall i t, zget tys i = Some t -> exists g, group_at c i = g /\
     match t with
     | TyScalar t => says g [CBasic (width t)]
     | TyStruct _ _ => says g [CStruct]
     | TyTable _ => says g [CTable]
     | TyUnion _ => says g [CUnion]
     | TyScalars t => says g [CSlice; CBasic (width t)]
     | TyStructs _ _ | TyTables _ => says g [CSlice; CTable]
     end) ->
  (forall i t v, zget tys i = Some (TyScalar t) -> zget vs i = Some v -> exists x, field_at n b c i = Ok x /\
     (typed n (c_name c) i t -> c_name x = scalar_name t true) /\
     match v with
     | Scalar q _ => exists z, c_node x = Some (q, z)
     | _ => c_node x = None
     end) ->
  (forall i t q k, zget tys i = Some (TyScalars t) -> zwidth t = 1 -> zget vs i = Some (Scalars q k 1) -> exists x,
     field_at n b c i = Ok x /\ c_node x = Some (q, k)) ->
  forall fs, Forall (fits n (c_name c) tys vs l) fs ->
  exists fs', unmarshal n b c (PStruct fs) = Ok (Filled fs') /\ Forall2 (received m tys vs l) fs fs'.
Proof.
  intros c tys vs l HN HS HL1 HL2 HG HA HB fs HFit. unfold unmarshal.
  destruct (collect_forall2 _ _ (set_field n b c) (received m tys vs l) fs) as (fs' & F1 & F2).
  2: { exists fs'. rewrite F1. split; [reflexivity|exact F2]. }
  intros f Hf. rewrite Forall_forall in HFit. specialize (HFit f Hf). unfold set_field.
  destruct (g_tag f) as [st|] eqn:ET.
  2: { exists f. split; [reflexivity|]. apply kept; [|exact HS]. intros i (x & X & _). congruence. }
  unfold set_tagged. destruct (index_of (c_name c) l st HN) as (o & -> & HO).
  assert (NF : forall i, names_field l f i <-> o = Some i).
  { intros i. split.
    - intros (x & X1 & X2). apply HO. congruence.
    - intros X. exists st. split; [exact ET|apply HO; exact X]. }
  destruct o as [i|].
  2: { exists f. split; [reflexivity|]. apply kept; [|exact HS]. intros i N. apply NF in N. discriminate. }
  assert (NI : names_field l f i) by (apply NF; reflexivity).
  assert (UN : forall j, names_field l f j -> j = i) by (intros j J; apply NF in J; congruence).
  assert (RI : 0 <= i < zlen l) by (eapply zget_some_range; apply HO; reflexivity).
  destruct (zget_some tys i ltac:(lia)) as [ty HT]. destruct (zget_some vs i ltac:(lia)) as [v HV].
  destruct (HG i ty HT) as (g & -> & G).
  destruct (HS i v HV) as (ty' & pv & p & e & HT' & HSF). assert (ty' = ty) by congruence. subst ty'.
  specialize (HFit i NI). rewrite HT in HFit.
  assert (KEEP : match ty with TyScalar _ | TyScalars _ => False | _ => True end -> received m tys vs l f f).
  { intros K. apply kept; [|exact HS]. intros j J. rewrite (UN j J), HT. destruct ty; exact K. }
  destruct ty as [t|sn ms|tn|us|t|sn ms|tn].
  - destruct (says_tests _ _ G) as (T1 & _ & T3 & _ & T5 & T6). rewrite ?T1, ?T3, ?T5, ?T6.
    assert (L : has [CBasic (width t)] 1 = false /\ has [CBasic (width t)] 3 = false /\ has [CBasic (width t)] 4 = false /\
      (has [CBasic (width t)] 5 || (has [CBasic (width t)] 6 || (has [CBasic (width t)] 7 || (has [CBasic (width t)] 8 || false)))) = true)
      by (destruct (width_cases t) as [W|[W|[W|W]]]; rewrite W; repeat split; reflexivity).
    destruct L as (-> & -> & -> & ->). cbn [andb].
    destruct HFit as (F1 & F2 & F3). destruct (HA i t v HT HV) as (x & -> & X2 & X3). cbn [bind].
    rewrite (X2 F3), method_name. unfold node_num.
    assert (DONE : forall w, (forall q u, v = Scalar q u -> num_at m q t w) -> (is_absent v = true -> w = 0) ->
      exists y, set_num f t w = Ok y /\ received m tys vs l f y).
    { intros w W1 W2. rewrite (set_num_ok f t w F1 F2). eexists. split; [reflexivity|].
      split; [reflexivity|]. split; [reflexivity|]. split; [reflexivity|]. cbn [g_val]. split; [|split; [|split]].
      - intros j t' q u J T V. rewrite (UN j J) in *. assert (t' = t) by congruence. subst t'. exists w. split; [reflexivity|].
        apply (W1 q u). congruence.
      - intros j t' J V. rewrite (UN j J) in V. assert (E : v = Absent (TyScalar t')) by congruence. subst v.
        assert (t' = t) by (inversion HSF; congruence). subst t'. rewrite W2 by reflexivity. reflexivity.
      - intros j q k J V. rewrite (UN j J) in V. assert (E : v = Scalars q k 1) by congruence. subst v. inversion HSF.
      - intros K. specialize (K i NI). rewrite HT in K. contradiction. }
    inversion HSF; subst.
    + rewrite X3. apply DONE; [discriminate|reflexivity].
    + destruct X3 as [z ->].
      assert (P : 0 <= p + e).
      { match goal with H : occupied _ _ _ |- _ => destruct (H 0) as [y Y]; [destruct t; cbn; lia|] end.
        unfold img_bytes in Y. apply zget_some_range in Y. lia. }
      destruct (get_num b HF t (p + e) P ltac:(assumption)) as (w & -> & W). cbn [bind].
      apply DONE; [intros q u E; injection E as <- <-; exact W|discriminate].
  - destruct (says_tests _ _ G) as (T1 & _ & T3 & _ & T5 & T6). rewrite ?T1, ?T3, ?T5, ?T6. exists f. split; [reflexivity|]. apply KEEP. exact I.
  - destruct (says_tests _ _ G) as (T1 & _ & T3 & _ & T5 & T6). rewrite ?T1, ?T3, ?T5, ?T6. exists f. split; [reflexivity|]. apply KEEP. exact I.
  - destruct (says_tests _ _ G) as (T1 & _ & T3 & _ & T5 & T6). rewrite ?T1, ?T3, ?T5, ?T6. exists f. split; [reflexivity|]. apply KEEP. exact I.
  - destruct HFit as (F1 & F2 & F3 & F4). destruct (says_tests _ _ G) as (T1 & _ & T3 & _ & T5 & T6). rewrite ?T1, ?T3, ?T5, ?T6.
    assert (W : width t = 1%nat) by (unfold zwidth in F3; lia). rewrite W. cbn.
    inversion HSF; subst; [exfalso; apply F4; exact HV|]. rewrite F3 in *.
    destruct (HB i t q k HT F3 HV) as (x & -> & X2). cbn [bind].
    match goal with H : vector_from _ _ _ _ |- _ => destruct H as [[V1 V2] V3] end.
    assert (V4 : occupied m (q - 4) 4).
    { intros j Hj. destruct V3 as [_ V3]. destruct (V3 j ltac:(lia)) as (y & Y & _). eauto. }
    assert (K0 : 0 <= k) by (destruct V3; lia).
    assert (Q : 4 <= q).
    { destruct (V4 0 ltac:(lia)) as [y Y]. unfold img_bytes in Y. apply zget_some_range in Y. lia. }
    replace (k * 1) with k in * by lia.
    destruct (get_string b HF q k K0 Q V4 ltac:(assumption) x k X2 eq_refl) as (bs & -> & B2 & B3). cbn [bind].
    unfold set_bytes. rewrite F1, F2. cbn [andb]. eexists. split; [reflexivity|].
    split; [reflexivity|]. split; [cbn [g_set]; symmetry; exact F1|]. split; [cbn [g_type]; symmetry; exact F2|]. cbn [g_val]. split; [|split; [|split]].
    + intros j t' q' u J T V. rewrite (UN j J) in *. congruence.
    + intros j t' J V. rewrite (UN j J) in V. congruence.
    + intros j q' k' J V. rewrite (UN j J) in V. assert (E : Scalars q k 1 = Scalars q' k' 1) by congruence. injection E as <- <-.
      exists bs. auto.
    + intros K. specialize (K i NI). rewrite HT in K. contradiction.
  - destruct (says_tests _ _ G) as (T1 & _ & T3 & _ & T5 & T6). rewrite ?T1, ?T3, ?T5, ?T6. exists f. split; [reflexivity|]. apply KEEP. exact I.
  - destruct (says_tests _ _ G) as (T1 & _ & T3 & _ & T5 & T6). rewrite ?T1, ?T3, ?T5, ?T6. exists f. split; [reflexivity|]. apply KEEP. exact I.
Qed.

Lemma typed_name : forall name i t c, typed n name i t -> c_name c = name -> field_type_name n c i = scalar_name t true.
Proof. intros name i t c (l & L1 & L2) E. unfold field_type_name. rewrite E, (sub_lookup _ _ _ _ L1), L2. reflexivity. Qed.

Lemma fill_table : forall name p sz tys vs l fs, stored_table m s name p (Tab name p vs) -> s name = Some tys ->
  field_names n name l -> zlen l = zlen tys -> Forall (fits n name tys vs l) fs ->
  exists fs', unmarshal n b (new_node n (Some (p, sz)) no_vinfo name) (PStruct fs) = Ok (Filled fs') /\
    Forall2 (received m tys vs l) fs fs'.
Proof.
  intros name p sz tys vs l fs HS Hs HN HL HFit.
  assert (X : exists soff es tl, table_at m p soff es tl /\ 0 <= soff /\ stored_fields m s p None tys es vs).
  { inversion HS; subst. assert (tys0 = tys) by congruence. subst. eauto 6. }
  destruct X as (soff & es & tl & T & Hso & HSF).
  destruct (fields_nth b s p None tys es vs HSF) as (L1 & L2 & N).
  destruct (table_node n s HD name tys (Some (p, sz)) no_vinfo Hs) as (S1 & S2 & S3 & S4).
  apply (fill (new_node n (Some (p, sz)) no_vinfo name)); rewrite ?new_node_name; auto.
  - intros i v Hv. destruct (N i v Hv) as (t & e & pv & A1 & A2 & A3 & _). exists t, pv, p, e. auto.
  - intros i t Ht. destruct (S4 i t Ht) as (typ & g & G1 & G2 & G3 & G4). exists g. split; [exact G1|].
    destruct t; cbn [field_described] in G3; tauto.
  - intros i t v Ht Hv. destruct (N i v Hv) as (t' & e & pv & A1 & A2 & A3 & _). assert (t' = TyScalar t) by congruence. subst t'.
    pose proof (field_at_stored n b s HF HD name p sz soff es tl tys i _ e pv v Hs T Hso Ht A2 A3) as FA.
    eexists. split; [exact FA|]. split.
    + intros TY. assert (E : field_type_name n (tnode_at n name p sz) i = scalar_name t true)
        by (eapply typed_name; [exact TY|apply new_node_name]).
      rewrite E. inversion A3; subst; cbn [field_node]; apply new_node_name.
    + inversion A3; subst; cbn [field_node]; rewrite new_node_node; eauto.
  - intros i t q k Ht W Hv. destruct (N i _ Hv) as (t' & e & pv & A1 & A2 & A3 & _). assert (t' = TyScalars t) by congruence. subst t'.
    pose proof (field_at_stored n b s HF HD name p sz soff es tl tys i _ e pv _ Hs T Hso Ht A2 A3) as FA.
    eexists. split; [exact FA|]. cbn [field_node Z.eqb]. apply new_node_node.
Qed.
End Table.

Lemma member_at : forall ms p i v, zget (member_vals p ms) i = Some v ->
  exists t, zget ms i = Some t /\ v = Scalar (p + struct_size (zfirst i ms)) (zwidth t) /\
    0 <= struct_size (zfirst i ms) /\ struct_size (zfirst i ms) + zwidth t <= struct_size ms.
Proof.
  induction ms as [|t ms IH]; intros p i v H; cbn [member_vals] in H; [rewrite zget_nil in H; discriminate|].
  pose proof (zget_some_range _ _ _ H) as R. rewrite zget_cons in H. assert (W : 1 <= zwidth t) by (destruct t; cbn; lia).
  assert (E : forall l, struct_size (t :: l) = zwidth t + struct_size l) by reflexivity.
  pose proof (struct_size_nonneg ms) as N. rewrite !E. destruct (i =? 0) eqn:I.
  - assert (i = 0) by lia. subst i. injection H as <-. exists t. cbn [zfirst Z.to_nat firstn]. change (struct_size []) with 0.
    rewrite Z.add_0_r. split; [reflexivity|]. split; [reflexivity|]. lia.
  - destruct (IH _ _ _ H) as (u & U1 & U2 & U3 & U4). exists u. rewrite zget_cons, I. split; [exact U1|].
    assert (F : zfirst i (t :: ms) = t :: zfirst (i - 1) ms).
    { unfold zfirst. replace (Z.to_nat i) with (S (Z.to_nat (i - 1))) by lia. reflexivity. }
    rewrite F, E. split; [rewrite U2; f_equal; lia|]. lia.
Qed.

Lemma member_vals_len : forall ms p, zlen (member_vals p ms) = zlen ms.
Proof. induction ms as [|t ms IH]; intros p; [reflexivity|]. cbn [member_vals]. rewrite !zlen_cons, IH. reflexivity. Qed.

Section Struct.
Variable n : names.
Variable b : base.
Hypothesis HF : flat b.
Local Notation m := (img_bytes (sl_data (b_bytes b))).

Lemma fill_struct : forall name ms p sz l fs, struct_described n name ms -> members_described n name ms ->
  0 <= p -> occupied m p (struct_size ms) -> field_names n name l -> zlen l = zlen ms ->
  Forall (fits n name (map TyScalar ms) (member_vals p ms) l) fs ->
  exists fs', unmarshal n b (new_node n (Some (p, sz)) no_vinfo name) (PStruct fs) = Ok (Filled fs') /\
    Forall2 (received m (map TyScalar ms) (member_vals p ms) l) fs fs'.
Proof.
  intros name ms p sz l fs HS HM Hp HO HN HL HFit.
  assert (LM : zlen (map TyScalar ms) = zlen ms) by (unfold zlen; rewrite map_length; reflexivity).
  assert (MS : forall i t, zget (map TyScalar ms) i = Some t -> exists u, t = TyScalar u /\ zget ms i = Some u).
  { intros i t H. rewrite zget_map in H. destruct (zget ms i) as [u|]; [|discriminate]. injection H as <-. eauto. }
  apply (fill n b (fun _ => None) HF (new_node n (Some (p, sz)) no_vinfo name)); rewrite ?new_node_name; auto.
  - intros i v Hv. destruct (member_at _ _ _ _ Hv) as (t & T1 & -> & T3 & T4).
    exists (TyScalar t), None, (p + struct_size (zfirst i ms) - 4), 4. rewrite zget_map, T1. split; [reflexivity|].
    replace (Scalar (p + struct_size (zfirst i ms)) (zwidth t))
      with (Scalar (p + struct_size (zfirst i ms) - 4 + 4) (zwidth t)) by (f_equal; lia).
    apply Sv_scalar; [lia|]. intros k Hk. destruct (HO (struct_size (zfirst i ms) + k) ltac:(lia)) as [x X].
    exists x. rewrite <- X. f_equal. lia.
  - rewrite member_vals_len. exact LM.
  - rewrite LM. exact HL.
  - intros i t Ht. destruct (MS i t Ht) as (u & -> & U). destruct (HM i u U) as (g & G1 & G2). exists g. split; [|exact G2].
    destruct HS as (_ & _ & S3 & _). unfold group_of in G1. destruct (lookup (n_groups n) name) as [gl|] eqn:GL; [|discriminate].
    unfold group_at, new_node, fetch_index. cbn [c_name]. destruct (lookup (n_idxname n) name); [|congruence].
    cbn [c_groups]. rewrite (sub_lookup _ _ _ _ GL), G1. reflexivity.
  - intros i t v Ht Hv. destruct (MS i _ Ht) as (u & E & U). injection E as <-.
    destruct (member_at _ _ _ _ Hv) as (t' & T1 & -> & _). assert (t' = t) by congruence. subst t'.
    destruct (struct_node n name ms (Some (p, sz)) no_vinfo HS) as (S1 & _ & S3 & S4).
    pose proof (zget_some_range _ _ _ U) as R.
    eexists. split; [unfold field_at; rewrite new_node_node, new_node_name, S1; cbn [bind]; reflexivity|].
    rewrite new_node_name, new_node_node. split.
    + intros TY. eapply typed_name; [exact TY|apply new_node_name].
    + rewrite S3, (sum_prefix ms _ i S4) by lia. eauto.
  - intros i t q k Ht. destruct (MS i _ Ht) as (u & E & _). discriminate.
Qed.
End Struct.

(** Only what [reflect] finds wrong with the argument is an error. *)
Lemma outcomes : forall n b c t o, unmarshal n b c t = Ok o ->
  match t with NoPointer => o = MustPointer | Pointer => o = InvalidType | PStruct fs => exists fs', o = Filled fs' end.
Proof.
  intros n b c [| |fs] o H; cbn in H; try congruence. destruct (collect _ fs) as [r| |]; cbn in H; try discriminate.
  injection H as <-. eauto.
Qed.
