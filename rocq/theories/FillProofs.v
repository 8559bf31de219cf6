(** Filling Go structs from tables and structs in a buffer with a journal. *)
From Coq Require Import ZArith List Bool Lia String.
From Coq Require Import Strings.Byte.
From Verif Require Import GoLib BaseModel GoLemmas BaseSpec BaseProofs TableModel TableSpec TableProofs.
From Verif Require Import TableProofs2 TableProofs3 NameModel NameSpec NameProofs NameProofs2.
From Verif Require Import WalkModel WalkSpec WalkProofs WalkProofs2 WalkProofs3 WalkProofs7.
From Verif Require Import InsSpec PutSpec PutProofs JourSpec JourProofs JourProofs2 JourProofs3 JourProofs8 JourProofs9 JourProofs10 DocModel DocSpec FillSpec.
From Verif Require PutProofs2 DocProofs.
From Verif Require Import UnmarshalModel UnmarshalSpec UnmarshalProofs.
Import ListNotations.
Open Scope list_scope.
Open Scope Z_scope.

Section Read.
Variable b : base.
Variable m : image.
Hypothesis HB : in_memory b.
Hypothesis HM : shows b m.

Lemma held_reads : forall p k req, 0 <= p -> 1 <= k -> 0 <= req -> held b p k ->
  exists s, base_r b p req = Ok (Some s) /\ k <= gs_len s /\ forall i, 0 <= i < k -> zget (sl_data s) i = m (p + i).
Proof.
  intros p k req Hp Hk Hr HH. destruct (TableProofs.whole_read b p k req HB Hp Hk Hr HH) as (s & S1 & S2 & S3).
  exists s. split; [exact S1|]. split; [exact S2|]. intros i Hi. rewrite S3 by exact Hi. apply (shown b m HB HM). lia.
Qed.

Lemma get_num : forall t p, 0 <= p -> occupied m p (zwidth t) -> held b p (zwidth t) -> exists v, get_scalar t b p = Ok v /\ num_at m p t v.
Proof.
  intros t p Hp HO HH. assert (W : 1 <= zwidth t) by (destruct t; cbn; lia).
  destruct (held_reads p (zwidth t) (match t with SInt8 => 0 | _ => zwidth t end) Hp W) as (s & S1 & S2 & S3);
    [destruct t; lia|exact HH|].
  unfold get_scalar. fold (zwidth t). rewrite S1. cbn [bind opt_data].
  set (l := zfirst (zwidth t) (sl_data s)).
  assert (LL : zlen l = zwidth t) by (unfold l; rewrite zlen_zfirst; unfold gs_len in S2; lia).
  assert (EQ : sl_data s = l ++ zskip (zwidth t) (sl_data s)) by (unfold l, zfirst, zskip; symmetry; apply firstn_skipn).
  assert (LN : List.length l = width t) by (unfold zlen, zwidth in LL; lia).
  assert (G : forall i, 0 <= i < zwidth t -> zget l i = m (p + i)).
  { intros i Hi. unfold l. rewrite zget_zfirst. replace (i <? zwidth t) with true by lia. apply S3. exact Hi. }
  rewrite EQ, scalar_get_prefix by exact LN.
  assert (EV : exists v, scalar_get t l = Ok v).
  { unfold scalar_get, get_le. replace (List.length l <? width t)%nat with false by (symmetry; apply Nat.ltb_ge; lia).
    cbn [bind]. eexists. reflexivity. }
  destruct EV as [v EV]. exists v. split; [exact EV|].
  assert (D : t = SBool \/ t <> SBool) by (destruct t; (left; reflexivity) || (right; discriminate)).
  destruct D as [->|D].
  - cbn [num_at]. destruct (HO 0 ltac:(cbn; lia)) as [x Hx]. rewrite Z.add_0_r in Hx. exists x. split; [exact Hx|].
    pose proof (G 0 ltac:(cbn; lia)) as G0. rewrite Z.add_0_r, Hx in G0.
    destruct l as [|y [|z l]]; cbn in LN; try lia. cbn in G0. injection G0 as ->.
    unfold scalar_get, get_le in EV. cbn in EV. rewrite Z.add_0_r in EV || idtac.
    injection EV as <-. rewrite ?Z.add_0_r. reflexivity.
  - destruct (scalar_decode_encode t l v D LN EV) as [R1 R2].
    assert (N : num_at m p t v <-> in_range t v /\ forall k, 0 <= k < zwidth t -> exists x, m (p + k) = Some x /\ b2z x = (v / 256 ^ k) mod 256)
      by (destruct t; try reflexivity; congruence).
    apply N. split; [exact R1|]. intros k Hk. destruct (scalar_bytes_digits t v R1) as [_ B].
    destruct (B k Hk) as (x & X1 & X2). exists x. split; [|exact X2]. rewrite R2, G in X1 by exact Hk. exact X1.
Qed.

Lemma get_string : forall q k, 0 <= k -> 4 <= q -> (k = 0 \/ held b q k) ->
  forall c z, c_node c = Some (q, z) -> z = k ->
  exists l, node_bytes b c = Ok l /\ zlen l = k /\ forall j, 0 <= j < k -> zget l j = m (q + j).
Proof.
  intros q k Hk Hq HO c z HC ->. unfold node_bytes. rewrite HC.
  destruct (Z.eq_dec k 0) as [->|NZ].
  - destruct (base_r_spec b q 0 HB ltac:(lia) ltac:(lia)) as (s & S1 & _). rewrite S1. cbn [bind].
    destruct s as [s|].
    + destruct (upto_data s 0) as (y & -> & Y2); [unfold gs_len; pose proof (zlen_nonneg (sl_data s)); lia|].
      cbn [bind]. eexists. split; [reflexivity|]. rewrite Y2. split; [rewrite zlen_zfirst; pose proof (zlen_nonneg (sl_data s)); lia|]. lia.
    + exists []. split; [reflexivity|]. split; [reflexivity|]. lia.
  - assert (HH : held b q k) by (destruct HO; [lia|assumption]).
    destruct (held_reads q k k ltac:(lia) ltac:(lia) ltac:(lia) HH) as (s & S1 & S2 & S3). rewrite S1. cbn [bind].
    destruct (upto_data s k ltac:(lia)) as (y & -> & Y2). cbn [bind]. eexists. split; [reflexivity|]. rewrite Y2.
    split; [rewrite zlen_zfirst; unfold gs_len in S2; lia|]. intros j Hj. rewrite zget_zfirst.
    replace (j <? k) with true by lia. apply S3. exact Hj.
Qed.
End Read.

Section Table.
Variable n : names.
Variable b : base.
Variable s : schema.
Variable m : image.
Hypothesis HB : in_memory b.
Hypothesis HM : shows b m.
Hypothesis HD : describes n s.

Lemma kept : forall tys vs l f, (forall i, names_field l f i -> match zget tys i with Some (TyScalar _) | Some (TyScalars _) => False | _ => True end) ->
  (forall i v, zget vs i = Some v -> exists t pv p e, 0 <= p + e /\ zget tys i = Some t /\ stored_field m s p pv t e v) ->
  received m tys vs l f f.
Proof.
  intros tys vs l f H HS. do 3 (split; [reflexivity|]). split.
  - intros i t q w N T _. specialize (H i N). rewrite T in H. contradiction.
  - split; [|split; [|reflexivity]].
    + intros i t N V. destruct (HS i _ V) as (t' & pv & p & e & _ & T & F). specialize (H i N). rewrite T in H.
      inversion F; subst; try contradiction; match goal with X : stored_table _ _ _ _ _ |- _ => inversion X end.
    + intros i q k N V. destruct (HS i _ V) as (t' & pv & p & e & _ & T & F). specialize (H i N). rewrite T in H.
      inversion F; subst; try contradiction; match goal with X : stored_table _ _ _ _ _ |- _ => inversion X end.
Qed.

(** What is needed of a node to fill Go fields from it. *)
Lemma fill : forall c tys vs l, field_names n (c_name c) l ->
  (forall i v, zget vs i = Some v -> exists t pv p e, 0 <= p + e /\ zget tys i = Some t /\ stored_field m s p pv t e v) ->
  zlen tys = zlen vs -> zlen l = zlen tys ->
  (forall i t, zget tys i = Some t -> exists g, group_at c i = g /\
     match t with
     | TyScalar t => says g [CBasic (width t)]
     | TyStruct _ _ => says g [CStruct]
     | TyTable _ => says g [CTable]
     | TyUnion _ => says g [CUnion]
     | TyScalars t => says g [CSlice; CBasic (width t)]
     | TyStructs _ _ | TyTables _ => says g [CSlice; CTable]
     end) ->
  (forall i t v, zget tys i = Some (TyScalar t) -> zget vs i = Some v -> exists x, field_at n b c i = Ok x /\
     (typed n (c_name c) i t -> c_name x = scalar_name t true) /\
     match v with
     | Scalar q _ => exists z, c_node x = Some (q, z)
     | _ => c_node x = None
     end) ->
  (forall i t q k, zget tys i = Some (TyScalars t) -> zwidth t = 1 -> zget vs i = Some (Scalars q k 1) -> exists x,
     field_at n b c i = Ok x /\ c_node x = Some (q, k)) ->
  forall fs, Forall (fits n (c_name c) tys vs l) fs -> Forall (in_reach b vs l) fs ->
  exists fs', unmarshal n b c (PStruct fs) = Ok (Filled fs') /\ Forall2 (received m tys vs l) fs fs'.
Proof.
  intros c tys vs l HN HS HL1 HL2 HG HA HV' fs HFit HRe. unfold unmarshal.
  destruct (collect_forall2 _ _ (set_field n b c) (received m tys vs l) fs) as (fs' & F1 & F2).
  2: { exists fs'. rewrite F1. split; [reflexivity|exact F2]. }
  intros f Hf. rewrite Forall_forall in HFit. specialize (HFit f Hf). rewrite Forall_forall in HRe. specialize (HRe f Hf). unfold set_field.
  destruct (g_tag f) as [st|] eqn:ET.
  2: { exists f. split; [reflexivity|]. apply kept; [|exact HS]. intros i (x & X & _). congruence. }
  unfold set_tagged. destruct (index_of n (c_name c) l st HN) as (o & -> & HO).
  assert (NF : forall i, names_field l f i <-> o = Some i).
  { intros i. split.
    - intros (x & X1 & X2). apply HO. congruence.
    - intros X. exists st. split; [exact ET|apply HO; exact X]. }
  destruct o as [i|].
  2: { exists f. split; [reflexivity|]. apply kept; [|exact HS]. intros i N. apply NF in N. discriminate. }
  assert (NI : names_field l f i) by (apply NF; reflexivity).
  assert (UN : forall j, names_field l f j -> j = i) by (intros j J; apply NF in J; congruence).
  assert (RI : 0 <= i < zlen l) by (eapply zget_some_range; apply HO; reflexivity).
  destruct (zget_some tys i ltac:(lia)) as [ty HT]. destruct (zget_some vs i ltac:(lia)) as [v HV].
  destruct (HG i ty HT) as (g & -> & G).
  destruct (HS i v HV) as (ty' & pv & p & e & P0 & HT' & HSF). assert (ty' = ty) by congruence. subst ty'.
  specialize (HFit i NI). rewrite HT in HFit.
  assert (KEEP : match ty with TyScalar _ | TyScalars _ => False | _ => True end -> received m tys vs l f f).
  { intros K. apply kept; [|exact HS]. intros j J. rewrite (UN j J), HT. destruct ty; exact K. }
  destruct ty as [t|sn ms|tn|us|t|sn ms|tn].
  - destruct (says_tests _ _ G) as (T1 & _ & T3 & _ & T5 & T6). rewrite ?T1, ?T3, ?T5, ?T6.
    assert (L : has [CBasic (width t)] 1 = false /\ has [CBasic (width t)] 3 = false /\ has [CBasic (width t)] 4 = false /\
      (has [CBasic (width t)] 5 || (has [CBasic (width t)] 6 || (has [CBasic (width t)] 7 || (has [CBasic (width t)] 8 || false)))) = true)
      by (destruct (width_cases t) as [W|[W|[W|W]]]; rewrite W; repeat split; reflexivity).
    destruct L as (-> & -> & -> & ->). cbn [andb].
    destruct HFit as (F1 & F2 & F3). destruct (HA i t v HT HV) as (x & -> & X2 & X3). cbn [bind].
    rewrite (X2 F3), method_name. unfold node_num.
    assert (DONE : forall w, (forall q u, v = Scalar q u -> num_at m q t w) -> (is_absent v = true -> w = 0) ->
      exists y, set_num f t w = Ok y /\ received m tys vs l f y).
    { intros w W1 W2. rewrite (set_num_ok f t w F1 F2). eexists. split; [reflexivity|].
      split; [reflexivity|]. split; [reflexivity|]. split; [reflexivity|]. cbn [g_val]. split; [|split; [|split]].
      - intros j t' q u J T V. rewrite (UN j J) in *. assert (t' = t) by congruence. subst t'. exists w. split; [reflexivity|].
        apply (W1 q u). congruence.
      - intros j t' J V. rewrite (UN j J) in V. assert (E : v = Absent (TyScalar t')) by congruence. subst v.
        assert (t' = t) by (inversion HSF; congruence). subst t'. rewrite W2 by reflexivity. reflexivity.
      - intros j q k J V. rewrite (UN j J) in V. assert (E : v = Scalars q k 1) by congruence. subst v. inversion HSF.
      - intros K. specialize (K i NI). rewrite HT in K. contradiction. }
    inversion HSF; subst.
    + rewrite X3. apply DONE; [discriminate|reflexivity].
    + destruct X3 as [z ->].
      pose proof (HRe i _ NI HV) as HH. cbn [reached] in HH.
      destruct (get_num b m HB HM t (p + e) ltac:(lia) ltac:(assumption) HH) as (w & -> & W). cbn [bind].
      apply DONE; [intros q u E; injection E as <- <-; exact W|discriminate].
  - destruct (says_tests _ _ G) as (T1 & _ & T3 & _ & T5 & T6). rewrite ?T1, ?T3, ?T5, ?T6. exists f. split; [reflexivity|]. apply KEEP. exact I.
  - destruct (says_tests _ _ G) as (T1 & _ & T3 & _ & T5 & T6). rewrite ?T1, ?T3, ?T5, ?T6. exists f. split; [reflexivity|]. apply KEEP. exact I.
  - destruct (says_tests _ _ G) as (T1 & _ & T3 & _ & T5 & T6). rewrite ?T1, ?T3, ?T5, ?T6. exists f. split; [reflexivity|]. apply KEEP. exact I.
  - destruct HFit as (F1 & F2 & F3 & F4). destruct (says_tests _ _ G) as (T1 & _ & T3 & _ & T5 & T6). rewrite ?T1, ?T3, ?T5, ?T6.
    assert (W : width t = 1%nat) by (unfold zwidth in F3; lia). rewrite W. cbn.
    inversion HSF; subst; [exfalso; apply F4; exact HV|]. rewrite F3 in *.
    destruct (HV' i t q k HT F3 HV) as (x & -> & X2). cbn [bind].
    match goal with H : vector_from _ _ _ _ |- _ => destruct H as [[V1 V2] V3] end.
    assert (K0 : 0 <= k) by (destruct V3; lia).
    assert (Q : 4 <= q) by lia.
    pose proof (HRe i _ NI HV) as HH. cbn [reached] in HH. replace (k * 1) with k in HH by lia.
    replace (k * 1) with k in * by lia.
    destruct (get_string b m HB HM q k K0 Q HH x k X2 eq_refl) as (bs & -> & B2 & B3). cbn [bind].
    unfold set_bytes. rewrite F1, F2. cbn [andb]. eexists. split; [reflexivity|].
    split; [reflexivity|]. split; [cbn [g_set]; symmetry; exact F1|]. split; [cbn [g_type]; symmetry; exact F2|]. cbn [g_val]. split; [|split; [|split]].
    + intros j t' q' u J T V. rewrite (UN j J) in *. congruence.
    + intros j t' J V. rewrite (UN j J) in V. congruence.
    + intros j q' k' J V. rewrite (UN j J) in V. assert (E : Scalars q k 1 = Scalars q' k' 1) by congruence. injection E as <- <-.
      exists bs. auto.
    + intros K. specialize (K i NI). rewrite HT in K. contradiction.
  - destruct (says_tests _ _ G) as (T1 & _ & T3 & _ & T5 & T6). rewrite ?T1, ?T3, ?T5, ?T6. exists f. split; [reflexivity|]. apply KEEP. exact I.
  - destruct (says_tests _ _ G) as (T1 & _ & T3 & _ & T5 & T6). rewrite ?T1, ?T3, ?T5, ?T6. exists f. split; [reflexivity|]. apply KEEP. exact I.
Qed.

Lemma fill_table_j : forall name p sz tys vs l fs, stored_table m s name p (Tab name p vs) -> intact b m (Tab name p vs) -> s name = Some tys ->
  field_names n name l -> zlen l = zlen tys -> Forall (fits n name tys vs l) fs -> Forall (in_reach b vs l) fs ->
  exists fs', unmarshal n b (new_node n (Some (p, sz)) no_vinfo name) (PStruct fs) = Ok (Filled fs') /\
    Forall2 (received m tys vs l) fs fs'.
Proof.
  intros name p sz tys vs l fs HS HI Hs HN HL HFit HRe.
  assert (X : exists soff es tl, table_at m p soff es tl /\ 0 <= soff /\ stored_fields m s p None tys es vs).
  { inversion HS; subst. assert (tys0 = tys) by congruence. subst. eauto 6. }
  destruct X as (soff & es & tl & T & Hso & HSF). pose proof (ta_vpos _ _ _ _ _ T) as TV.
  pose proof (proj1 (stored_seen b m s HB HM) name p _ HS HI) as SEE.
  assert (INV : exists so2 es2 l2, seen_at b p so2 es2 l2 /\ 0 <= so2 /\ seen_fields b s p None tys es2 vs).
  { clear - SEE Hs. inversion SEE as [? ? so2 es2 l2 tys2 ? Hs2 T2 Hso2 SF2]; subst. rewrite Hs in Hs2. injection Hs2 as <-. exists so2, es2, l2. auto. }
  destruct INV as (so2 & es2 & l2 & T2 & Hso2 & SF2).
  destruct (fields_nth_j b s p None tys es2 vs SF2) as (_ & _ & NJ).
  destruct (PutProofs.fields_of m s p None tys es vs HSF) as (L1 & L2 & N).
  destruct (table_node n s HD name tys (Some (p, sz)) no_vinfo Hs) as (S1 & S2 & S3 & S4).
  apply (fill (new_node n (Some (p, sz)) no_vinfo name)); rewrite ?new_node_name; auto.
  - intros i v Hv. destruct (N i v Hv) as (t & e & pv & A1 & A2 & A3 & _). exists t, pv, p, e. split; [inversion A3; subst; lia|]. auto.
  - intros i t Ht. destruct (S4 i t Ht) as (typ & g & G1 & G2 & G3 & G4). exists g. split; [exact G1|].
    destruct t; cbn [field_described] in G3; tauto.
  - intros i t v Ht Hv. destruct (NJ i v Hv) as (t' & e & pv & A1 & A2 & A3 & _). assert (t' = TyScalar t) by congruence. subst t'.
    pose proof (field_at_stored_j n b s HD name p sz so2 es2 l2 tys i _ e pv v Hs T2 Hso2 Ht A2 A3) as FA.
    eexists. split; [exact FA|]. split.
    + intros TY. assert (E : field_type_name n (tnode_at n name p sz) i = scalar_name t true)
        by (eapply typed_name; [exact TY|apply new_node_name]).
      rewrite E. inversion A3; subst; cbn [field_node]; apply new_node_name.
    + inversion A3; subst; cbn [field_node]; rewrite new_node_node; eauto.
  - intros i t q k Ht W Hv. destruct (NJ i _ Hv) as (t' & e & pv & A1 & A2 & A3 & _). assert (t' = TyScalars t) by congruence. subst t'.
    pose proof (field_at_stored_j n b s HD name p sz so2 es2 l2 tys i _ e pv _ Hs T2 Hso2 Ht A2 A3) as FA.
    eexists. split; [exact FA|]. cbn [field_node Z.eqb]. apply new_node_node.
Qed.
End Table.

Section Struct.
Variable n : names.
Variable b : base.
Variable m : image.
Hypothesis HB : in_memory b.
Hypothesis HM : shows b m.

Lemma fill_struct_j : forall name ms p sz l fs, struct_described n name ms -> members_described n name ms ->
  0 <= p -> occupied m p (struct_size ms) -> field_names n name l -> zlen l = zlen ms ->
  Forall (fits n name (map TyScalar ms) (member_vals p ms) l) fs -> Forall (in_reach b (member_vals p ms) l) fs ->
  exists fs', unmarshal n b (new_node n (Some (p, sz)) no_vinfo name) (PStruct fs) = Ok (Filled fs') /\
    Forall2 (received m (map TyScalar ms) (member_vals p ms) l) fs fs'.
Proof.
  intros name ms p sz l fs HS HMe Hp HO HN HL HFit HRe.
  assert (LM : zlen (map TyScalar ms) = zlen ms) by (unfold zlen; rewrite map_length; reflexivity).
  assert (MS : forall i t, zget (map TyScalar ms) i = Some t -> exists u, t = TyScalar u /\ zget ms i = Some u).
  { intros i t H. rewrite zget_map in H. destruct (zget ms i) as [u|]; [|discriminate]. injection H as <-. eauto. }
  apply (fill n b (fun _ => None) m HB HM (new_node n (Some (p, sz)) no_vinfo name)); rewrite ?new_node_name; auto.
  - intros i v Hv. destruct (member_at _ _ _ _ Hv) as (t & T1 & -> & T3 & T4).
    exists (TyScalar t), None, (p + struct_size (zfirst i ms) - 4), 4. rewrite zget_map, T1. split; [lia|]. split; [reflexivity|].
    replace (Scalar (p + struct_size (zfirst i ms)) (zwidth t))
      with (Scalar (p + struct_size (zfirst i ms) - 4 + 4) (zwidth t)) by (f_equal; lia).
    apply Sv_scalar; [lia|]. intros k Hk. destruct (HO (struct_size (zfirst i ms) + k) ltac:(lia)) as [x X].
    exists x. rewrite <- X. f_equal. lia.
  - rewrite member_vals_len. exact LM.
  - rewrite LM. exact HL.
  - intros i t Ht. destruct (MS i t Ht) as (u & -> & U). destruct (HMe i u U) as (g & G1 & G2). exists g. split; [|exact G2].
    destruct HS as (_ & _ & S3 & _). unfold group_of in G1. destruct (lookup (n_groups n) name) as [gl|] eqn:GL; [|discriminate].
    unfold group_at, new_node, fetch_index. cbn [c_name]. destruct (lookup (n_idxname n) name); [|congruence].
    cbn [c_groups]. rewrite (sub_lookup _ _ _ _ GL), G1. reflexivity.
  - intros i t v Ht Hv. destruct (MS i _ Ht) as (u & E & U). injection E as <-.
    destruct (member_at _ _ _ _ Hv) as (t' & T1 & -> & _). assert (t' = t) by congruence. subst t'.
    destruct (struct_node n name ms (Some (p, sz)) no_vinfo HS) as (S1 & _ & S3 & S4).
    pose proof (zget_some_range _ _ _ U) as R.
    eexists. split; [unfold field_at; rewrite new_node_node, new_node_name, S1; cbn [bind]; reflexivity|].
    rewrite new_node_name, new_node_node. split.
    + intros TY. eapply typed_name; [exact TY|apply new_node_name].
    + rewrite S3, (sum_prefix ms _ i S4) by lia. eauto.
  - intros i t q k Ht. destruct (MS i _ Ht) as (u & E & _). discriminate.
Qed.
End Struct.

(** After a sequence of calls *)
Section After.
Variable n : names.
Variable s : schema.
Hypothesis HD : describes n s.

Lemma reach_kept : forall m name p tys vs l b b' ts fs, stored_table m s name p (Tab name p vs) -> s name = Some tys ->
  (forall a k, 1 <= k -> left_whole b ts a k -> held b' a k) -> Forall (in_reach_after b ts vs l) fs -> Forall (in_reach b' vs l) fs.
Proof.
  intros m name p tys vs l b b' ts fs HS Hs K. apply Forall_impl. intros f HR i v Hi Hv. specialize (HR i v Hi Hv).
  inversion HS as [? ? so es tl tys' ? Hs' T Hso SF]; subst.
  destruct (PutProofs.fields_of m s _ None _ es vs SF) as (_ & _ & N). destruct (N _ _ Hv) as (t' & e0 & pv & _ & _ & N3 & _). clear - N3 HR K.
  assert (W : forall t, 1 <= zwidth t) by (intros []; cbn; lia).
  destruct v; cbn [reached reached_after] in *; try exact I; inversion N3; subst; try (match goal with X : stored_table _ _ _ _ _ |- _ => inversion X end).
  - apply K; auto.
  - match goal with X : vector_from _ _ _ _ |- _ => destruct X as [_ [X _]] end.
    destruct HR as [HR|HR]; [left; exact HR|]. destruct (Z.eq_dec k 0) as [->|NZ]; [left; reflexivity|right].
    apply K; [|exact HR]. match goal with |- context [zwidth ?t] => specialize (W t) end. nia.
Qed.

Lemma fill_after : forall m v cs ts m' v', changes n s m v cs ts m' v' -> forall b name p, in_memory b -> shows b m ->
  stored_table m s name p v -> intact b m v ->
  exists b' k, (forall fuel, (k <= fuel)%nat -> run_calls n fuel b cs = Ok b') /\
    forall tn tp vs tys l fs sz, In (Tab tn tp vs) (tables v') -> s tn = Some tys -> field_names n tn l -> zlen l = zlen tys ->
    Forall (fits n tn tys vs l) fs -> Forall (in_reach_after b ts vs l) fs ->
    exists fs', unmarshal n b' (new_node n (Some (tp, sz)) no_vinfo tn) (PStruct fs) = Ok (Filled fs') /\
      Forall2 (received m' tys vs l) fs fs'.
Proof.
  intros m v cs ts m' v' HC b name p HB HM H HI.
  destruct (DocProofs.calls_done n s HD m v cs ts m' v' HC b name p HB HM H HI) as (b' & k & R & HB' & HM' & S' & I' & L & _).
  exists b', k. split; [exact R|]. intros tn tp vs tys l fs sz HT Hs HN HL HF HR.
  destruct (proj1 (PutProofs2.tables_stored m' s v') name p S' _ HT) as (nm & q & gs & E & ST). injection E as <- <- <-.
  apply (fill_table_j n b' s m' HB' HM' HD); auto.
  - exact (intact_inside b' m' v' _ I' HT).
  - eapply reach_kept; eauto.
Qed.
End After.

(** Checks for samples *)
Definition reached_b (b : base) (v : val) : bool :=
  match v with
  | Scalar q w => held_b b q w
  | Scalars q k w => (k =? 0) || held_b b q (k * w)
  | _ => true
  end.

Lemma reached_sound : forall b v, reached_b b v = true -> reached b v.
Proof.
  intros b v H. destruct v; cbn [reached reached_b] in *; try exact I; [apply held_sound; exact H|].
  apply orb_true_iff in H. destruct H as [H|H]; [left; lia|right; apply held_sound; exact H].
Qed.

Definition in_reach_b (b : base) (vs : list val) (l : list string) (f : gfield) : bool :=
  match g_tag f with
  | None => true
  | Some x => forallb (fun p => negb (String.eqb (fst p) x) || reached_b b (snd p)) (combine l vs)
  end.

Lemma combine_zget : forall (l : list string) (vs : list val) i x v, zget l i = Some x -> zget vs i = Some v -> In (x, v) (combine l vs).
Proof.
  intros l vs i x v Hx Hv. pose proof (zget_some_range _ _ _ Hx) as [R _].
  unfold zget in *. destruct (i <? 0) eqn:E; [lia|]. generalize dependent (Z.to_nat i). clear. intros k. revert vs k.
  induction l as [|y l IH]; intros [|w vs] [|k]; cbn; try discriminate; intros A B.
  - injection A as ->. injection B as ->. left. reflexivity.
  - right. eapply IH; eauto.
Qed.

Lemma in_reach_sound : forall b vs l fs, forallb (in_reach_b b vs l) fs = true -> Forall (in_reach b vs l) fs.
Proof.
  intros b vs l fs H. apply Forall_forall. intros f Hf. rewrite forallb_forall in H. specialize (H f Hf).
  intros i v (x & X1 & X2) Hv. unfold in_reach_b in H. rewrite X1, forallb_forall in H.
  specialize (H _ (combine_zget l vs i x v X2 Hv)). cbn [fst snd] in H. rewrite String.eqb_refl in H. apply reached_sound. exact H.
Qed.

Definition untouched_b (a k : Z) (t : trace) : bool :=
  forallb (fun r => (a + k <=? fst r) || (fst r + snd r <=? a)) (touched t).

Lemma untouched_sound : forall a k ts, forallb (untouched_b a k) ts = true -> Forall (untouched a k) ts.
Proof.
  intros a k ts H. rewrite forallb_forall in H. apply Forall_forall. intros t Ht. specialize (H t Ht). unfold untouched_b in H.
  rewrite forallb_forall in H. apply Forall_forall. intros r Hr. specialize (H r Hr). unfold disjoint. lia.
Qed.

Fixpoint given_b (ts : list trace) (a k : Z) : bool :=
  match ts with
  | [] => false
  | t :: ts' => given_b ts' a k ||
      (existsb (fun g => (fst g <=? a) && (a + k <=? fst g + zlen (snd g))) (given t) && forallb (untouched_b a k) ts')
  end.

Definition left_b (b : base) (ts : list trace) (a k : Z) : bool :=
  given_b ts a k || (held_b b a k && forallb (untouched_b a k) ts).

Lemma left_sound : forall b ts a k, left_b b ts a k = true -> left_whole b ts a k.
Proof.
  intros b ts a k H. unfold left_b in H. apply orb_true_iff in H. destruct H as [H|H].
  - left. induction ts as [|t ts IH]; [discriminate|]. cbn [given_b] in H. apply orb_true_iff in H. destruct H as [H|H].
    + destruct (IH H) as (ts1 & t' & ts2 & a0 & x & -> & R). exists (t :: ts1), t', ts2, a0, x. split; [reflexivity|exact R].
    + apply andb_true_iff in H. destruct H as [H1 H2]. apply existsb_exists in H1. destruct H1 as ([a0 x] & G1 & G2). cbn [fst snd] in G2.
      exists nil, t, ts, a0, x. split; [reflexivity|]. split; [exact G1|]. split; [lia|]. split; [lia|]. apply untouched_sound. exact H2.
  - right. apply andb_true_iff in H. destruct H as [H1 H2]. split; [apply held_sound; exact H1|apply untouched_sound; exact H2].
Qed.

Definition reached_after_b (b : base) (ts : list trace) (v : val) : bool :=
  match v with
  | Scalar q w => left_b b ts q w
  | Scalars q k w => (k =? 0) || left_b b ts q (k * w)
  | _ => true
  end.

Definition after_b (b : base) (ts : list trace) (vs : list val) (l : list string) (f : gfield) : bool :=
  match g_tag f with
  | None => true
  | Some x => forallb (fun p => negb (String.eqb (fst p) x) || reached_after_b b ts (snd p)) (combine l vs)
  end.

Lemma after_sound : forall b ts vs l fs, forallb (after_b b ts vs l) fs = true -> Forall (in_reach_after b ts vs l) fs.
Proof.
  intros b ts vs l fs H. apply Forall_forall. intros f Hf. rewrite forallb_forall in H. specialize (H f Hf).
  intros i v (x & X1 & X2) Hv. unfold after_b in H. rewrite X1, forallb_forall in H.
  specialize (H _ (combine_zget l vs i x v X2 Hv)). cbn [fst snd] in H. rewrite String.eqb_refl in H. cbn [negb orb] in H.
  destruct v; cbn [reached_after reached_after_b] in *; try exact I; [apply left_sound; exact H|].
  apply orb_true_iff in H. destruct H as [H|H]; [left; lia|right; apply left_sound; exact H].
Qed.
