(** Field access in buffers of a schema. *)
From Coq Require Import ZArith List Bool Lia String.
From Coq Require Import Strings.Byte.
From Verif Require Import GoLib BaseModel GoLemmas BaseSpec BaseProofs TableModel TableSpec TableProofs.
From Verif Require Import NameModel NameSpec NameProofs ListModel ListProofs2 WalkModel WalkSpec.
Import ListNotations.
Open Scope list_scope.
Open Scope Z_scope.

(** ** Groups *)

Definition bits (l : list class) : list Z := map class_bit l.
Definition has (l : list class) (k : Z) : bool := existsb (Z.eqb k) (bits l).

Lemma says_bit : forall g l k, says g l -> 0 <= k -> Z.testbit g k = has l k.
Proof.
  intros g l k H Hk. specialize (H k Hk). unfold has, bits.
  destruct (existsb (Z.eqb k) (map class_bit l)) eqn:E.
  - apply H. apply existsb_exists in E. destruct E as (x & Hx & E). apply Z.eqb_eq in E. subst x. auto.
  - destruct (Z.testbit g k) eqn:T; auto. exfalso. assert (T' : In k (map class_bit l)) by (apply H; reflexivity).
    assert (existsb (Z.eqb k) (map class_bit l) = true); [|congruence].
    apply existsb_exists. exists k. split; auto. apply Z.eqb_refl.
Qed.

Lemma says_tests : forall g l, says g l ->
  is_field_struct g = has l 1 /\ is_field_table g = has l 2 /\ is_field_union g = has l 3 /\
  is_field_slice g = has l 4 /\ is_field_bytes g = has l 4 && has l 5 /\
  is_field_basic g = has l 5 || (has l 6 || (has l 7 || (has l 8 || false))).
Proof.
  intros g l H. destruct (field_tests g) as (T1 & T2 & T3 & T4 & T5 & T6).
  rewrite T1, T2, T3, T4, T5, T6. cbn [class_bit existsb].
  rewrite !(says_bit _ _ _ H) by lia. repeat split.
Qed.

Lemma width_cases : forall t, width t = 1%nat \/ width t = 2%nat \/ width t = 4%nat \/ width t = 8%nat.
Proof. destruct t; cbn; auto. Qed.

(** ** Maps *)

Lemma indexes_in : forall k i, In i (indexes k) <-> 0 <= i < k.
Proof.
  intros k i. unfold indexes. rewrite in_map_iff. split.
  - intros (x & <- & Hx). apply in_seq in Hx. lia.
  - intros H. exists (Z.to_nat i). split; [lia|]. apply in_seq. lia.
Qed.

Lemma indexes_nodup : forall k, NoDup (indexes k).
Proof.
  intros k. unfold indexes. apply FinFun.Injective_map_NoDup; [|apply seq_NoDup].
  intros a b H. lia.
Qed.

Lemma indexes_length : forall k, List.length (indexes k) = Z.to_nat k.
Proof. intros k. unfold indexes. rewrite map_length, seq_length. reflexivity. Qed.

Lemma map_len_keys : forall A (l : list (Z * A)) k, 0 <= k -> keys_below l k -> map_len l = k.
Proof.
  intros A l k Hk H. unfold map_len.
  assert (E : List.length (nodup Z.eq_dec (map fst l)) = List.length (indexes k)).
  { apply Nat.le_antisymm; (apply NoDup_incl_length; [apply NoDup_nodup || apply indexes_nodup|]).
    - intros i Hi. rewrite nodup_In in Hi. apply indexes_in. apply H. apply in_map_iff in Hi.
      destruct Hi as ([j x] & <- & Hx). eauto.
    - intros i Hi. rewrite nodup_In. apply indexes_in in Hi. apply H in Hi. destruct Hi as [x Hx].
      apply in_map_iff. exists (i, x). auto. }
  rewrite E, indexes_length. lia.
Qed.

Lemma lookupz_none : forall A (l : list (Z * A)) k i, keys_below l k -> ~ 0 <= i < k -> lookupz l i = None.
Proof.
  intros A l k i H Hi. assert (N : forall x, ~ In (i, x) l) by (intros x Hx; apply Hi, H; eauto).
  clear H. induction l as [|[j y] l IH]; cbn [lookupz]; auto.
  destruct (j =? i) eqn:E.
  - apply Z.eqb_eq in E. subst j. exfalso. apply (N y). left. reflexivity.
  - apply IH. intros x Hx. apply (N x). right. exact Hx.
Qed.

Lemma sub_lookup : forall A (m : list (string * list A)) k l, lookup m k = Some l -> sub m k = l.
Proof. intros A m k l H. unfold sub. rewrite H. reflexivity. Qed.

Lemma collect_ok : forall A B (f : A -> res B) l ys, Forall2 (fun x y => f x = Ok y) l ys ->
  collect f l = Ok ys.
Proof.
  intros A B f l ys H. induction H as [|x y l ys Hx _ IH]; cbn [collect]; auto.
  rewrite Hx. cbn [bind]. rewrite IH. reflexivity.
Qed.

Lemma collect_indexes : forall B (f : Z -> res B) ys,
  (forall i y, zget ys i = Some y -> f i = Ok y) -> collect f (indexes (zlen ys)) = Ok ys.
Proof.
  intros B f ys H. apply collect_ok. unfold indexes, zlen. rewrite Nat2Z.id.
  assert (G : forall ys k, (forall i y, zget ys i = Some y -> f (k + i) = Ok y) -> 0 <= k ->
    Forall2 (fun x y => f x = Ok y) (map Z.of_nat (seq (Z.to_nat k) (List.length ys))) ys).
  { clear H ys. induction ys as [|y ys IH]; intros k H Hk; cbn [List.length seq map]; constructor.
    - rewrite Z2Nat.id by lia. rewrite <- (H 0 y); [f_equal; lia|]. rewrite zget_cons. reflexivity.
    - replace (S (Z.to_nat k)) with (Z.to_nat (k + 1)) by lia. apply IH; [|lia].
      intros i z Hz. replace (k + 1 + i) with (k + (i + 1)) by lia. apply H.
      rewrite zget_cons. apply zget_some_range in Hz as R.
      replace (i + 1 =? 0) with false by lia. replace (i + 1 - 1) with i by lia. exact Hz. }
  apply (G ys 0); [|lia]. intros i y Hy. rewrite Z.add_0_l. auto.
Qed.

(** ** Nodes of a schema *)

Section Schema.
Variable n : names.
Variable b : base.
Variable s : schema.
Hypothesis HF : flat b.
Hypothesis HD : describes n s.

Local Notation m := (img_bytes (sl_data (b_bytes b))).

Definition tnode_at (name : string) (p sz : Z) : cnode := new_node n (Some (p, sz)) no_vinfo name.

Lemma fetch_node : forall c, c_node (fetch_index n c) = c_node c.
Proof. intros c. unfold fetch_index. destruct lookup; reflexivity. Qed.
Lemma fetch_name : forall c, c_name (fetch_index n c) = c_name c.
Proof. intros c. unfold fetch_index. destruct lookup; reflexivity. Qed.
Lemma fetch_info : forall c, c_info (fetch_index n c) = c_info c.
Proof. intros c. unfold fetch_index. destruct lookup; reflexivity. Qed.

Lemma new_node_node : forall nd i name, c_node (new_node n nd i name) = nd.
Proof. intros. unfold new_node. rewrite fetch_node. reflexivity. Qed.
Lemma new_node_name : forall nd i name, c_name (new_node n nd i name) = name.
Proof. intros. unfold new_node. rewrite fetch_name. reflexivity. Qed.
Lemma new_node_info : forall nd i name, c_info (new_node n nd i name) = i.
Proof. intros. unfold new_node. rewrite fetch_info. reflexivity. Qed.

Lemma fetch_registered : forall nd i name ts gs, lookup (n_idxname n) name <> None ->
  fetch_index n (mkC nd i name ts gs) = new_node n nd i name.
Proof.
  intros nd i name ts gs H. unfold new_node, fetch_index. cbn [c_name c_node c_info].
  destruct (lookup (n_idxname n) name); congruence.
Qed.

Lemma struct_false : forall name, lookup (n_structs n) name <> Some true -> is_struct_name n name = false.
Proof. intros name H. unfold is_struct_name. destruct lookup as [[|]|]; congruence. Qed.

(** What [describes] says about a table node. *)
Lemma table_node : forall name tys nd i0, s name = Some tys ->
  let c := new_node n nd i0 name in
  is_struct_name n name = false /\
  (exists g, get_type_group n name = Ok g /\ says g [CTable]) /\
  map_len (c_groups c) = zlen tys /\
  forall i t, zget tys i = Some t -> exists typ g,
    group_at c i = g /\ field_type_name n c i = typ /\ field_described n name i t typ g /\
    (forall t', t = TyScalar t' -> type_size c i = zwidth t').
Proof.
  intros name tys nd i0 Hs c. destruct (HD name tys Hs) as ((S1 & S2) & (gl & G1 & G2) & l & L1 & L2).
  split; [apply struct_false; auto|]. split; [exact S2|].
  assert (CG : c_groups c = gl).
  { unfold c, new_node, fetch_index. cbn [c_name]. rewrite L1. cbn [c_groups]. apply sub_lookup. exact G1. }
  assert (CT : c_types c = sub (n_types n) name).
  { unfold c, new_node, fetch_index. cbn [c_name]. rewrite L1. reflexivity. }
  split.
  { rewrite CG. apply map_len_keys; [apply zlen_nonneg|exact G2]. }
  intros i t Ht. destruct (L2 i t Ht) as (typ & g & T1 & T2 & T3). exists typ, g.
  split.
  { unfold group_at. rewrite CG. unfold group_of in T2. rewrite G1 in T2. rewrite T2. reflexivity. }
  split.
  { unfold field_type_name. unfold c. rewrite new_node_name. rewrite (sub_lookup _ _ _ _ L1), T1. reflexivity. }
  split; [exact T3|]. intros t' ->. cbn [field_described] in T3. destruct T3 as (_ & tl & K1 & K2).
  unfold type_size. rewrite CT, (sub_lookup _ _ _ _ K1), K2. reflexivity.
Qed.

Lemma struct_node : forall sn ms nd i0, struct_described n sn ms ->
  let c := new_node n nd i0 sn in
  is_struct_name n sn = true /\
  (exists g, get_type_group n sn = Ok g /\ says g [CStruct]) /\
  map_len (c_groups c) = zlen ms /\
  forall i t, zget ms i = Some t -> type_size c i = zwidth t.
Proof.
  intros sn ms nd i0 (S1 & S2 & S3 & (gl & G1 & G2) & tl & T1 & T2) c.
  split; [unfold is_struct_name; rewrite S1; reflexivity|]. split; [exact S2|].
  assert (C : c_groups c = gl /\ c_types c = tl).
  { unfold c, new_node, fetch_index. cbn [c_name]. destruct (lookup (n_idxname n) sn); [|congruence].
    cbn [c_groups c_types]. split; apply sub_lookup; auto. }
  destruct C as [CG CT]. split; [rewrite CG; apply map_len_keys; [apply zlen_nonneg|exact G2]|].
  intros i t Ht. unfold type_size. rewrite CT, (T2 i t Ht). reflexivity.
Qed.

Lemma sum_map : forall ms (f : Z -> Z), (forall i t, zget ms i = Some t -> f i = zwidth t) ->
  sum_sizes (map f (indexes (zlen ms))) = struct_size ms.
Proof.
  intros ms f H. unfold indexes, zlen. rewrite Nat2Z.id.
  assert (G : forall ms k, 0 <= k -> (forall i t, zget ms i = Some t -> f (k + i) = zwidth t) ->
    sum_sizes (map f (map Z.of_nat (seq (Z.to_nat k) (List.length ms)))) = struct_size ms).
  { clear H ms. induction ms as [|t ms IH]; intros k Hk H; cbn [List.length seq map sum_sizes fold_right struct_size];
      [reflexivity|].
    f_equal.
    - rewrite Z2Nat.id by lia. rewrite <- (H 0 t); [f_equal; lia|]. rewrite zget_cons. reflexivity.
    - replace (S (Z.to_nat k)) with (Z.to_nat (k + 1)) by lia. apply IH; [lia|].
      intros i z Hz. replace (k + 1 + i) with (k + (i + 1)) by lia. apply H.
      rewrite zget_cons. apply zget_some_range in Hz as R.
      replace (i + 1 =? 0) with false by lia. replace (i + 1 - 1) with i by lia. exact Hz. }
  apply (G ms 0); [lia|]. intros i t Ht. rewrite Z.add_0_l. auto.
Qed.

Lemma struct_sum : forall sn ms nd i0, struct_described n sn ms ->
  let c := new_node n nd i0 sn in
  sum_sizes (map (type_size c) (indexes (map_len (c_groups c)))) = struct_size ms.
Proof.
  intros sn ms nd i0 H c. destruct (struct_node sn ms nd i0 H) as (_ & _ & L & T).
  unfold c. rewrite L. apply sum_map. exact T.
Qed.

(** ** Fields *)

Lemma fields_nth : forall p prev tys es fs, stored_fields m s p prev tys es fs ->
  zlen tys = zlen fs /\ zlen es = zlen fs /\
  forall i v, zget fs i = Some v -> exists t e pv,
    zget tys i = Some t /\ zget es i = Some e /\ stored_field m s p pv t e v /\
    (i = 0 -> pv = prev) /\ (0 < i -> exists v', zget fs (i - 1) = Some v' /\ pv = Some v').
Proof.
  intros p prev tys es fs H. induction H as [|p prev t tys e es v vs H1 H2 IH].
  - split; [reflexivity|]. split; [reflexivity|]. intros i v Hi. rewrite zget_nil in Hi. discriminate.
  - destruct IH as (L1 & L2 & IH).
    split; [rewrite !zlen_cons; lia|]. split; [rewrite !zlen_cons; lia|].
    intros i w Hi. rewrite zget_cons in Hi. destruct (i =? 0) eqn:E.
    + injection Hi as <-. assert (i = 0) by lia. subst i. exists t, e, prev.
      repeat (split; [rewrite ?zget_cons; auto|]). lia.
    + apply zget_some_range in Hi as R. destruct (IH (i - 1) w Hi) as (t' & e' & pv & A1 & A2 & A3 & A4 & A5).
      exists t', e', pv. rewrite !zget_cons, E. split; [auto|]. split; [auto|]. split; [auto|]. split; [lia|].
      intros Hp. destruct (Z.eq_dec i 1) as [->|].
      * exists v. split; [reflexivity|]. apply A4. lia.
      * destruct (A5 ltac:(lia)) as (v' & B1 & B2). exists v'. split; auto.
        replace (i - 1 =? 0) with false by lia. exact B1.
Qed.

Lemma load_table : forall name p v, stored_table m s name p v -> load_node b p = Ok (p, -1).
Proof.
  intros name p v H. destruct H as [name p soff es tl tys fs H1 H2 H3 H4].
  unfold load_node. rewrite (table_preload b p soff es tl HF H2 H3). reflexivity.
Qed.

Lemma stored_pos : forall name p v, stored_table m s name p v -> 0 <= p /\ val_pos v = p /\
  exists tys fs, v = Tab name p fs /\ s name = Some tys.
Proof.
  intros name p v H. destruct H as [name p soff es tl tys fs H1 H2 H3 H4].
  split; [apply (ta_vpos _ _ _ _ _ H2)|]. split; [reflexivity|]. eauto.
Qed.

Lemma pos_entry : forall p soff es tl, table_at m p soff es tl -> 0 <= p.
Proof. intros p soff es tl H. apply (ta_vpos _ _ _ _ _ H). Qed.

(** Reading a vector slot. *)
Lemma list_info_at : forall p soff es tl i e q k, table_at m p soff es tl -> 0 <= soff ->
  zget es i = Some e -> 4 <= e -> vector_from m (p + e) q k ->
  list_info b p i = Ok (mkV q 0 k).
Proof.
  intros p soff es tl i e q k T Hs He H4 ((Hq & HO) & HK). unfold list_info.
  rewrite (vector_access b p soff es tl i e (q - 4 - (p + e)) k HF T Hs He ltac:(lia)).
  - cbn [bind]. do 2 f_equal. lia.
  - exact HO.
  - replace (p + e + (q - 4 - (p + e))) with (q - 4) by lia. exact HK.
Qed.

Lemma table_ref_at : forall p soff es tl i e q, table_at m p soff es tl -> 0 <= soff ->
  zget es i = Some e -> 4 <= e -> points_to m (p + e) q -> table_ref b p i = Ok q.
Proof.
  intros p soff es tl i e q T Hs He H4 (Hq & HO).
  destruct (conforming_access b p soff es tl HF T Hs) as (_ & _ & A).
  destruct (A i e He) as (_ & _ & _ & B). rewrite (B (q - (p + e)) ltac:(lia) HO). f_equal. lia.
Qed.

(** The node [FieldAt] should give for a stored field of Go type [typ]. *)
Definition field_node (typ : string) (p : Z) (v : val) : cnode :=
  match v with
  | Absent _ => new_node n None no_vinfo typ
  | Scalar q w => new_node n (Some (q, w)) no_vinfo typ
  | Struct q _ => new_node n (Some (q, -1)) no_vinfo typ
  | Scalars q k w =>
      if w =? 1 then new_node n (Some (q, k)) (mkV q k k) typ
      else new_node n (Some (p, -1)) (mkV q 0 k) typ
  | Structs q k _ => new_node n (Some (p, -1)) (mkV q 0 k) typ
  | Tab _ q _ => new_node n (Some (q, -1)) no_vinfo typ
  | Tabs _ q es => new_node n (Some (p, -1)) (mkV q 0 (zlen es)) typ
  end.

Lemma holds_u32 : forall p v, holds_uint m p 4 v -> u32 v = v.
Proof. intros p v [H _]. unfold u32. apply Z.mod_small. cbn in H. lia. Qed.

Lemma field_at_stored : forall name p sz soff es tl tys i t e pv v,
  s name = Some tys -> table_at m p soff es tl -> 0 <= soff ->
  zget tys i = Some t -> zget es i = Some e -> stored_field m s p pv t e v ->
  field_at n b (tnode_at name p sz) i =
  Ok (field_node (field_type_name n (tnode_at name p sz) i) p v).
Proof.
  intros name p sz soff es tl tys i t e pv v Hs T Hso Ht He Hv.
  destruct (table_node name tys (Some (p, sz)) no_vinfo Hs) as (S1 & S2 & S3 & S4).
  destruct (S4 i t Ht) as (typ & g & G1 & G2 & G3 & G4). fold (tnode_at name p sz) in *.
  unfold field_at. unfold tnode_at at 1. rewrite new_node_node.
  replace (c_name (tnode_at name p sz)) with name by (symmetry; apply new_node_name).
  rewrite S1, G1, G2.
  destruct (conforming_access b p soff es tl HF T Hso) as (_ & _ & A).
  destruct (A i e He) as (A1 & A2 & A3 & A4). rewrite A2. cbn [bind].
  assert (NZ : forall x, 4 <= x -> (x =? 0) = false) by (intros; lia).
  destruct Hv; cbn [field_node field_described] in *.
  - reflexivity.
  - rewrite NZ by auto. destruct G3 as (G3 & _). destruct (says_tests _ _ G3) as (-> & -> & -> & -> & -> & ->).
    rewrite A1, (G4 t eq_refl). destruct (width_cases t) as [E|[E|[E|E]]]; rewrite E; reflexivity.
  - rewrite NZ by auto. destruct G3 as (G3 & _). destruct (says_tests _ _ G3) as (-> & _). rewrite A1. reflexivity.
  - rewrite NZ by auto. destruct G3 as (G3 & _). destruct (says_tests _ _ G3) as (-> & -> & -> & -> & -> & ->).
    rewrite (list_info_at p soff es tl i e q k T Hso He) by auto.
    match goal with H : vector_from _ _ _ _ |- _ => destruct H as [_ HK] end. apply holds_u32 in HK.
    unfold zwidth. destruct (width_cases t) as [E|[E|[E|E]]]; rewrite E; cbn; rewrite ?HK; try reflexivity;
      unfold load_node; rewrite (table_preload b p soff es tl HF T Hso); reflexivity.
  - rewrite NZ by auto. destruct G3 as (G3 & _). destruct (says_tests _ _ G3) as (-> & -> & -> & -> & -> & ->).
    rewrite (list_info_at p soff es tl i e q k T Hso He) by auto. cbn.
    unfold load_node. rewrite (table_preload b p soff es tl HF T Hso). reflexivity.
  - rewrite NZ by auto. destruct G3 as (G3 & _). destruct (says_tests _ _ G3) as (-> & -> & -> & -> & -> & ->).
    cbn. rewrite (table_ref_at p soff es tl i e q T Hso He) by auto. cbn [bind].
    match goal with H : stored_table _ _ _ _ _ |- _ => rewrite (load_table _ _ _ H); destruct (stored_pos _ _ _ H) as (_ & _ & tys' & fs & -> & _) end.
    reflexivity.
  - rewrite NZ by auto. destruct G3 as (G3 & _). destruct (says_tests _ _ G3) as (-> & -> & -> & -> & -> & ->).
    rewrite (list_info_at p soff es tl i e q (zlen vs) T Hso He) by auto. cbn.
    unfold load_node. rewrite (table_preload b p soff es tl HF T Hso). reflexivity.
  - rewrite NZ by auto. destruct G3 as (G3 & _). destruct (says_tests _ _ G3) as (-> & -> & -> & -> & -> & ->).
    cbn. rewrite (table_ref_at p soff es tl i e q T Hso He) by auto. cbn [bind].
    match goal with H : stored_table _ _ _ _ _ |- _ => rewrite (load_table _ _ _ H); destruct (stored_pos _ _ _ H) as (_ & _ & tys' & fs & -> & _) end.
    reflexivity.
  - reflexivity.
  - reflexivity.
Qed.

End Schema.
