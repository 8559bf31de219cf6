(** Proofs about buffer lengths, continued (C47). *)
From Coq Require Import ZArith List Bool Lia Permutation.
From Coq Require Import Strings.Byte.
From Verif Require Import GoLib GoLemmas InfoModel InfoSpec InfoProofs.
Import ListNotations.
Open Scope Z_scope.

(** ** The fields of a table *)

(** Field [i] of a table with vtable entries [es] has the effect [x]. *)
Definition field_effect (l : list byte) (top : Z) (opts : list option_t) (es : list Z)
    (i : nat) (x : Z + Z) : Prop :=
  exists e o, nth_error es i = Some e /\ nth_error opts i = Some o /\ effect l o (u32 (top + e)) x.

Lemma field_effect_fun : forall l top opts es i x y,
  field_effect l top opts es i x -> field_effect l top opts es i y -> x = y.
Proof.
  intros l top opts es i x y (e & o & A & B & C) (e' & o' & A' & B' & C').
  rewrite A in A'. inversion A'. subst. rewrite B in B'. inversion B'. subst.
  eapply effect_fun; eassumption.
Qed.

Lemma set_nest_in : forall n i p j q, In (j, q) (set_nest i p n) -> (j, q) = (i, p) \/ In (j, q) n.
Proof.
  induction n as [|[k r] n IH]; intros i p j q H; cbn [set_nest] in H.
  - destruct H as [H|[]]. auto.
  - destruct (Nat.eqb k i) eqn:E.
    + destruct H as [H|H]; [auto|]. right. right. exact H.
    + destruct H as [H|H]; [right; left; exact H|]. apply IH in H. destruct H; [auto|right; right; auto].
Qed.

Lemma set_nest_here : forall n i p, In (i, p) (set_nest i p n).
Proof.
  induction n as [|[k r] n IH]; intros i p; cbn [set_nest]; [left; reflexivity|].
  destruct (Nat.eqb k i); [left; reflexivity|right; apply IH].
Qed.

Lemma set_nest_other : forall n i p j q, j <> i -> In (j, q) n -> In (j, q) (set_nest i p n).
Proof.
  induction n as [|[k r] n IH]; intros i p j q N H; cbn [set_nest]; [destruct H|].
  destruct (Nat.eqb k i) eqn:E.
  - apply Nat.eqb_eq in E. subst k. destruct H as [H|H]; [inversion H; subst; congruence|right; exact H].
  - destruct H as [H|H]; [left; exact H|right; apply IH; assumption].
Qed.

Lemma fetch_fields_ok : forall all buf top opts suf pre len table nest len' table' nest',
  let es := pre ++ suf in
  let fe := field_effect (sl_data buf) top opts es in
  (forall i t, In (i, t) nest -> fe i (inr t)) ->
  fetch_fields all buf top opts (length pre) suf (len, table, nest) = Ok (len', table', nest') ->
  (forall i, (length pre <= i < length es)%nat -> exists x, fe i x) /\
  len <= len' /\
  (forall i e, (length pre <= i)%nat -> fe i (inl e) -> e <= len') /\
  (len' = len \/ exists i, fe i (inl len')) /\
  (forall i t, In (i, t) nest' -> fe i (inr t)) /\
  (forall i t, In (i, t) nest -> In (i, t) nest') /\
  (forall i t, (length pre <= i)%nat -> fe i (inr t) -> In (i, t) nest').
Proof.
  intros all buf top opts.
  induction suf as [|e suf IH]; intros pre len table nest len' table' nest' es fe Hn H.
  - cbn [fetch_fields] in H. inversion H. subst. subst es. rewrite app_nil_r in *.
    assert (X : forall i x, (length pre <= i)%nat -> fe i x -> False).
    { intros i x L (e & o & A & _). apply nth_error_None in L. rewrite app_nil_r in A. congruence. }
    repeat split; auto.
    + intros i L. lia.
    + lia.
    + intros i e L F. exfalso. eauto.
    + intros i t L F. exfalso. eauto.
  - cbn [fetch_fields] in H. bok H. rename a into st. rename E into F.
    destruct (fetch_field_ok _ _ _ _ _ _ _ _ _ _ F) as (o & x & tt & A & B & C).
    rewrite C in F. inversion F. subst st. clear F C.
    assert (Fx : fe (length pre) x).
    { exists e, o. split; [|split; [exact A|exact B]].
      subst es. rewrite nth_error_app2 by lia. rewrite Nat.sub_diag. reflexivity. }
    set (len1 := fst (after (length pre) x len nest)) in *.
    set (nest1 := snd (after (length pre) x len nest)) in *.
    assert (Ees : (pre ++ [e]) ++ suf = es) by (subst es; rewrite <- app_assoc; reflexivity).
    assert (Lpre : length (pre ++ [e]) = S (length pre)) by (rewrite app_length; cbn; lia).
    specialize (IH (pre ++ [e]) len1 (table ++ tt) nest1 len' table' nest').
    cbv zeta in IH. rewrite Ees, Lpre in IH. fold fe in IH.
    assert (Hn1 : forall i t, In (i, t) nest1 -> fe i (inr t)).
    { intros i t I. subst nest1. destruct x as [y|y]; cbn [after snd] in I; [auto|].
      apply set_nest_in in I. destruct I as [I|I]; [inversion I; subst; exact Fx|auto]. }
    destruct (IH Hn1 H) as (I1 & I2 & I3 & I4 & I5 & I6 & I7). clear IH.
    assert (Keep : forall i t, In (i, t) nest -> In (i, t) nest1).
    { intros i t I. subst nest1. destruct x as [y|y]; cbn [after snd]; [exact I|].
      destruct (Nat.eq_dec i (length pre)) as [->|N].
      - assert (inr t = @inr Z Z y) by (eapply field_effect_fun; [apply Hn; exact I|exact Fx]).
        inversion H0. subst t. apply set_nest_here.
      - apply set_nest_other; assumption. }
    assert (Le1 : len <= len1) by (subst len1; destruct x; cbn [after fst]; lia).
    split; [|split; [|split; [|split; [|split; [|split]]]]].
    + intros i L. destruct (Nat.eq_dec i (length pre)) as [->|N]; [eauto|]. apply I1. lia.
    + lia.
    + intros i y L Fi. destruct (Nat.eq_dec i (length pre)) as [->|N].
      * assert (x = inl y) by (eapply field_effect_fun; eassumption). subst x.
        subst len1. cbn [after fst] in *. lia.
      * apply (I3 i); [lia|exact Fi].
    + destruct I4 as [I4|I4]; [|auto]. subst len1. rewrite I4. destruct x as [y|y]; cbn [after fst] in *; [|auto].
      destruct (Z.max_dec len y) as [M|M]; rewrite M in *; [auto|right; exists (length pre); rewrite <- I4 in *; exact Fx].
    + exact I5.
    + auto.
    + intros i t L Fi. destruct (Nat.eq_dec i (length pre)) as [->|N].
      * assert (x = inr t) by (eapply field_effect_fun; eassumption). subst x.
        apply I6. subst nest1. cbn [after snd]. apply set_nest_here.
      * apply I7; [lia|exact Fi].
Qed.

Lemma fetch_fields_len : forall all buf top opts es idx len table nest len' table' nest',
  fetch_fields all buf top opts idx es (len, table, nest) = Ok (len', table', nest') ->
  forall len2, exists len2',
    fetch_fields all buf top opts idx es (len2, table, nest) = Ok (len2', table', nest').
Proof.
  intros all buf top opts. induction es as [|e es IH]; intros idx len table nest len' table' nest' H len2;
    cbn [fetch_fields] in *.
  - inversion H. subst. eauto.
  - bok H. rename E into F. destruct (fetch_field_ok _ _ _ _ _ _ _ _ _ _ F) as (o & x & tt & A & B & C).
    rewrite C in F. inversion F. subst a. rewrite C. cbn [bind].
    apply IH with (len2 := fst (after idx x len2 nest)) in H.
    destruct H as [len2' H]. exists len2'. rewrite <- H. f_equal. f_equal.
    destruct x; reflexivity.
Qed.

Lemma fetch_fields_fuel : forall all buf top opts es idx st,
  fetch_fields all buf top opts idx es st <> OutOfFuel.
Proof.
  intros all buf top opts. induction es as [|e es IH]; intros idx [[len table] nest]; cbn [fetch_fields]; [discriminate|].
  destruct (fetch_field all buf top opts idx e (len, table, nest)) as [st| |] eqn:F; cbn [bind];
    [apply IH|discriminate|].
  exfalso. unfold fetch_field in F.
  assert (G : forall {A} n p (f : Z -> res A), bind (get_at n buf p) f = OutOfFuel ->
                exists v, f v = OutOfFuel).
  { intros A n p f X. destruct (get_at n buf p) eqn:Y; cbn [bind] in X; try discriminate; eauto.
    exfalso. exact (get_at_fuel _ _ _ Y). }
  assert (R : forall {A} p q (f : gslice -> res A), bind (gs_range buf p q) f = OutOfFuel ->
                exists v, f v = OutOfFuel).
  { intros A p q f X. destruct (gs_range buf p q) eqn:Y; cbn [bind] in X; try discriminate; eauto.
    exfalso. exact (gs_range_fuel _ _ _ Y). }
  destruct (nth_error opts idx) as [o|]; [|discriminate].
  destruct (field_type o) as [n| | |].
  - destruct all; cbn [bind] in F; [|discriminate].
    match type of F with bind ?m _ = _ => destruct m eqn:Y end; cbn [bind] in F; try discriminate.
    apply G in Y. destruct Y as [v Y]. apply R in Y. destruct Y as [w Y]. discriminate.
  - apply G in F. destruct F as [v F]. apply G in F. destruct F as [w F]. destruct all; cbn [bind] in F; [|discriminate].
    match type of F with bind ?m _ = _ => destruct m eqn:Y end; cbn [bind] in F; try discriminate.
    apply R in Y. destruct Y as [w' Y]. discriminate.
  - apply G in F. destruct F as [v F]. discriminate.
  - apply G in F. destruct F as [v F]. apply G in F. destruct F as [w F].
    match type of F with bind ?m _ = _ => destruct m eqn:Y end; cbn [bind] in F; try discriminate.
    + apply G in F. destruct F as [w' F]. discriminate.
    + destruct all; [discriminate|]. apply R in Y. destruct Y as [w' Y]. discriminate.
Qed.

(** ** The tables referred to *)

Lemma fetch_nested_ok : forall (V : nat -> Z -> Z -> Prop) rec L len childs len' childs',
  (forall i p l c, In (i, p) L -> rec i p l = Ok c ->
     l <= i_len c /\ (forall e, V i p e -> e <= i_len c) /\ (i_len c = l \/ V i p (i_len c))) ->
  fetch_nested rec L len childs = Ok (len', childs') ->
  len <= len' /\ (forall i p e, In (i, p) L -> V i p e -> e <= len') /\
  (len' = len \/ exists i p, In (i, p) L /\ V i p len').
Proof.
  intros V rec. induction L as [|[i p] L IH]; intros len childs len' childs' Hr H; cbn [fetch_nested] in H.
  - inversion H. subst. split; [lia|]. split; [intros i p e []|auto].
  - bok H. rename a into c. destruct (Hr i p len c (or_introl eq_refl) E) as (A & B & C).
    rewrite max_len_max, Z.max_r in H by exact A.
    destruct (IH _ _ _ _ (fun i p l c I => Hr i p l c (or_intror I)) H) as (A' & B' & C').
    split; [lia|]. split.
    + intros j q e [I|I] Ve.
      * inversion I. subst. specialize (B e Ve). lia.
      * eauto.
    + destruct C' as [C'|(j & q & I & Ve)].
      * rewrite C' in *. destruct C as [C|C]; [auto|]. right. exists i, p. split; [left; reflexivity|exact C].
      * right. exists j, q. split; [right; exact I|exact Ve].
Qed.

Lemma fetch_nested_each : forall rec L len childs r,
  fetch_nested rec L len childs = Ok r ->
  forall i p, In (i, p) L -> exists l c, rec i p l = Ok c.
Proof.
  intros rec. induction L as [|[j q] L IH]; intros len childs r H i p I; cbn [fetch_nested] in H; [destruct I|].
  bok H. destruct I as [I|I]; [inversion I; subst; eauto|eauto].
Qed.

Lemma fetch_nested_all : forall rec L,
  (forall i p l, In (i, p) L -> exists c, rec i p l = Ok c) ->
  forall len childs, exists r, fetch_nested rec L len childs = Ok r.
Proof.
  intros rec. induction L as [|[j q] L IH]; intros Hr len childs; cbn [fetch_nested]; [eauto|].
  destruct (Hr j q len (or_introl eq_refl)) as [c E]. rewrite E. cbn [bind]. apply IH.
  intros i p l I. apply Hr. right. exact I.
Qed.

Lemma fetch_nested_fuel : forall rec L,
  (forall i p l, In (i, p) L -> rec i p l <> OutOfFuel) ->
  forall len childs, fetch_nested rec L len childs <> OutOfFuel.
Proof.
  intros rec. induction L as [|[j q] L IH]; intros Hr len childs; cbn [fetch_nested]; [discriminate|].
  destruct (rec j q len) as [c| |] eqn:E; cbn [bind]; [|discriminate|].
  - apply IH. intros i p l I. apply Hr. right. exact I.
  - exfalso. exact (Hr j q len (or_introl eq_refl) E).
Qed.

(** ** A table *)

Definition slices_ok (all : bool) (buf : gslice) (v : vinfo) : res unit :=
  if all then
    do _ <- gs_range buf (v_pos v) (u32 (v_pos v + v_vlen v));
    do _ <- gs_range buf (v_top v) (u32 (v_top v + v_tlen v));
    Ok tt
  else Ok tt.

Lemma slices_fuel : forall all buf v, slices_ok all buf v <> OutOfFuel.
Proof.
  intros [] buf v; unfold slices_ok; [|discriminate].
  destruct (gs_range buf (v_pos v) _) eqn:E; cbn [bind]; try discriminate; [|exfalso; exact (gs_range_fuel _ _ _ E)].
  destruct (gs_range buf (v_top v) _) eqn:E'; cbn [bind]; try discriminate. exfalso. exact (gs_range_fuel _ _ _ E').
Qed.

Definition child_of f all ord path buf (opts : list option_t) (i : nat) (pos l : Z) : res finfo :=
  match nth_error opts i with
  | None => Panic
  | Some o => do w <- fetch_vtable buf pos; fetch_body f all ord (path ++ [i]) buf (o_nest o) w (l, [], [])
  end.

Lemma fetch_body_eq : forall f all ord path buf opts v st,
  fetch_body (S f) all ord path buf opts v st =
  do st' <- fetch_fields all buf (v_top v) opts 0 (v_table v) st;
  let '(len, table, nest) := st' in
  do _ <- slices_ok all buf v;
  do (len', childs) <- fetch_nested (child_of f all ord path buf opts) (ord path nest) len [];
  Ok (FI v len' table nest childs).
Proof. reflexivity. Qed.

Lemma in_order : forall ord path l x, rearranges ord -> In x (ord path l) <-> In x l.
Proof.
  intros ord path l x R. split; intros I.
  - eapply Permutation_in; [apply R|exact I].
  - eapply Permutation_in; [apply Permutation_sym, R|exact I].
Qed.

(** The table [v] was read at its position. *)
Definition read_at (buf : gslice) (v : vinfo) : Prop := fetch_vtable buf (v_top v) = Ok v.

Lemma field_effect_spec : forall buf v opts i x, zlen (sl_data buf) < 4294967296 -> read_at buf v ->
  field_effect (sl_data buf) (v_top v) opts (v_table v) i x <->
  exists o pos, has_field u32 (sl_data buf) opts (v_top v) i o pos /\ effect (sl_data buf) o pos x.
Proof.
  intros buf v opts i x Hl R. destruct (fetch_vtable_ok _ _ _ Hl R) as (_ & T). split.
  - intros (e & o & A & B & C). exists o, (u32 (v_top v + e)). split; [|exact C].
    exists e. split; [apply T; exact A|]. auto.
  - intros (o & pos & (e & A & B & ->) & C). exists e, o. split; [apply T; exact A|]. auto.
Qed.

Theorem fetch_body_len : forall fuel all ord path buf opts v len table nest i,
  rearranges ord -> zlen (sl_data buf) < 4294967296 -> read_at buf v ->
  (forall k t, In (k, t) nest -> field_effect (sl_data buf) (v_top v) opts (v_table v) k (inr t)) ->
  fetch_body fuel all ord path buf opts v (len, table, nest) = Ok i ->
  len <= i_len i /\
  (forall e, visits u32 (sl_data buf) opts (v_top v) e -> e <= i_len i) /\
  (i_len i = len \/ visits u32 (sl_data buf) opts (v_top v) (i_len i)).
Proof.
  induction fuel as [|fuel IH]; intros all ord path buf opts v len table nest i Ho Hl Hv Hn H; [discriminate|].
  rewrite fetch_body_eq in H. bok H. destruct a as [[len1 table1] nest1]. rename E into F.
  bok H. bok H. destruct a0 as [len2 childs]. rename E0 into G. inversion H. subst i. clear H. cbn [i_len].
  destruct (fetch_fields_ok all buf (v_top v) opts (v_table v) [] len table nest _ _ _ Hn F)
    as (I1 & I2 & I3 & I4 & I5 & I6 & I7). cbn [app length] in *.
  set (V := fun k t e => exists o, nth_error opts k = Some o /\ visits u32 (sl_data buf) (o_nest o) t e).
  assert (Hr : forall k t l c, In (k, t) (ord path nest1) ->
            child_of fuel all ord path buf opts k t l = Ok c ->
            l <= i_len c /\ (forall e, V k t e -> e <= i_len c) /\ (i_len c = l \/ V k t (i_len c))).
  { intros k t l c _ X. unfold child_of in X. destruct (nth_error opts k) as [o|] eqn:O; [|discriminate].
    bok X. rename a0 into w. destruct (fetch_vtable_ok _ _ _ Hl E0) as (W & _).
    assert (Hw : read_at buf w) by (unfold read_at; rewrite W; exact E0).
    apply IH in X; try assumption; [|intros ? ? []]. rewrite W in X. destruct X as (X1 & X2 & X3).
    split; [exact X1|]. split.
    - intros e (o' & O' & Ve). rewrite O in O'. inversion O'. subst o'. auto.
    - destruct X3 as [X3|X3]; [auto|]. right. exists o. auto. }
  destruct (fetch_nested_ok V _ _ _ _ _ _ Hr G) as (J1 & J2 & J3).
  split; [lia|]. split.
  - intros e Ve. inversion Ve as [? ? k o pos n Hf Hs|? ? k o pos off cnt Hf Hs W1 W2|? ? k o pos t e' Hf Ht Hu]; subst.
    + assert (u32 (pos + n) <= len1); [|lia]. apply (I3 k); [lia|].
      apply field_effect_spec; try assumption. exists o, pos. split; [exact Hf|]. constructor. exact Hs.
    + assert (u32 (pos + off + 4 + cnt) <= len1); [|lia]. apply (I3 k); [lia|].
      apply field_effect_spec; try assumption. exists o, pos. split; [exact Hf|]. constructor; assumption.
    + apply (J2 k t).
      * apply in_order; [exact Ho|]. apply I7; [lia|]. apply field_effect_spec; try assumption.
        exists o, pos. split; [exact Hf|]. constructor. exact Ht.
      * destruct Hf as (_ & _ & O & _). exists o. auto.
  - destruct J3 as [J3|(k & t & I & o & O & Ve)].
    + subst len2. destruct I4 as [I4|[k I4]]; [left; exact I4|]. right.
      apply field_effect_spec in I4; try assumption. destruct I4 as (o & pos & Hf & He).
      inversion He; subst.
      * eapply v_scalar; eassumption.
      * eapply v_string; eassumption.
    + right. apply (proj1 (in_order _ path _ _ Ho)) in I. apply I5 in I. apply field_effect_spec in I; try assumption.
      destruct I as (o' & pos & Hf & He). pose proof Hf as (_ & _ & O' & _). rewrite O in O'. inversion O'. subst o'.
      inversion He; subst. eapply v_under; eassumption.
Qed.

(** ** Success does not depend on the order *)

Theorem fetch_body_any_order : forall fuel all ord ord' path path' buf opts v len len' table nest i,
  rearranges ord -> rearranges ord' ->
  fetch_body fuel all ord path buf opts v (len, table, nest) = Ok i ->
  exists i', fetch_body fuel all ord' path' buf opts v (len', table, nest) = Ok i' /\
    i_v i' = i_v i /\ i_table i' = i_table i /\ i_nest i' = i_nest i.
Proof.
  induction fuel as [|fuel IH]; intros all ord ord' path path' buf opts v len len' table nest i Ho Ho' H; [discriminate|].
  rewrite fetch_body_eq in *. bok H. destruct a as [[len1 table1] nest1]. rename E into F.
  bok H. rename E into S. bok H. destruct a0 as [len2 childs]. rename E into G. inversion H. subst i. clear H.
  destruct (fetch_fields_len _ _ _ _ _ _ _ _ _ _ _ _ F len') as [len1' F']. rewrite F'. cbn [bind].
  rewrite S. cbn [bind].
  assert (Hr : forall k t l, In (k, t) (ord' path' nest1) ->
            exists c, child_of fuel all ord' path' buf opts k t l = Ok c).
  { intros k t l I. apply (proj1 (in_order _ path' _ _ Ho')) in I. apply (proj2 (in_order _ path _ _ Ho)) in I.
    destruct (fetch_nested_each _ _ _ _ _ G k t I) as (l0 & c & X). unfold child_of in *.
    destruct (nth_error opts k); [|discriminate]. bok X. rewrite E. cbn [bind].
    eapply IH in X; [|exact Ho|exact Ho']. destruct X as (c' & X & _). eauto. }
  destruct (fetch_nested_all _ _ Hr len1' []) as [[len2' childs'] G']. rewrite G'. cbn [bind].
  eexists. split; [reflexivity|]. cbn. auto.
Qed.

(** ** Fuel *)

Lemma list_max_in : forall l x, In x l -> (x <= list_max l)%nat.
Proof.
  intros l x I. pose proof (proj1 (list_max_le l (list_max l)) (le_n _)) as F.
  rewrite Forall_forall in F. auto.
Qed.

Lemma depth_nest : forall opts k o, nth_error opts k = Some o -> (S (depth (o_nest o)) <= depth opts)%nat.
Proof.
  intros opts k o H. apply nth_error_In in H. unfold depth at 2.
  assert (X : (height o <= list_max (map height opts))%nat) by (apply list_max_in, in_map, H).
  destruct o as [sz vec ns]. cbn [height o_nest] in *. unfold depth. lia.
Qed.

Theorem fetch_body_fuel : forall fuel all ord path buf opts v st,
  zlen (sl_data buf) < 4294967296 -> (depth opts <= fuel)%nat ->
  fetch_body fuel all ord path buf opts v st <> OutOfFuel.
Proof.
  induction fuel as [|fuel IH]; intros all ord path buf opts v st Hl Hd; [unfold depth in Hd; lia|].
  rewrite fetch_body_eq.
  destruct (fetch_fields all buf (v_top v) opts 0 (v_table v) st) as [[[len table] nest]| |] eqn:F;
    cbn [bind]; [|discriminate|exfalso; exact (fetch_fields_fuel _ _ _ _ _ _ _ F)].
  destruct (slices_ok all buf v) eqn:S; cbn [bind]; [|discriminate|exfalso; exact (slices_fuel _ _ _ S)].
  destruct (fetch_nested (child_of fuel all ord path buf opts) (ord path nest) len [])
    as [[len' childs]| |] eqn:G; cbn [bind]; [discriminate|discriminate|].
  exfalso. revert G. apply fetch_nested_fuel. intros k t l _. unfold child_of.
  destruct (nth_error opts k) as [o|] eqn:O; [|discriminate].
  destruct (fetch_vtable buf t) as [w| |] eqn:W; cbn [bind]; [|discriminate|exfalso; exact (fetch_vtable_fuel _ _ Hl W)].
  apply IH; [exact Hl|]. apply depth_nest in O. lia.
Qed.

(** ** The exported functions *)

Lemma get_info_len : forall fuel ord buf top opts i,
  rearranges ord -> zlen (sl_data buf) < 2 ^ 32 -> get_info fuel ord buf top opts = Ok i ->
  v_top (i_v i) = top /\ read_at buf (i_v i) /\
  top <= i_len i /\ (forall e, visits u32 (sl_data buf) opts top e -> e <= i_len i) /\
  (i_len i = top \/ visits u32 (sl_data buf) opts top (i_len i)).
Proof.
  intros fuel ord buf top opts i Ho Hl H. change (2 ^ 32) with 4294967296 in Hl.
  unfold get_info in H. bok H. rename a into v. destruct (fetch_vtable_ok _ _ _ Hl E) as (W & _).
  assert (Hv : read_at buf v) by (unfold read_at; rewrite W; exact E).
  assert (Iv : i_v i = v).
  { destruct fuel; [discriminate|]. rewrite fetch_body_eq in H. bok H. destruct a as [[? ?] ?].
    bok H. bok H. destruct a0. inversion H. reflexivity. }
  apply fetch_body_len in H; try assumption; [|intros ? ? []]. rewrite Iv, W in *. auto.
Qed.

Lemma info_order : forall fuel ord ord' buf top opts,
  rearranges ord -> rearranges ord' -> zlen (sl_data buf) < 2 ^ 32 -> (depth opts <= fuel)%nat ->
  (get_info fuel ord buf top opts = Panic /\ get_info fuel ord' buf top opts = Panic) \/
  exists i i', get_info fuel ord buf top opts = Ok i /\ get_info fuel ord' buf top opts = Ok i' /\
    i_len i = i_len i' /\ i_table i = i_table i' /\ i_nest i = i_nest i'.
Proof.
  intros fuel ord ord' buf top opts Ho Ho' Hl Hd.
  assert (NF : forall o, get_info fuel o buf top opts <> OutOfFuel).
  { intros o X. unfold get_info in X. destruct (fetch_vtable buf top) as [v| |] eqn:V; cbn [bind] in X; try discriminate.
    - exact (fetch_body_fuel _ _ _ _ _ _ _ _ Hl Hd X).
    - exact (fetch_vtable_fuel _ _ Hl V). }
  assert (T : forall o1 o2 i, rearranges o1 -> rearranges o2 -> get_info fuel o1 buf top opts = Ok i ->
            exists i', get_info fuel o2 buf top opts = Ok i' /\ i_table i' = i_table i /\ i_nest i' = i_nest i).
  { intros o1 o2 i R1 R2 X. unfold get_info in *. bok X. rewrite E. cbn [bind].
    eapply fetch_body_any_order in X; [|exact R1|exact R2]. destruct X as (i' & X & _ & A & B). eauto. }
  destruct (get_info fuel ord buf top opts) as [i| |] eqn:E1.
  - right. destruct (T _ _ _ Ho Ho' E1) as (i' & E2 & A & B). exists i, i'.
    split; [reflexivity|]. split; [exact E2|]. split; [|auto].
    destruct (get_info_len _ _ _ _ _ _ Ho Hl E1) as (_ & _ & L1 & L2 & L3).
    destruct (get_info_len _ _ _ _ _ _ Ho' Hl E2) as (_ & _ & M1 & M2 & M3).
    apply Z.le_antisymm.
    + destruct L3 as [L3|L3]; [lia|auto].
    + destruct M3 as [M3|M3]; [lia|auto].
  - left. split; [reflexivity|]. destruct (get_info fuel ord' buf top opts) as [i'| |] eqn:E2; [|reflexivity|].
    + destruct (T _ _ _ Ho' Ho E2) as (i & X & _). congruence.
    + exfalso. exact (NF _ E2).
  - exfalso. exact (NF _ E1).
Qed.

Lemma info_all_len : forall fuel fuel' ord ord' buf top opts i i',
  rearranges ord -> rearranges ord' -> zlen (sl_data buf) < 2 ^ 32 ->
  get_info fuel ord buf top opts = Ok i -> fetch_all fuel' ord' buf i opts = Ok i' ->
  i_len i' = i_len i.
Proof.
  intros fuel fuel' ord ord' buf top opts i i' Ho Ho' Hl H H'.
  destruct (get_info_len _ _ _ _ _ _ Ho Hl H) as (T & R & L1 & L2 & L3).
  unfold fetch_all in H'. destruct (i_table i) eqn:Ti; [|inversion H'; reflexivity].
  assert (Hn : forall k t, In (k, t) (i_nest i) ->
            field_effect (sl_data buf) (v_top (i_v i)) opts (v_table (i_v i)) k (inr t)).
  { unfold get_info in H. bok H. destruct fuel; [discriminate|]. rewrite fetch_body_eq in H.
    bok H. destruct a0 as [[len1 table1] nest1]. bok H. bok H. destruct a1. inversion H. subst i.
    cbn [i_nest i_v] in *.
    apply (fetch_fields_ok false buf (v_top a) opts (v_table a) []) in E0; [|intros ? ? []].
    destruct E0 as (_ & _ & _ & _ & I5 & _). exact I5. }
  apply fetch_body_len in H'; try assumption. rewrite T in H'. destruct H' as (M1 & M2 & M3).
  destruct M3 as [M3|M3]; [exact M3|]. apply L2 in M3. lia.
Qed.

(** ** Exact positions *)

Lemma signed_range : forall v, 0 <= v < 4294967296 -> -2147483648 <= to_signed 4 v < 2147483648.
Proof.
  intros v H. unfold to_signed. change (8 * Z.of_nat 4 - 1) with 31. change (8 * Z.of_nat 4) with 32.
  change (2 ^ 31) with 2147483648. change (2 ^ 32) with 4294967296.
  destruct (v <? 2147483648) eqn:E; [apply Z.ltb_lt in E|apply Z.ltb_ge in E]; lia.
Qed.

Lemma exact_entry : forall l top i e, zlen l <= 2147483648 ->
  has_entry (fun z => z) l top i e -> has_entry u32 l top i e.
Proof.
  intros l top i e Hl (voff & vpos & vlen & tlen & W1 & -> & W2 & W3 & L & W).
  exists voff, (top - to_signed 4 voff), vlen, tlen.
  pose proof W2 as (A & B & _). pose proof (word_range _ _ _ _ W2) as R.
  change (256 ^ Z.of_nat 2) with 65536 in R.
  rewrite !u32_small by lia. auto 10.
Qed.

Lemma has_field_exact : forall l opts top i o pos, zlen l <= 2147483648 ->
  has_field (fun z => z) l opts top i o pos -> has_field u32 l opts top i o pos /\ 0 <= pos <= 2147549184.
Proof.
  intros l opts top i o pos Hl (e & A & B & ->). pose proof A as (voff & vpos & vlen & tlen & (P & Q & _) & _ & _ & _ & _ & W).
  pose proof (word_range _ _ _ _ W) as R. change (256 ^ Z.of_nat 2) with 65536 in R.
  split; [|lia]. exists e. split; [apply exact_entry; assumption|]. split; [exact B|].
  rewrite u32_small by lia. reflexivity.
Qed.

Lemma exact_refers : forall l o pos t, zlen l <= 2147483648 -> 0 <= t <= zlen l ->
  refers (fun z => z) l o pos t -> refers u32 l o pos t.
Proof.
  intros l o pos t Hl Ht H. inversion H as [rel Hk W|off cnt rel Hk W1 W2 W3]; subst.
  - rewrite <- (u32_small (pos + rel)) by lia. constructor; assumption.
  - pose proof W2 as (A & B & _). pose proof W3 as (A' & B' & _).
    rewrite <- (u32_small (pos + off)) in W2 by lia.
    rewrite <- (u32_small (pos + off + 4 * cnt)) in W3 by lia.
    rewrite <- (u32_small (pos + off + 4 * cnt + rel)) by lia.
    rewrite <- (u32_small (pos + off + 4 * cnt)) by lia.
    econstructor; eassumption.
Qed.

Lemma visits_top : forall w l opts top e, visits w l opts top e -> 0 <= top <= zlen l.
Proof.
  intros w l opts top e H.
  assert (X : forall i o pos, has_field w l opts top i o pos -> 0 <= top <= zlen l).
  { intros i o pos (en & (voff & vpos & vlen & tlen & (P & Q & _) & _) & _). lia. }
  inversion H; subst; eauto.
Qed.

Theorem exact_visits : forall l opts top e, zlen l <= 2147483648 -> e < 4294967296 ->
  reaches l opts top e -> visits u32 l opts top e.
Proof.
  intros l opts top e Hl He H. unfold reaches in H. induction H as
    [opts top i o pos n Hf Hs|opts top i o pos off cnt Hf Hs W1 W2|opts top i o pos t e Hf Ht Hu IH].
  - destruct (has_field_exact _ _ _ _ _ _ Hl Hf) as [F R].
    assert (0 <= n) by (destruct Hs as (? & ? & _ & I); cbn in I; lia).
    rewrite <- (u32_small (pos + n)) by lia. eapply v_scalar; eassumption.
  - destruct (has_field_exact _ _ _ _ _ _ Hl Hf) as [F R].
    pose proof W2 as (A & B & _). pose proof (word_range _ _ _ _ W2) as C.
    rewrite <- (u32_small (pos + off)) in W2 by lia.
    rewrite <- (u32_small (pos + off + 4 + cnt)) by lia. eapply v_string; eassumption.
  - destruct (has_field_exact _ _ _ _ _ _ Hl Hf) as [F R].
    eapply v_under; [exact F| |apply IH; exact He]. apply exact_refers; [exact Hl| |exact Ht].
    eapply visits_top. exact Hu.
Qed.

Lemma info_covers : forall fuel ord buf top opts i e,
  rearranges ord -> zlen (sl_data buf) <= 2 ^ 31 -> get_info fuel ord buf top opts = Ok i ->
  reaches (sl_data buf) opts top e -> e < 2 ^ 32 -> e <= i_len i.
Proof.
  intros fuel ord buf top opts i e Ho Hl H R He.
  change (2 ^ 31) with 2147483648 in Hl. change (2 ^ 32) with 4294967296 in He.
  assert (Hl2 : zlen (sl_data buf) < 2 ^ 32) by (change (2 ^ 32) with 4294967296; lia).
  destruct (get_info_len _ _ _ _ _ _ Ho Hl2 H) as (_ & _ & _ & L2 & _).
  apply L2. apply exact_visits; assumption.
Qed.

Lemma info_attained : forall fuel ord buf top opts i,
  rearranges ord -> zlen (sl_data buf) < 2 ^ 32 -> get_info fuel ord buf top opts = Ok i ->
  i_len i = top \/ visits u32 (sl_data buf) opts top (i_len i).
Proof. intros fuel ord buf top opts i Ho Hl H. eapply get_info_len in H; [|exact Ho|exact Hl]. apply H. Qed.
