(** Tables, vectors and unions as the reads of a buffer with journal entries
    see them. *)
From Coq Require Import ZArith List Bool Lia String.
From Coq Require Import Strings.Byte.
From Verif Require Import GoLib BaseModel GoLemmas BaseSpec BaseProofs TableModel TableSpec TableProofs.
From Verif Require Import NameModel NameSpec ListProofs2 WalkModel WalkSpec.
Import ListNotations.
Open Scope list_scope.
Open Scope Z_scope.

(** A read at [p] of [k] bytes gives the number [v]. *)
Definition reads (b : base) (p : Z) (k : nat) (v : Z) : Prop :=
  0 <= v < 256 ^ Z.of_nat k /\ rd k b p = Ok v /\ p + Z.of_nat k <= len_buf b.

Record seen_at (b : base) (pos soff : Z) (entries : list Z) (tlen : Z) : Prop := {
  se_soff : reads b pos 4 (soff mod 2 ^ 32);
  se_range : - 2 ^ 31 <= soff < 2 ^ 31;
  se_vpos : 0 <= pos /\ 0 <= pos - soff;
  se_vlen : reads b (pos - soff) 2 (4 + 2 * zlen entries);
  se_tlen : reads b (pos - soff + 2) 2 tlen;
  se_entry : forall i e, zget entries i = Some e -> reads b (pos - soff + 4 + 2 * i) 2 e
}.

Section Seen.
Variable b : base.
Variable s : schema.

Definition sees_at (p q : Z) : Prop := p + 4 <= q /\ reads b p 4 (q - p).
Definition sees_vector (slot p k : Z) : Prop := sees_at slot (p - 4) /\ reads b (p - 4) 4 k.

(** The tables of [WalkSpec], with reads in place of bytes. *)
Inductive seen_table : string -> Z -> val -> Prop :=
| Rt_table : forall name p soff es tl tys fs,
    s name = Some tys -> seen_at b p soff es tl -> 0 <= soff ->
    seen_fields p None tys es fs -> seen_table name p (Tab name p fs)
with seen_fields : Z -> option val -> list ty -> list Z -> list val -> Prop :=
| Rf_nil : forall p prev, seen_fields p prev [] [] []
| Rf_cons : forall p prev t tys e es v vs,
    seen_field p prev t e v -> seen_fields p (Some v) tys es vs ->
    seen_fields p prev (t :: tys) (e :: es) (v :: vs)
with seen_field : Z -> option val -> ty -> Z -> val -> Prop :=
| Rv_absent : forall p prev t, is_union t = false -> seen_field p prev t 0 (Absent t)
| Rv_scalar : forall p prev t e, 4 <= e -> True ->
    seen_field p prev (TyScalar t) e (Scalar (p + e) (zwidth t))
| Rv_struct : forall p prev sn ms e, 4 <= e -> True ->
    seen_field p prev (TyStruct sn ms) e (Struct (p + e) ms)
| Rv_scalars : forall p prev t e q k, 4 <= e -> sees_vector (p + e) q k -> True ->
    seen_field p prev (TyScalars t) e (Scalars q k (zwidth t))
| Rv_structs : forall p prev sn ms e q k, 4 <= e -> sees_vector (p + e) q k -> True ->
    seen_field p prev (TyStructs sn ms) e (Structs q k ms)
| Rv_table : forall p prev tn e q v, 4 <= e -> sees_at (p + e) q -> seen_table tn q v ->
    seen_field p prev (TyTable tn) e v
| Rv_tables : forall p prev tn e q vs, 4 <= e -> sees_vector (p + e) q (zlen vs) ->
    seen_elems q tn vs -> seen_field p prev (TyTables tn) e (Tabs tn q vs)
| Rv_union : forall p us e x k tn q v, 4 <= e -> reads b x 1 (k + 1) -> zget us k = Some tn ->
    sees_at (p + e) q -> seen_table tn q v ->
    seen_field p (Some (Scalar x 1)) (TyUnion us) e v
| Rv_no_union : forall p us x, reads b x 1 0 ->
    seen_field p (Some (Scalar x 1)) (TyUnion us) 0 (Absent (TyUnion us))
| Rv_untyped_union : forall p us t, zwidth t = 1 ->
    seen_field p (Some (Absent (TyScalar t))) (TyUnion us) 0 (Absent (TyUnion us))
with seen_elems : Z -> string -> list val -> Prop :=
| Re_nil : forall slot tn, seen_elems slot tn []
| Re_cons : forall slot tn q v vs, sees_at slot q -> seen_table tn q v ->
    seen_elems (slot + 4) tn vs -> seen_elems slot tn (v :: vs).

End Seen.

Scheme seen_table_mind := Minimality for seen_table Sort Prop
  with seen_fields_mind := Minimality for seen_fields Sort Prop
  with seen_field_mind := Minimality for seen_field Sort Prop
  with seen_elems_mind := Minimality for seen_elems Sort Prop.
Combined Scheme seen_mind from seen_table_mind, seen_fields_mind, seen_field_mind, seen_elems_mind.

(** ** Access *)

Lemma reads_rd : forall k b p v, 0 <= p -> (1 <= k)%nat -> reads b p k v -> rd k b p = Ok v.
Proof. intros k b p v _ _ (_ & H & _). exact H. Qed.

Lemma seen_vtable_pos : forall b pos soff es tl, seen_at b pos soff es tl -> 0 <= soff ->
  vtable_pos b pos = Ok (pos - soff).
Proof.
  intros b pos soff es tl [T1 T2 T3 T4 T5 T6] Hs. unfold vtable_pos.
  rewrite (reads_rd 4 b pos _ ltac:(lia) ltac:(lia) T1). cbn [bind].
  rewrite Z.mod_small by lia. reflexivity.
Qed.

Lemma seen_virtual_table : forall b pos soff es tl i e, seen_at b pos soff es tl -> 0 <= soff ->
  zget es i = Some e -> virtual_table b pos i = Ok (pos + e).
Proof.
  intros b pos soff es tl i e T Hs Hi. pose proof T as [T1 T2 T3 T4 T5 T6].
  unfold virtual_table. rewrite (seen_vtable_pos b pos soff es tl T Hs). cbn [bind].
  pose proof (zget_some_range _ _ _ Hi) as R. specialize (T6 i e Hi).
  pose proof (proj2 (proj2 T6)) as B.
  replace (pos - soff + 4 + i * 2) with (pos - soff + 4 + 2 * i) by lia.
  destruct (len_buf b <=? pos - soff + 4 + 2 * i) eqn:E; [lia|]. rewrite andb_false_r.
  rewrite (reads_rd 2 b (pos - soff + 4 + 2 * i) e ltac:(lia) ltac:(lia) T6). reflexivity.
Qed.

Lemma seen_access : forall b pos soff es tl, seen_at b pos soff es tl -> 0 <= soff ->
  virtual_table_len b pos = Ok (4 + 2 * zlen es) /\
  table_len b pos = Ok tl /\
  forall i e, zget es i = Some e ->
    virtual_table b pos i = Ok (pos + e) /\
    virtual_table_is_zero b pos i = Ok (e =? 0) /\
    (e = 0 -> table_ref b pos i = Ok (-1)) /\
    (forall o, e <> 0 -> reads b (pos + e) 4 o -> table_ref b pos i = Ok (pos + e + o)).
Proof.
  intros b pos soff es tl T Hs. pose proof T as [T1 T2 T3 T4 T5 T6].
  pose proof (seen_vtable_pos b pos soff es tl T Hs) as V.
  split; [|split].
  - unfold virtual_table_len. rewrite V. cbn [bind]. apply reads_rd; auto; lia.
  - unfold table_len. rewrite V. cbn [bind]. apply reads_rd; auto; lia.
  - intros i e Hi. pose proof (seen_virtual_table b pos soff es tl i e T Hs Hi) as VT.
    assert (VZ : virtual_table_is_zero b pos i = Ok (e =? 0)).
    { unfold virtual_table_is_zero. rewrite VT. cbn [bind]. f_equal.
      destruct (e =? 0) eqn:X; lia. }
    split; [exact VT|]. split; [exact VZ|]. split.
    + intros ->. unfold table_ref. rewrite VT, VZ. reflexivity.
    + intros o He Ho. unfold table_ref. rewrite VT, VZ. cbn [bind].
      replace (e =? 0) with false by lia. destruct (T6 i e Hi) as [He0 _].
      rewrite (reads_rd 4 b (pos + e) o ltac:(lia) ltac:(lia) Ho). reflexivity.
Qed.

Lemma seen_vector_access : forall b pos soff es tl i e o n, seen_at b pos soff es tl -> 0 <= soff ->
  zget es i = Some e -> 0 < e -> reads b (pos + e) 4 o -> reads b (pos + e + o) 4 n ->
  value_info_pos_list b pos i = Ok (Some (pos + e + o + 4, n)).
Proof.
  intros b pos soff es tl i e o n T Hs Hi He Ho Hn.
  destruct (seen_access b pos soff es tl T Hs) as (_ & _ & A).
  destruct (A i e Hi) as (VT & VZ & _). pose proof T as [T1 T2 T3 T4 T5 T6].
  unfold value_info_pos_list. rewrite VT, VZ. cbn [bind]. replace (e =? 0) with false by lia.
  rewrite (reads_rd 4 b (pos + e) o ltac:(lia) ltac:(lia) Ho). cbn [bind].
  destruct Ho as [Ho _].
  rewrite (reads_rd 4 b (pos + e + o) n ltac:(lia) ltac:(lia) Hn). reflexivity.
Qed.

Lemma seen_preload : forall b pos soff es tl, seen_at b pos soff es tl -> 0 <= soff ->
  preload_vtable b pos = Ok tl.
Proof.
  intros b pos soff es tl T Hs. pose proof T as [T1 T2 T3 T4 T5 T6]. unfold preload_vtable.
  rewrite (seen_vtable_pos b pos soff es tl T Hs). cbn [bind].
  rewrite (reads_rd 2 b (pos - soff) _ ltac:(lia) ltac:(lia) T4). cbn [bind].
  rewrite (reads_rd 2 b (pos - soff + 2) _ ltac:(lia) ltac:(lia) T5). cbn [bind].
  pose proof (zlen_nonneg es).
  rewrite preload_loop_ok; [reflexivity| |lia].
  intros j Hj Hl. destruct (zget_some es j ltac:(lia)) as [e He]. exists e.
  apply reads_rd; auto; lia.
Qed.
