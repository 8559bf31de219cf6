(** Values for the fields of a table. *)
From Coq Require Import ZArith List Bool Lia String.
From Coq Require Import Strings.Byte.
From Verif Require Import GoLib BaseModel GoLemmas BaseSpec BaseProofs BaseProofs2 BaseProofs3.
From Verif Require Import TableModel TableSpec TableProofs TableProofs2 NameModel NameSpec InfoProofs.
From Verif Require Import WalkModel WalkSpec WalkProofs WalkProofs2 WalkProofs3 WalkProofs4.
From Verif Require Import EqualSpec BuildModel BuildSpec BuildProofs2 BuildProofs3 BuildProofs5.
Import ListNotations.
Open Scope list_scope.
Open Scope Z_scope.

Lemma scalar_gives : forall n s name i l typ t v, lookup (n_idxname n) name = Some l -> lookupz l i = Some typ ->
  in_range t v ->
  exists fb f, scalar_node n typ t v = Ok (fb, f) /\
    gives n s name i (TyScalar t) fb f (Bytes (scalar_bytes t v)).
Proof.
  intros n s name i l typ t v HL HT HV. destruct (from_get t v HV) as (b & E & _ & D).
  exists b. eexists. unfold scalar_node. rewrite E. cbn [bind]. split; [reflexivity|].
  split; [exists l; auto|]. exists (scalar_bytes t v), 0, (Z.of_nat (width t)).
  split; [reflexivity|]. split; [reflexivity|]. split; [apply scalar_bytes_len|exact D].
Qed.

Lemma window_all : forall s name p l v, stored_table (img_bytes l) s name p v -> reach v = zlen l ->
  stored_table (window (img_bytes l) 0 (reach v)) s name p v.
Proof.
  intros s name p l v H HR. apply (stored_mono (img_bytes l)); [|exact H].
  intros q x Hq. pose proof (zget_some_range _ _ _ Hq) as R. split; [lia|]. unfold window. rewrite HR.
  replace ((0 <=? q) && (q <? zlen l)) with true by lia. exact Hq.
Qed.

Lemma bytes_gives : forall n s name i idx t p, lookup (n_idxname n) name = Some idx ->
  lookupz idx i = Some "[]byte"%string -> lookup (n_idxname n) "[]byte"%string = None ->
  zwidth t = 1 -> zlen p < 4294967296 ->
  let (fb, f) := byte_list n p in
  gives n s name i (TyScalars t) fb f
    (Value (img_bytes (sl_data (b_bytes fb))) (Scalars 4 (zlen p) 1)).
Proof.
  intros n s name i idx t p HL HT HN HW HZ. unfold byte_list. pose proof (zlen_nonneg p) as ZP.
  rewrite u32_small by lia. set (h := le_encode 4 (zlen p)). set (l := h ++ p).
  assert (LH : zlen h = 4) by apply zlen_le_encode.
  assert (LL : zlen l = 4 + zlen p) by (unfold l; rewrite zlen_app; lia).
  split; [exists idx; auto|]. exists (img_bytes l), (Scalars 4 (zlen p) 1), 4, (4, -1).
  split; [reflexivity|]. cbn [reach vector_len c_name b_bytes new_base gs_of sl_data]. split.
  { unfold new_node, fetch_index. cbn [c_name]. rewrite HN. f_equal. f_equal. lia. }
  split; [split; reflexivity|]. split; [reflexivity|]. split; [lia|]. split; [lia|]. split; [|constructor].
  assert (W : forall q, 0 <= q < 4 + zlen p -> window (img_bytes l) (4 - 4) (4 + zlen p * 1) q = zget l q).
  { intros q Hq. unfold window. replace ((4 - 4 <=? q) && (q <? 4 + zlen p * 1)) with true by lia. reflexivity. }
  cbn [stored_vector]. split; [reflexivity|]. split; [congruence|]. split.
  - apply holds_uint_encode; [|change (256 ^ Z.of_nat 4) with 4294967296; lia].
    intros k Hk. rewrite W by lia. unfold l. rewrite zget_app, LH. replace (4 - 4 + k <? 4) with true by lia.
    reflexivity.
  - intros k Hk. rewrite W by lia. apply zget_some. lia.
Qed.

Lemma union_second : forall t us i vs, zget [t; TyUnion us] i = Some (TyUnion vs) -> is_union t = false -> i = 1 /\ vs = us.
Proof.
  intros t us i vs H N. unfold zget in H. destruct (i <? 0) eqn:E; [discriminate|].
  destruct (Z.to_nat i) as [|[|k]] eqn:X; cbn [nth_error] in H.
  - assert (t = TyUnion vs) by congruence. subst t. discriminate.
  - split; [lia|congruence].
  - destruct k; discriminate.
Qed.
