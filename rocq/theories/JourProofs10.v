(** The reading functions on buffers with journal entries, in terms of images, and
    checks of the conditions on concrete buffers. *)
From Coq Require Import ZArith List Bool Lia String.
From Coq Require Import Strings.Byte.
From Verif Require Import GoLib BaseModel GoLemmas BaseSpec BaseProofs BaseProofs2 TableModel TableSpec TableProofs.
From Verif Require Import NameModel NameSpec StreamModel WalkModel WalkSpec WalkProofs WalkProofs2 WalkProofs5 EqualSpec BuildModel InsSpec InsProofs PutModel PutSpec.
From Verif Require Import JourModel JourSpec JourProofs JourProofs2 JourProofs3 JourProofs4 JourProofs5 JourProofs6 JourProofs7 JourProofs8 JourProofs9.
Import ListNotations.
Open Scope list_scope.
Open Scope Z_scope.

Section Read.
Variable n : names.
Variable b : base.
Variable m : image.
Variable s : schema.
Hypothesis HD : describes n s.
Hypothesis HB : in_memory b.
Hypothesis HM : shows b m.

Lemma jour_seen : forall name p v, stored_table m s name p v -> intact b m v -> seen_table b s name p v.
Proof. intros name p v H HI. exact (proj1 (stored_seen b m s HB HM) name p v H HI). Qed.

Lemma jour_field : forall name p fs i v sz, stored_table m s name p (Tab name p fs) -> intact b m (Tab name p fs) -> zget fs i = Some v ->
  exists f, field_at n b (new_node n (Some (p, sz)) no_vinfo name) i = Ok f /\ stands_for f v.
Proof. intros name p fs i v sz H HI. apply (field_found_j n b s HD). apply jour_seen; assumption. Qed.

Lemma jour_union : forall name p fs tys i us v sz, stored_table m s name p (Tab name p fs) -> intact b m (Tab name p fs) ->
  s name = Some tys -> zget tys i = Some (TyUnion us) -> zget fs i = Some v ->
  let c := new_node n (Some (p, sz)) no_vinfo name in
  match v with
  | Tab tn q _ => In tn us /\ can_follow n b c i = Ok true /\
                  follow_union n b c i = Ok (Some (new_node n (Some (q, -1)) no_vinfo tn))
  | _ => can_follow n b c i = Ok false /\ follow_union n b c i = Ok None
  end.
Proof. intros name p fs tys i us v sz H HI. apply (union_found_j n b s HD). apply jour_seen; assumption. Qed.

Lemma jour_elements : forall name p fs i v sz, stored_table m s name p (Tab name p fs) -> intact b m (Tab name p fs) -> zget fs i = Some v ->
  exists f, field_at n b (new_node n (Some (p, sz)) no_vinfo name) i = Ok f /\
    match v with
    | Scalars q k w => forall j, (0 <= j < k -> exists e, vec_at n b f j = Ok (Some e) /\ c_node e = Some (q + j * w, -1)) /\
                                 (~ 0 <= j < k -> vec_at n b f j = Ok None)
    | Structs q k ms => forall j, (0 <= j < k -> exists e, vec_at n b f j = Ok (Some e) /\
                                     c_node e = Some (q + j * struct_size ms, -1)) /\
                                  (~ 0 <= j < k -> vec_at n b f j = Ok None)
    | Tabs tn q es => (forall j x, zget es j = Some x ->
                         vec_at n b f j = Ok (Some (new_node n (Some (val_pos x, -1)) no_vinfo tn))) /\
                      (forall j, ~ 0 <= j < zlen es -> vec_at n b f j = Ok None)
    | _ => True
    end.
Proof. intros name p fs i v sz H HI. apply (elements_found_j n b s HD). apply jour_seen; assumption. Qed.

Lemma jour_info : forall name p v sz, stored_table m s name p v -> intact b m v -> measured v ->
  exists k, forall f, (k <= f)%nat ->
    node_info n b f (new_node n (Some (p, sz)) no_vinfo name) = Ok (mkV p (reach v - p) 0).
Proof. intros name p v sz H HI. apply (measured_info_j n b s HD). apply jour_seen; assumption. Qed.

Lemma jour_len : forall name p v, stored_table m s name p v -> intact b m v -> measured v -> holds_uint m 0 4 p -> held b 0 4 ->
  exists c k r, root_node n b name = Ok c /\
    (forall f, (k <= f)%nat -> node_len n b f c = Ok r) /\
    r mod 8 = 0 /\ reach v <= r < reach v + 8.
Proof.
  intros name p v H HI HV HR HH. apply (measured_len_j n b s HD name p v); [apply jour_seen; assumption|exact HV|].
  apply (holds_reads b m HB HM); auto; lia.
Qed.

Lemma jour_traverse : forall name p v sz, stored_table m s name p v -> intact b m v -> traversable v ->
  exists k, forall f, (k <= f)%nat -> exists xs,
    traverse n b f (new_node n (Some (p, sz)) no_vinfo name) = Ok xs /\
    map (fun x => (x_parent x, x_idx x, x_child x, x_size x)) xs = sightings v.
Proof. intros name p v sz H HI. apply (traversal_j n b s HD). apply jour_seen; assumption. Qed.

End Read.

(** ** Checks *)

Definition beside_b (p k : Z) (d : diff) : bool := (d_off d + d_len d <=? p) || (p + k <=? d_off d).

Fixpoint held_by (p k : Z) (ds : list diff) : bool :=
  match ds with
  | [] => false
  | d :: ds' => held_by p k ds' || ((d_off d <=? p) && (p + k <=? d_off d + d_len d) && forallb (beside_b p k) ds')
  end.
Definition held_b (b : base) (p k : Z) : bool :=
  held_by p k (b_diffs b) || ((p + k <=? gs_len (b_bytes b)) && forallb (beside_b p k) (b_diffs b)).

Lemma beside_sound : forall p k ds, forallb (beside_b p k) ds = true -> Forall (beside p k) ds.
Proof.
  intros p k ds H. rewrite forallb_forall in H. apply Forall_forall. intros d Hd. specialize (H d Hd). unfold beside_b in H. unfold beside. lia.
Qed.

Lemma held_sound : forall b p k, held_b b p k = true -> held b p k.
Proof.
  intros b p k H. unfold held_b in H. apply orb_true_iff in H. destruct H as [H|H].
  - left. revert H. generalize (b_diffs b) as ds. induction ds as [|d ds IH]; intros H; [discriminate|]. cbn [held_by] in H. apply orb_true_iff in H. destruct H as [H|H].
    + destruct (IH H) as (l1 & e & l2 & -> & E). exists (d :: l1), e, l2. split; [reflexivity|exact E].
    + rewrite !andb_true_iff in H. destruct H as [[H1 H2] H3]. exists nil, d, ds. split; [reflexivity|]. split; [lia|]. split; [lia|]. apply beside_sound. exact H3.
  - rewrite andb_true_iff in H. destruct H as [H1 H2]. right. split; [lia|]. apply beside_sound. exact H2.
Qed.

Definition intact_b (b : base) (m : image) (v : val) : bool :=
  forallb (fun x => held_b b (fst x) (snd x)) (frame m v) && forallb (fun x => held_b b (fst x) 4) (links m v).

Lemma intact_sound : forall b m v, intact_b b m v = true -> intact b m v.
Proof.
  intros b m v H. unfold intact_b in H. rewrite andb_true_iff, !forallb_forall in H. destruct H as [H1 H2].
  split; intros a k Hak; apply held_sound; [exact (H1 _ Hak)|exact (H2 _ Hak)].
Qed.

Lemma frame_held : forall b m v, flat b -> (forall a k, In (a, k) (frame m v) -> a + k <= gs_len (b_bytes b)) ->
  (forall a t, In (a, t) (links m v) -> a + 4 <= gs_len (b_bytes b)) -> intact b m v.
Proof. intros b m v [_ F] H1 H2. split; intros a k Hak; right; rewrite F; (split; [eauto|constructor]). Qed.

Definition in_memory_b (b : base) : bool :=
  match b_rdiffs b with [] => true | _ => false end && forallb (fun d => 0 <=? d_off d) (b_diffs b).

Lemma in_memory_sound : forall b, in_memory_b b = true -> in_memory b.
Proof.
  intros b H. unfold in_memory_b in H. apply andb_true_iff in H. destruct H as [H1 H2]. split; [destruct (b_rdiffs b); [reflexivity|discriminate]|].
  rewrite forallb_forall in H2. apply Forall_forall. intros d Hd. specialize (H2 d Hd). lia.
Qed.

Lemma content_shows : forall b m, in_memory b -> (forall i, 0 <= i -> content b i = m i) -> shows b m.
Proof. intros b m HB H i Hi. rewrite (peek_content b i HB Hi). rewrite (H i Hi). reflexivity. Qed.

Definition same_cell (x y : option byte) : bool :=
  match x, y with Some x, Some y => Byte.eqb x y | None, None => true | _, _ => false end.

Lemma same_cell_sound : forall x y, same_cell x y = true -> x = y.
Proof. intros [x|] [y|] H; cbn in H; try discriminate; [|reflexivity]. apply byte_dec_bl in H. congruence. Qed.

Lemma shows_sound : forall b l, in_memory b -> (len_buf b <=? zlen l) = true ->
  forallb (fun i => same_cell (content b (Z.of_nat i)) (zget l (Z.of_nat i))) (seq 0 (List.length l)) = true -> shows b (img_bytes l).
Proof.
  intros b l HB HL H. apply content_shows; [exact HB|]. intros i Hi. unfold img_bytes. destruct (Z_lt_ge_dec i (zlen l)) as [I|I].
  - rewrite forallb_forall in H. specialize (H (Z.to_nat i)). rewrite Z2Nat.id in H by lia. apply same_cell_sound, H. apply in_seq. unfold zlen in I. lia.
  - rewrite content_ge_len by (auto; lia). rewrite zget_ge by lia. reflexivity.
Qed.

Section Several.
Variable n : names.
Variable s : schema.
Hypothesis HD : describes n s.

(** A buffer without journal to start with *)
Lemma jour_edits : forall es b m fuel name p v, in_memory b -> shows b m ->
  stored_table m s name p v -> intact b m v -> Forall (editable n s m v) es -> (1 <= fuel)%nat ->
  exists b', put_all n fuel b (map call_of es) = Ok b' /\ in_memory b' /\ shows b' (written m es) /\
    stored_table (written m es) s name p v /\ intact b' (written m es) v /\
    forall es1 e es2, es = es1 ++ e :: es2 -> Forall (fun e' => (e_pos e, e_idx e) <> (e_pos e', e_idx e')) es2 ->
      delivers b' (val_pos (e_old e)) (e_bytes e).
Proof.
  intros es b m fuel name p v HB HM H HI HE Hfu.
  destruct (put_several n s HD es b m fuel name p v HB HM H HI HE Hfu) as (b' & P1 & P2 & P3 & P4 & P5 & P6 & P7).
  exists b'. repeat (split; [assumption|]). intros es1 e es2 E HN. destruct (P7 es1 e es2 E HN) as [Q1 Q2].
  rewrite E in HE. apply Forall_app in HE. destruct HE as [_ HE]. inversion HE as [|? ? E1 _]; subst.
  apply (held_delivers b' (written m (es1 ++ e :: es2))); auto; [|exact (ed_some _ _ _ _ _ E1)].
  pose proof (edit_place n s HD m v name p e H E1). lia.
Qed.

End Several.
