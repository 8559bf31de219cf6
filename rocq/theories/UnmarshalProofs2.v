(** Checks of the hypotheses for samples. *)
From Coq Require Import ZArith List Bool Lia String.
From Coq Require Import Strings.Byte.
From Verif Require Import GoLib BaseModel GoLemmas BaseSpec TableModel TableSpec NameModel NameSpec NameProofs.
From Verif Require Import StreamModel WalkModel WalkSpec WalkProofs WalkProofs2 WalkProofs3 WalkProofs6 UnmarshalModel UnmarshalSpec.
Import ListNotations.
Open Scope list_scope.
Open Scope Z_scope.

Definition is_name (o : option string) (s : string) : bool := match o with Some x => String.eqb x s | None => false end.

Definition names_b (n : names) (name : string) (l : list string) : bool :=
  match lookup (n_nameidx n) name with
  | None => false
  | Some m => forallb (fun p => is_name (zget l (snd p)) (fst p)) m &&
              forallb (fun i => match zget l i with
                                | Some f => match lookup m f with Some j => j =? i | None => false end
                                | None => false
                                end) (indexes (zlen l))
  end.

Lemma names_sound : forall n name l, names_b n name l = true -> field_names n name l.
Proof.
  intros n name l H. unfold names_b in H. destruct (lookup (n_nameidx n) name) as [m|] eqn:E; [|discriminate].
  exists m. split; [exact E|]. rewrite andb_true_iff, !forallb_forall in H. destruct H as [H1 H2]. intros f i. split.
  - intros L. apply lookup_in in L. specialize (H1 _ L). cbn [fst snd] in H1. unfold is_name in H1.
    destruct (zget l i); [|discriminate]. apply String.eqb_eq in H1. congruence.
  - intros G. specialize (H2 i (proj2 (indexes_in _ _) (zget_some_range _ _ _ G))). rewrite G in H2.
    destruct (lookup m f) as [j|]; [|discriminate]. f_equal. lia.
Qed.

Definition holds_b (g : gtype) (t : scalar) : bool :=
  match g with
  | GAny => true
  | GNum u => scalar_b u t || (scalar_b t SByte && scalar_b u SUint8) || (scalar_b t SUint8 && scalar_b u SByte)
  | _ => false
  end.

Lemma scalar_b_true : forall a b, scalar_b a b = true -> a = b.
Proof. intros a b H. unfold scalar_b in H. destruct (scalar_eq_dec a b); congruence. Qed.

Lemma holds_sound : forall g t, holds_b g t = true -> holds g t.
Proof.
  intros g t H. unfold holds_b in H. destruct g as [u| | |]; try discriminate; [|left; reflexivity].
  rewrite !orb_true_iff, !andb_true_iff in H. unfold holds. destruct H as [[H|[H1 H2]]|[H1 H2]].
  - apply scalar_b_true in H. subst. auto.
  - apply scalar_b_true in H1, H2. subst. auto.
  - apply scalar_b_true in H1, H2. subst. auto 6.
Qed.

Definition typed_b (n : names) (name : string) (i : Z) (t : scalar) : bool :=
  match lookup (n_idxname n) name with Some l => is_name (lookupz l i) (scalar_name t true) | None => false end.

Definition fits_b (n : names) (name : string) (tys : list ty) (vs : list val) (f : gfield) : bool :=
  match g_tag f with
  | None => true
  | Some s =>
      match lookup (sub (n_nameidx n) name) s with
      | None => true
      | Some i =>
          match zget tys i with
          | Some (TyScalar t) => g_set f && holds_b (g_type f) t && typed_b n name i t
          | Some (TyScalars t) => g_set f && match g_type f with GBytes => true | _ => false end && (zwidth t =? 1) &&
                                  match zget vs i with Some (Absent _) => false | _ => true end
          | _ => true
          end
      end
  end.

Lemma fits_sound : forall n name tys vs l fs, field_names n name l -> forallb (fits_b n name tys vs) fs = true ->
  Forall (fits n name tys vs l) fs.
Proof.
  intros n name tys vs l fs (m & M1 & M2) H. apply Forall_forall. intros f Hf. rewrite forallb_forall in H. specialize (H f Hf).
  intros i (s & S1 & S2). unfold fits_b in H. rewrite S1, (sub_lookup _ _ _ _ M1), (proj2 (M2 s i) S2) in H.
  destruct (zget tys i) as [[t|sn ms|tn|us|t|sn ms|tn]|]; try exact I.
  - rewrite !andb_true_iff in H. destruct H as ((H1 & H2) & H3). split; [exact H1|]. split; [apply holds_sound; exact H2|].
    unfold typed_b in H3. destruct (lookup (n_idxname n) name) as [il|] eqn:E; [|discriminate]. exists il. split; [exact E|].
    unfold is_name in H3. destruct (lookupz il i) as [x|]; [|discriminate]. apply String.eqb_eq in H3. congruence.
  - rewrite !andb_true_iff in H. destruct H as (((H1 & H2) & H3) & H4). split; [exact H1|].
    split; [destruct (g_type f); congruence|]. split; [lia|]. intros E. rewrite E in H4. discriminate.
Qed.

Definition members_b (n : names) (name : string) (ms : list scalar) : bool :=
  forallb (fun i => match zget ms i, group_of n name i with
                    | Some t, Some g => says_b g [CBasic (width t)]
                    | _, _ => false
                    end) (indexes (zlen ms)).

Lemma members_sound : forall n name ms, members_b n name ms = true -> members_described n name ms.
Proof.
  intros n name ms H i t Ht. unfold members_b in H. rewrite forallb_forall in H.
  specialize (H i (proj2 (indexes_in _ _) (zget_some_range _ _ _ Ht))). rewrite Ht in H.
  destruct (group_of n name i) as [g|]; [|discriminate]. exists g. split; [reflexivity|apply says_sound; exact H].
Qed.

Definition occupied_b (l : list byte) (p k : Z) : bool := (0 <=? p) && (p + k <=? zlen l).

Lemma occupied_sound : forall l p k, occupied_b l p k = true -> occupied (img_bytes l) p k.
Proof.
  intros l p k H i Hi. unfold occupied_b in H. rewrite andb_true_iff in H. destruct H. unfold img_bytes. apply zget_some. lia.
Qed.
