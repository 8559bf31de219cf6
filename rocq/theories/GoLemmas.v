(** Lemmas about the definitions of [GoLib.v]. *)
From Coq Require Import ZArith List Bool Lia.
From Coq Require Import ZifyBool ZifyNat.
From Coq Require Import Strings.Byte.
From Verif Require Import GoLib.
Import ListNotations.
Open Scope Z_scope.
Ltac Zify.zify_post_hook ::= Z.div_mod_to_equations.

Section Zget.
Context {A : Type}.
Implicit Types l : list A.

Lemma zlen_nonneg : forall l, 0 <= zlen l.
Proof. unfold zlen; lia. Qed.

Lemma zlen_nil : zlen (@nil A) = 0.
Proof. reflexivity. Qed.

Lemma zlen_cons : forall x l, zlen (x :: l) = 1 + zlen l.
Proof. unfold zlen; cbn [length]; lia. Qed.

Lemma zlen_app : forall l l', zlen (l ++ l') = zlen l + zlen l'.
Proof. unfold zlen; intros; rewrite app_length; lia. Qed.

Lemma zlen_zfirst : forall n l, zlen (zfirst n l) = Z.max 0 (Z.min n (zlen l)).
Proof. unfold zlen, zfirst; intros; rewrite firstn_length; lia. Qed.

Lemma zlen_zskip : forall n l, zlen (zskip n l) = Z.max 0 (zlen l - Z.max 0 n).
Proof. unfold zlen, zskip; intros; rewrite skipn_length; lia. Qed.

Lemma zget_neg : forall l i, i < 0 -> zget l i = None.
Proof. unfold zget; intros. destruct (i <? 0) eqn:E; [reflexivity|lia]. Qed.

Lemma zget_ge : forall l i, zlen l <= i -> zget l i = None.
Proof.
  unfold zget, zlen; intros. destruct (i <? 0) eqn:E; [reflexivity|].
  apply nth_error_None; lia.
Qed.

Lemma zget_some : forall l i, 0 <= i < zlen l -> exists x, zget l i = Some x.
Proof.
  unfold zget, zlen; intros. destruct (i <? 0) eqn:E; [lia|].
  destruct (nth_error l (Z.to_nat i)) eqn:N; eauto.
  apply nth_error_None in N; lia.
Qed.

Lemma zget_some_range : forall l i x, zget l i = Some x -> 0 <= i < zlen l.
Proof.
  unfold zget, zlen; intros l i x. destruct (i <? 0) eqn:E; [discriminate|].
  intros N. assert (nth_error l (Z.to_nat i) <> None) by congruence.
  apply nth_error_Some in H; lia.
Qed.

Lemma zget_none_range : forall l i, zget l i = None -> i < 0 \/ zlen l <= i.
Proof.
  intros. destruct (Z_lt_dec i 0); [lia|]. destruct (Z_le_dec (zlen l) i); [lia|].
  destruct (zget_some l i); [lia|congruence].
Qed.

Lemma zget_nil : forall i, zget (@nil A) i = None.
Proof. intros; unfold zget; destruct (i <? 0); destruct (Z.to_nat i); reflexivity. Qed.

Lemma zget_cons : forall x l i,
  zget (x :: l) i = if i =? 0 then Some x else zget l (i - 1).
Proof.
  intros; unfold zget. destruct (i =? 0) eqn:E.
  - replace i with 0 by lia; reflexivity.
  - destruct (i <? 0) eqn:E1; destruct (i - 1 <? 0) eqn:E2; try lia; try reflexivity.
    replace (Z.to_nat i) with (S (Z.to_nat (i - 1))) by lia. reflexivity.
Qed.

Lemma zget_app : forall l l' i,
  zget (l ++ l') i = if i <? zlen l then zget l i else zget l' (i - zlen l).
Proof.
  intros; unfold zget, zlen.
  destruct (i <? Z.of_nat (length l)) eqn:E.
  - destruct (i <? 0) eqn:E1; [reflexivity|]. apply nth_error_app1; lia.
  - destruct (i <? 0) eqn:E1; [lia|].
    destruct (i - Z.of_nat (length l) <? 0) eqn:E2; [lia|].
    rewrite nth_error_app2 by lia. f_equal; lia.
Qed.

Lemma nth_error_firstn_lt : forall (l : list A) n i,
  (i < n)%nat -> nth_error (firstn n l) i = nth_error l i.
Proof.
  induction l; intros [|n] [|i] H; cbn; try lia; try reflexivity.
  apply IHl; lia.
Qed.

Lemma nth_error_skipn_add : forall (l : list A) n i,
  nth_error (skipn n l) i = nth_error l (n + i).
Proof.
  induction l; intros [|n] i; cbn; try reflexivity.
  - destruct i; reflexivity.
  - apply IHl.
Qed.

Lemma zget_zfirst : forall n l i,
  zget (zfirst n l) i = if i <? n then zget l i else None.
Proof.
  intros; unfold zget, zfirst. destruct (i <? 0) eqn:E.
  - destruct (i <? n); reflexivity.
  - destruct (i <? n) eqn:E1.
    + apply nth_error_firstn_lt; lia.
    + apply nth_error_None. rewrite firstn_length; lia.
Qed.

Lemma zget_zskip : forall a l i, 0 <= a ->
  zget (zskip a l) i = if i <? 0 then None else zget l (a + i).
Proof.
  intros; unfold zget, zskip. destruct (i <? 0) eqn:E; [reflexivity|].
  destruct (a + i <? 0) eqn:E1; [lia|].
  rewrite nth_error_skipn_add. f_equal; lia.
Qed.

Lemma zget_ext : forall l l', (forall i, zget l i = zget l' i) -> l = l'.
Proof.
  induction l as [|x l IH]; intros [|y l'] H; [reflexivity| | |].
  - specialize (H 0); rewrite zget_nil, zget_cons in H; discriminate.
  - specialize (H 0); rewrite zget_nil, zget_cons in H; discriminate.
  - pose proof (H 0) as H0; rewrite !zget_cons in H0; cbn in H0; injection H0 as ->.
    f_equal; apply IH; intros i.
    destruct (Z_lt_dec i 0); [rewrite !zget_neg by lia; reflexivity|].
    specialize (H (i + 1)). rewrite !zget_cons in H.
    destruct (i + 1 =? 0) eqn:E; [lia|].
    replace (i + 1 - 1) with i in H by lia; exact H.
Qed.

Lemma zskip_0 : forall l, zskip 0 l = l.
Proof. reflexivity. Qed.

Lemma zfirst_all : forall l n, zlen l <= n -> zfirst n l = l.
Proof. unfold zfirst, zlen; intros; apply firstn_all2; lia. Qed.

Lemma zget_map : forall B (f : A -> B) l i, zget (map f l) i = option_map f (zget l i).
Proof.
  intros; unfold zget. destruct (i <? 0); [reflexivity|]. apply nth_error_map.
Qed.

Lemma zlen_map : forall B (f : A -> B) l, zlen (map f l) = zlen l.
Proof. intros; unfold zlen; rewrite map_length; reflexivity. Qed.

Lemma zget_nth_error : forall l n, zget l (Z.of_nat n) = nth_error l n.
Proof. intros; unfold zget. destruct (Z.of_nat n <? 0) eqn:E; [lia|]. f_equal; lia. Qed.

End Zget.

Lemma zlen_zeros : forall n, zlen (zeros n) = Z.max 0 n.
Proof. intros; unfold zlen, zeros; rewrite repeat_length; lia. Qed.

Lemma nth_error_repeat_lt : forall A (x : A) n i,
  (i < n)%nat -> nth_error (repeat x n) i = Some x.
Proof. induction n; intros [|i] H; cbn; try lia; try reflexivity. apply IHn; lia. Qed.

Lemma zget_zeros : forall n i,
  zget (zeros n) i = if (0 <=? i) && (i <? n) then Some x00 else None.
Proof.
  intros. destruct ((0 <=? i) && (i <? n)) eqn:E.
  - unfold zget, zeros. destruct (i <? 0) eqn:E1; [lia|].
    apply nth_error_repeat_lt; lia.
  - destruct (Z_lt_dec i 0); [apply zget_neg; lia|].
    apply zget_ge; rewrite zlen_zeros; lia.
Qed.

Lemma zlen_copy_at : forall l a p, 0 <= a <= zlen l -> zlen (copy_at l a p) = zlen l.
Proof.
  intros; unfold copy_at. rewrite !zlen_app, !zlen_zfirst, zlen_zskip.
  pose proof (zlen_nonneg p). lia.
Qed.

Lemma zget_copy_at : forall l a p i, 0 <= a <= zlen l ->
  zget (copy_at l a p) i =
    if (a <=? i) && (i <? a + zlen p) && (i <? zlen l) then zget p (i - a) else zget l i.
Proof.
  intros; unfold copy_at.
  pose proof (zlen_nonneg p).
  rewrite !zget_app, !zlen_zfirst, !zget_zfirst, zget_zskip by lia.
  replace (Z.max 0 (Z.min a (zlen l))) with a by lia.
  destruct (i <? a) eqn:E1.
  - replace (a <=? i) with false by lia. reflexivity.
  - replace (a <=? i) with true by lia. cbn [andb].
    destruct (i - a <? Z.max 0 (Z.min (zlen l - a) (zlen p))) eqn:E2.
    + replace (i <? a + zlen p) with true by lia. replace (i <? zlen l) with true by lia.
      cbn [andb]. destruct (i - a <? zlen l - a) eqn:E3; [reflexivity|lia].
    + destruct ((i <? a + zlen p) && (i <? zlen l)) eqn:E3; [lia|].
      destruct (i - a - _ <? 0) eqn:E4; [lia|].
      destruct (Z_lt_dec i (zlen l)).
      * f_equal. lia.
      * rewrite !zget_ge by lia. reflexivity.
Qed.

Lemma copy_at_full : forall l p, zlen p = zlen l -> copy_at l 0 p = p.
Proof.
  intros. apply zget_ext; intros i.
  rewrite zget_copy_at by (pose proof (zlen_nonneg l); lia).
  replace (i - 0) with i by lia.
  destruct ((0 <=? i) && (i <? 0 + zlen p) && (i <? zlen l)) eqn:E; [reflexivity|].
  destruct (Z_lt_dec i 0); [rewrite !zget_neg by lia; reflexivity|].
  rewrite !zget_ge by lia; reflexivity.
Qed.

(** ** Bytes *)

Lemma b2z_range : forall b, 0 <= b2z b < 256.
Proof. intros; unfold b2z. pose proof (Byte.to_N_bounded b). lia. Qed.

Lemma z2b_b2z : forall b, z2b (b2z b) = b.
Proof.
  intros; unfold z2b. rewrite Z.mod_small by apply b2z_range.
  unfold b2z. rewrite N2Z.id, Byte.of_to_N. reflexivity.
Qed.

Lemma b2z_z2b : forall z, b2z (z2b z) = z mod 256.
Proof.
  intros; unfold z2b. assert (0 <= z mod 256 < 256) by lia.
  destruct (Byte.of_N (Z.to_N (z mod 256))) eqn:E.
  - unfold b2z. apply Byte.to_of_N in E. lia.
  - apply Byte.of_N_None_iff in E. lia.
Qed.

Lemma length_le_encode : forall n v, length (le_encode n v) = n.
Proof. induction n; intros; cbn [le_encode length]; [reflexivity|f_equal; apply IHn]. Qed.

Lemma zlen_le_encode : forall n v, zlen (le_encode n v) = Z.of_nat n.
Proof. intros; unfold zlen; rewrite length_le_encode; reflexivity. Qed.

Lemma pow256_S : forall n, 256 ^ Z.of_nat (S n) = 256 * 256 ^ Z.of_nat n.
Proof. intros. rewrite Nat2Z.inj_succ, Z.pow_succ_r by lia. reflexivity. Qed.

Lemma pow256_pos : forall n, 0 < 256 ^ Z.of_nat n.
Proof. intros. apply Z.pow_pos_nonneg; lia. Qed.

Lemma pow256_pow2 : forall n, 256 ^ Z.of_nat n = 2 ^ (8 * Z.of_nat n).
Proof. intros. change 256 with (2 ^ 8). rewrite <- Z.pow_mul_r by lia. reflexivity. Qed.

Lemma le_decode_range : forall l, 0 <= le_decode l < 256 ^ zlen l.
Proof.
  induction l as [|b l IH].
  - cbn. lia.
  - cbn [le_decode]. unfold zlen in *. cbn [length]. rewrite pow256_S.
    pose proof (b2z_range b). nia.
Qed.

Lemma le_decode_encode : forall n v, le_decode (le_encode n v) = v mod 256 ^ Z.of_nat n.
Proof.
  induction n; intros; cbn [le_encode le_decode].
  - change (256 ^ Z.of_nat 0) with 1. rewrite Z.mod_1_r. reflexivity.
  - rewrite IHn, b2z_z2b, pow256_S.
    rewrite Z.rem_mul_r by (pose proof (pow256_pos n); lia). reflexivity.
Qed.

Lemma le_encode_decode : forall l, le_encode (length l) (le_decode l) = l.
Proof.
  induction l as [|b l IH]; [reflexivity|].
  cbn [length le_encode le_decode]. pose proof (b2z_range b).
  f_equal.
  - rewrite <- (z2b_b2z b) at 2. unfold z2b.
    replace ((b2z b + 256 * le_decode l) mod 256) with (b2z b mod 256); [reflexivity|].
    rewrite (Z.mul_comm 256), Z.mod_add by lia. reflexivity.
  - replace ((b2z b + 256 * le_decode l) / 256) with (le_decode l); [exact IH|].
    rewrite (Z.mul_comm 256), Z.div_add, Z.div_small by lia. lia.
Qed.

Lemma le_encode_mod : forall n v, le_encode n (v mod 256 ^ Z.of_nat n) = le_encode n v.
Proof.
  intros. rewrite <- le_decode_encode.
  rewrite <- (length_le_encode n v) at 1. apply le_encode_decode.
Qed.

(** ** Index searches *)

Lemma last_index_from_shift : forall A (p : A -> bool) l i,
  last_index_from p l (S i) = option_map S (last_index_from p l i).
Proof.
  induction l; intros; cbn; [reflexivity|].
  rewrite IHl. destruct (last_index_from p l (S i)) eqn:E; cbn; [reflexivity|].
  destruct (p a); reflexivity.
Qed.

(** The value found by a last-match search. *)
Fixpoint find_last {A} (p : A -> bool) (l : list A) : option A :=
  match l with
  | nil => None
  | x :: l' => match find_last p l' with
               | Some y => Some y
               | None => if p x then Some x else None
               end
  end.

Lemma last_index_find_last : forall A (p : A -> bool) l,
  match last_index p l with
  | Some n => nth_error l n = find_last p l /\ find_last p l <> None
  | None => find_last p l = None
  end.
Proof.
  unfold last_index. induction l as [|x l IH]; cbn; [reflexivity|].
  rewrite last_index_from_shift.
  destruct (last_index_from p l 0) eqn:E; cbn.
  - destruct IH as [IH1 IH2]. rewrite IH1. destruct (find_last p l); [split; congruence|congruence].
  - rewrite IH. destruct (p x); cbn; [split; congruence|reflexivity].
Qed.

Lemma find_last_app : forall A (p : A -> bool) l l',
  find_last p (l ++ l') = match find_last p l' with
                          | Some y => Some y
                          | None => find_last p l
                          end.
Proof.
  induction l; intros; cbn; [destruct (find_last p l'); reflexivity|].
  rewrite IHl. destruct (find_last p l'); reflexivity.
Qed.

Lemma find_last_some : forall A (p : A -> bool) l x,
  find_last p l = Some x -> In x l /\ p x = true.
Proof.
  induction l; cbn; [discriminate|]. intros x H.
  destruct (find_last p l) eqn:E.
  - injection H as ->. destruct (IHl x eq_refl). auto.
  - destruct (p a) eqn:P; [injection H as ->; auto|discriminate].
Qed.

Lemma find_last_none : forall A (p : A -> bool) l x,
  find_last p l = None -> In x l -> p x = false.
Proof.
  induction l; cbn; [tauto|]. intros x H [->|I].
  - destruct (find_last p l); [discriminate|]. destruct (p x); [discriminate|reflexivity].
  - destruct (find_last p l) eqn:E; [discriminate|]. auto.
Qed.

Lemma find_last_none_iff : forall A (p : A -> bool) l,
  find_last p l = None <-> (forall x, In x l -> p x = false).
Proof.
  split; [intros; eapply find_last_none; eauto|].
  induction l; cbn; intros H; [reflexivity|].
  rewrite IHl by auto. rewrite H by auto. reflexivity.
Qed.

Lemma find_last_ext : forall A (p q : A -> bool) l,
  (forall x, In x l -> p x = q x) -> find_last p l = find_last q l.
Proof.
  induction l; cbn; intros H; [reflexivity|].
  rewrite IHl by auto. rewrite H by auto. reflexivity.
Qed.

Lemma find_last_map : forall A B (p : B -> bool) (f : A -> B) l,
  find_last p (map f l) = option_map f (find_last (fun x => p (f x)) l).
Proof.
  induction l; cbn; [reflexivity|]. rewrite IHl.
  destruct (find_last _ l); cbn; [reflexivity|]. destruct (p (f a)); reflexivity.
Qed.

Lemma last_index_some : forall A (p : A -> bool) l n,
  last_index p l = Some n ->
  exists l1 x l2, l = l1 ++ x :: l2 /\ length l1 = n /\ p x = true /\ find_last p l2 = None.
Proof.
  unfold last_index. induction l as [|a l IH]; cbn; [discriminate|].
  intros n. rewrite last_index_from_shift.
  destruct (last_index_from p l 0) eqn:E; cbn.
  - intros H; injection H as <-. destruct (IH _ eq_refl) as (l1 & x & l2 & -> & <- & P & F).
    exists (a :: l1), x, l2. auto.
  - destruct (p a) eqn:P; [|discriminate]. intros H; injection H as <-.
    exists nil, a, l. repeat split; auto.
    pose proof (last_index_find_last A p l) as L. unfold last_index in L.
    rewrite E in L. exact L.
Qed.

Lemma last_index_none : forall A (p : A -> bool) l,
  last_index p l = None -> find_last p l = None.
Proof.
  intros A p l H. pose proof (last_index_find_last A p l) as L. rewrite H in L. exact L.
Qed.

Lemma nth_error_mid : forall A (l1 : list A) x l2, nth_error (l1 ++ x :: l2) (length l1) = Some x.
Proof. intros. rewrite nth_error_app2, Nat.sub_diag by lia. reflexivity. Qed.

Lemma firstn_mid : forall A (l1 : list A) l2, firstn (length l1) (l1 ++ l2) = l1.
Proof. intros. rewrite firstn_app, Nat.sub_diag, firstn_all. cbn. apply app_nil_r. Qed.

Lemma skipn_mid : forall A (l1 : list A) l2, skipn (length l1) (l1 ++ l2) = l2.
Proof. intros. rewrite skipn_app, Nat.sub_diag, skipn_all. reflexivity. Qed.

Lemma skipn_mid_S : forall A (l1 : list A) x l2, skipn (S (length l1)) (l1 ++ x :: l2) = l2.
Proof.
  intros. replace (l1 ++ x :: l2) with ((l1 ++ [x]) ++ l2) by (rewrite <- app_assoc; reflexivity).
  replace (S (length l1)) with (length (l1 ++ [x])) by (rewrite app_length; cbn; lia).
  apply skipn_mid.
Qed.

(** ** Slices *)

Lemma gs_len_of : forall l, gs_len (gs_of l) = zlen l.
Proof. reflexivity. Qed.

Lemma gs_from_ok : forall s a, 0 <= a <= gs_len s ->
  gs_from s a = Ok (mkSlice (zskip a (sl_data s)) (sl_spare s)).
Proof.
  intros; unfold gs_from. replace ((0 <=? a) && (a <=? gs_len s)) with true by lia. reflexivity.
Qed.

Lemma gs_cap_ge : forall s, gs_len s <= gs_cap s.
Proof. intros; unfold gs_len, gs_cap. pose proof (zlen_nonneg (sl_spare s)). lia. Qed.

Lemma gs_len_nonneg : forall s, 0 <= gs_len s.
Proof. intros; apply zlen_nonneg. Qed.

Lemma gs_range_ok : forall s a b, 0 <= a <= b -> b <= gs_cap s ->
  gs_range s a b = Ok (mkSlice (zskip a (zfirst b (sl_data s ++ sl_spare s)))
                               (zskip b (sl_data s ++ sl_spare s))).
Proof.
  intros; unfold gs_range.
  replace ((0 <=? a) && (a <=? b) && (b <=? gs_cap s)) with true by lia. reflexivity.
Qed.

Lemma zfirst_app_le : forall A n (l l' : list A), n <= zlen l -> zfirst n (l ++ l') = zfirst n l.
Proof.
  intros. apply zget_ext; intros i. rewrite !zget_zfirst, zget_app.
  destruct (i <? n) eqn:E; [|reflexivity].
  replace (i <? zlen l) with true by lia. reflexivity.
Qed.

Lemma gs_upto3_ok : forall s b c, 0 <= b <= c -> c <= gs_cap s ->
  gs_upto3 s b c = Ok (mkSlice (zfirst b (sl_data s ++ sl_spare s))
                               (zskip b (zfirst c (sl_data s ++ sl_spare s)))).
Proof.
  intros; unfold gs_upto3.
  replace ((0 <=? b) && (b <=? c) && (c <=? gs_cap s)) with true by lia. reflexivity.
Qed.
