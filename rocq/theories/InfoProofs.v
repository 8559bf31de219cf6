(** Proofs about buffer lengths (C47). *)
From Coq Require Import ZArith List Bool Lia Permutation.
From Coq Require Import Strings.Byte.
From Verif Require Import GoLib GoLemmas InfoModel InfoSpec.
Import ListNotations.
Open Scope Z_scope.

Lemma bind_ok : forall {A B} (m : res A) (f : A -> res B) b,
  bind m f = Ok b -> exists a, m = Ok a /\ f a = Ok b.
Proof. intros A B [a| |] f b H; cbn in H; try discriminate. exists a. auto. Qed.

Ltac bok H := apply bind_ok in H; let a := fresh "a" in let E := fresh "E" in destruct H as [a [E H]].

(** ** Words *)

Lemma get_at_word : forall n buf pos v,
  get_at n buf pos = Ok v <-> word n (sl_data buf) pos v.
Proof.
  intros n buf pos v. unfold get_at, gs_from, word, get_le, gs_len.
  destruct ((0 <=? pos) && (pos <=? zlen (sl_data buf))) eqn:E; cbn [bind sl_data].
  - apply andb_true_iff in E. destruct E as [E1 E2].
    apply Z.leb_le in E1. apply Z.leb_le in E2.
    assert (L : Z.of_nat (length (zskip pos (sl_data buf))) = zlen (sl_data buf) - pos).
    { unfold zskip. rewrite skipn_length. unfold zlen in *. lia. }
    destruct (length (zskip pos (sl_data buf)) <? n)%nat eqn:F.
    + apply Nat.ltb_lt in F. split; [discriminate|]. intros (A & B & C). lia.
    + apply Nat.ltb_ge in F. split.
      * intros H. inversion H. repeat split; lia.
      * intros (A & B & C). subst v. reflexivity.
  - split; [discriminate|]. intros (A & B & C). exfalso.
    apply andb_false_iff in E. destruct E as [E|E]; apply Z.leb_gt in E; lia.
Qed.

Lemma word_fun : forall n l p a b, word n l p a -> word n l p b -> a = b.
Proof. intros n l p a b (_ & _ & A) (_ & _ & B). congruence. Qed.

Lemma word_range : forall n l p v, word n l p v -> 0 <= v < 256 ^ Z.of_nat n.
Proof.
  intros n l p v (A & B & ->). pose proof (le_decode_range (firstn n (zskip p l))) as R.
  unfold zlen in R. rewrite firstn_length in R.
  rewrite Nat.min_l in R; [exact R|]. unfold zskip. rewrite skipn_length. unfold zlen in B. lia.
Qed.

Lemma get_at_fuel : forall n buf pos, get_at n buf pos <> OutOfFuel.
Proof.
  intros n buf pos. unfold get_at, gs_from, get_le.
  destruct (_ && _); cbn [bind]; [|discriminate]. destruct (_ <? _)%nat; discriminate.
Qed.

Lemma gs_range_fuel : forall s a b, gs_range s a b <> OutOfFuel.
Proof. intros s a b. unfold gs_range. destruct (_ && _); discriminate. Qed.

Lemma u32_mod : forall z, u32 z = z mod 4294967296.
Proof. reflexivity. Qed.

Lemma u32_range : forall z, 0 <= u32 z < 4294967296.
Proof. intros z. rewrite u32_mod. apply Z.mod_pos_bound. lia. Qed.

Lemma u32_small : forall z, 0 <= z < 4294967296 -> u32 z = z.
Proof. intros z H. rewrite u32_mod. apply Z.mod_small. exact H. Qed.

Lemma u32_eq : forall a b k, a = b + 4294967296 * k -> u32 a = u32 b.
Proof.
  intros a b k ->. rewrite !u32_mod. rewrite Z.mul_comm. apply Z_mod_plus_full.
Qed.

Lemma u32_add_l : forall a b, u32 (u32 a + b) = u32 (a + b).
Proof. intros a b. rewrite !u32_mod. apply Zplus_mod_idemp_l. Qed.

Lemma u32_signed : forall a v, u32 (a - to_signed 4 v) = u32 (a - v).
Proof.
  intros a v. unfold to_signed. destruct (v <? _); [reflexivity|].
  change (8 * Z.of_nat 4) with 32. change (2 ^ 32) with 4294967296.
  apply (u32_eq _ _ 1). lia.
Qed.

Lemma u32_div : forall z, exists k, u32 z = z + 4294967296 * k.
Proof.
  intros z. exists (- (z / 4294967296)). rewrite u32_mod.
  pose proof (Z_div_mod_eq_full z 4294967296). lia.
Qed.

Lemma last_pos : forall p off cnt,
  u32 (u32 (u32 (p + off) + 4) + u32 (u32 (cnt - 1) * 4)) = u32 (p + off + 4 * cnt).
Proof.
  intros p off cnt.
  destruct (u32_div (u32 (p + off) + 4)) as [a ->].
  destruct (u32_div (p + off)) as [b ->].
  destruct (u32_div (u32 (cnt - 1) * 4)) as [c ->].
  destruct (u32_div (cnt - 1)) as [d ->].
  apply (u32_eq _ _ (a + b + c + 4 * d)). lia.
Qed.

(** ** The vtable *)

Lemma vtable_loop_ok : forall fuel buf cur hi acc t,
  0 <= cur -> zlen (sl_data buf) < 4294967296 ->
  vtable_loop fuel buf cur hi acc = Ok t ->
  exists es, t = acc ++ es /\
    forall i e, nth_error es i = Some e <->
      (cur + 2 * Z.of_nat i < hi /\ word 2 (sl_data buf) (cur + 2 * Z.of_nat i) e).
Proof.
  induction fuel as [|fuel IH]; intros buf cur hi acc t Hc Hl H; cbn [vtable_loop] in H; [discriminate|].
  destruct (cur <? hi) eqn:E.
  - apply Z.ltb_lt in E. bok H. rename a into e0. apply get_at_word in E0. pose proof E0 as (A & B & _).
    assert (S2 : u32 (cur + 2) = cur + 2) by (apply u32_small; lia).
    rewrite S2 in H. apply IH in H; [|lia|exact Hl]. destruct H as (es & -> & Hes).
    exists (e0 :: es). split; [rewrite <- app_assoc; reflexivity|].
    intros [|i] e; cbn [nth_error].
    + replace (cur + 2 * Z.of_nat 0) with cur by lia. split.
      * intros X. inversion X. subst e0. auto.
      * intros [_ W]. f_equal. eapply word_fun; eassumption.
    + rewrite Hes. replace (cur + 2 * Z.of_nat (S i)) with (cur + 2 + 2 * Z.of_nat i) by lia. reflexivity.
  - apply Z.ltb_ge in E. inversion H. subst t. exists []. split; [rewrite app_nil_r; reflexivity|].
    intros i e. split.
    + destruct i; discriminate.
    + intros [X _]. lia.
Qed.

Lemma vtable_loop_fuel : forall fuel buf cur hi acc,
  0 <= cur -> zlen (sl_data buf) < 4294967296 -> (0 < fuel)%nat -> hi - cur < Z.of_nat fuel ->
  vtable_loop fuel buf cur hi acc <> OutOfFuel.
Proof.
  induction fuel as [|fuel IH]; intros buf cur hi acc Hc Hl Hp Hf; cbn [vtable_loop]; [lia|].
  destruct (cur <? hi) eqn:E; [|discriminate]. apply Z.ltb_lt in E.
  destruct (get_at 2 buf cur) as [e| |] eqn:G; cbn [bind]; [|discriminate|].
  - apply get_at_word in G. destruct G as (A & B & _).
    rewrite u32_small by lia. apply IH; try lia; assumption.
  - exfalso. exact (get_at_fuel _ _ _ G).
Qed.

Lemma fetch_vtable_ok : forall buf top v, zlen (sl_data buf) < 4294967296 ->
  fetch_vtable buf top = Ok v ->
  v_top v = top /\
  forall i e, nth_error (v_table v) i = Some e <-> has_entry u32 (sl_data buf) top i e.
Proof.
  intros buf top v Hl H. unfold fetch_vtable in H.
  bok H. rename a into voff. apply get_at_word in E.
  bok H. bok H. rename a0 into ss. bok H. rename a0 into vlen. apply get_at_word in E2.
  bok H. rename a0 into tlen. apply get_at_word in E3. bok H. rename a0 into t.
  pose proof E2 as (A & B & _). pose proof E3 as (A' & B' & _).
  rewrite (u32_small (u32 (top - voff) + 2)) in * by lia.
  rewrite (u32_small (u32 (top - voff) + 4)) in * by lia.
  apply vtable_loop_ok in E4; [|lia|exact Hl]. destruct E4 as (es & -> & Hes).
  destruct ss as [[so sp] sl]. inversion H. subst v. cbn [v_top v_table app].
  split; [reflexivity|]. intros i e. rewrite Hes. unfold has_entry. split.
  - intros [L W]. exists voff, (u32 (top - voff)), vlen, tlen. rewrite u32_signed. auto 10.
  - intros (voff' & vpos & vlen' & tlen' & W1 & -> & W2 & W3 & L & W).
    rewrite u32_signed in *. rewrite (word_fun _ _ _ _ _ W1 E) in *.
    rewrite (word_fun _ _ _ _ _ W2 E2) in *. auto.
Qed.

Lemma fetch_vtable_fuel : forall buf top, zlen (sl_data buf) < 4294967296 ->
  fetch_vtable buf top <> OutOfFuel.
Proof.
  intros buf top Hl H. unfold fetch_vtable in H.
  destruct (get_at 4 buf top) as [voff| |] eqn:E; cbn [bind] in H; try discriminate;
    [|exact (get_at_fuel _ _ _ E)].
  destruct (get_at 4 buf (u32 (top + 4))) as [soff| |] eqn:E1; cbn [bind] in H; try discriminate;
    [|exact (get_at_fuel _ _ _ E1)].
  match type of H with bind ?m _ = _ => destruct m as [[[so sp] sl]| |] eqn:E2 end;
    cbn [bind] in H; try discriminate.
  - destruct (get_at 2 buf (u32 (top - voff))) as [vlen| |] eqn:E3; cbn [bind] in H; try discriminate;
      [|exact (get_at_fuel _ _ _ E3)].
    destruct (get_at 2 buf (u32 (u32 (top - voff) + 2))) as [tlen| |] eqn:E4; cbn [bind] in H; try discriminate;
      [|exact (get_at_fuel _ _ _ E4)].
    match type of H with bind ?m _ = _ => destruct m as [t| |] eqn:E5 end;
      cbn [bind] in H; try discriminate.
    clear H. apply get_at_word in E3. pose proof (word_range _ _ _ _ E3) as R.
    destruct E3 as (A & B & _). apply get_at_word in E4. pose proof E4 as (A' & B' & _).
    rewrite (u32_small (u32 (top - voff) + 2)) in * by lia.
    rewrite (u32_small (u32 (top - voff) + 4)) in * by lia.
    revert E5. apply vtable_loop_fuel; try lia.
    assert (u32 (u32 (top - voff) + vlen) <= u32 (top - voff) + vlen).
    { rewrite (u32_mod (u32 (top - voff) + vlen)). apply Z.mod_le; lia. }
    lia.
  - destruct (soff <? gs_len buf); [|discriminate].
    destruct (get_at 4 buf soff) eqn:E3; cbn [bind] in E2; try discriminate.
    exact (get_at_fuel _ _ _ E3).
Qed.

(** ** One field *)

(** The effect of a field: an end, or a table referred to. *)
Inductive effect (l : list byte) (o : option_t) (pos : Z) : Z + Z -> Prop :=
| e_scalar n : scalar_field o n -> effect l o pos (inl (u32 (pos + n)))
| e_string off cnt : string_field o -> word 4 l pos off -> word 4 l (u32 (pos + off)) cnt ->
    effect l o pos (inl (u32 (pos + off + 4 + cnt)))
| e_refers t : refers u32 l o pos t -> effect l o pos (inr t).

Lemma kinds : forall o,
  match field_type o with
  | KScalar n => scalar_field o (Z.of_nat n)
  | KVector => vector_field o
  | KNest => table_field o
  | KString => string_field o
  end.
Proof.
  intros [size v ns]. unfold field_type.
  destruct (size =? 1) eqn:E1. { apply Z.eqb_eq in E1. subst. exists v, ns. cbn. auto. }
  destruct (size =? 2) eqn:E2. { apply Z.eqb_eq in E2. subst. exists v, ns. cbn. auto. }
  destruct (size =? 4) eqn:E4. { apply Z.eqb_eq in E4. subst. exists v, ns. cbn. auto. }
  destruct (size =? 8) eqn:E8. { apply Z.eqb_eq in E8. subst. exists v, ns. cbn. auto 6. }
  apply Z.eqb_neq in E1. apply Z.eqb_neq in E2. apply Z.eqb_neq in E4. apply Z.eqb_neq in E8.
  assert (N : ~ In size [1; 2; 4; 8]) by (cbn; intuition congruence).
  destruct v; [exists size, ns; auto|]. destruct ns as [|n ns].
  - exists size. auto.
  - exists size, (n :: ns). repeat split; [exact N|discriminate].
Qed.

Lemma kind_fun : forall o,
  (forall n m, scalar_field o n -> scalar_field o m -> n = m) /\
  (forall n, scalar_field o n -> ~ string_field o /\ ~ vector_field o /\ ~ table_field o) /\
  (string_field o -> ~ vector_field o /\ ~ table_field o) /\ (vector_field o -> ~ table_field o).
Proof.
  intros [size v ns]. unfold scalar_field, string_field, vector_field, table_field. repeat split.
  - intros n m (? & ? & A & _) (? & ? & B & _). congruence.
  - destruct H as (? & ? & A & I). intros (? & B & N). congruence.
  - destruct H as (? & ? & A & I). intros (? & ? & B & N). congruence.
  - destruct H as (? & ? & A & I). intros (? & ? & B & N & _). congruence.
  - destruct H as (? & A & I). intros (? & ? & B & N). congruence.
  - destruct H as (? & A & I). intros (? & ? & B & _ & N). congruence.
  - intros (? & ? & A & I) (? & ? & B & _ & N). congruence.
Qed.

Lemma refers_fun : forall l o pos a b, refers u32 l o pos a -> refers u32 l o pos b -> a = b.
Proof.
  intros l o pos a b Ha Hb. destruct (kind_fun o) as (_ & _ & _ & K).
  inversion Ha; inversion Hb; subst; try (exfalso; eapply K; eassumption).
  - f_equal. f_equal. eapply word_fun; eassumption.
  - assert (off = off0) by (eapply word_fun; eassumption). subst off0.
    assert (cnt = cnt0) by (eapply word_fun; eassumption). subst cnt0.
    assert (rel = rel0) by (eapply word_fun; eassumption). subst rel0. reflexivity.
Qed.

Lemma effect_fun : forall l o pos a b, effect l o pos a -> effect l o pos b -> a = b.
Proof.
  intros l o pos a b Ha Hb. destruct (kind_fun o) as (K1 & K2 & K3 & K4).
  assert (R : forall t, refers u32 l o pos t -> table_field o \/ vector_field o).
  { intros t X. inversion X; auto. }
  inversion Ha as [n Hn|off cnt Hs W1 W2|t Ht]; inversion Hb as [n' Hn'|off' cnt' Hs' W1' W2'|t' Ht']; subst.
  - rewrite (K1 _ _ Hn Hn'). reflexivity.
  - exfalso. destruct (K2 _ Hn) as (X & _). auto.
  - exfalso. destruct (K2 _ Hn) as (_ & X & Y). destruct (R _ Ht'); auto.
  - exfalso. destruct (K2 _ Hn') as (X & _). auto.
  - rewrite (word_fun _ _ _ _ _ W1' W1) in *. rewrite (word_fun _ _ _ _ _ W2' W2). reflexivity.
  - exfalso. destruct (K3 Hs) as (X & Y). destruct (R _ Ht'); auto.
  - exfalso. destruct (K2 _ Hn') as (_ & X & Y). destruct (R _ Ht); auto.
  - exfalso. destruct (K3 Hs') as (X & Y). destruct (R _ Ht); auto.
  - rewrite (refers_fun _ _ _ _ _ Ht Ht'). reflexivity.
Qed.

Definition after (idx : nat) (x : Z + Z) (len : Z) (nest : list (nat * Z)) : Z * list (nat * Z) :=
  match x with
  | inl e => (Z.max len e, nest)
  | inr t => (len, set_nest idx t nest)
  end.

Lemma max_len_max : forall x y, max_len x y = Z.max x y.
Proof.
  intros x y. unfold max_len. destruct (x <? y) eqn:E.
  - apply Z.ltb_lt in E. lia.
  - apply Z.ltb_ge in E. lia.
Qed.

Lemma fetch_field_ok : forall all buf top opts idx entry len table nest st,
  fetch_field all buf top opts idx entry (len, table, nest) = Ok st ->
  exists o x tt, nth_error opts idx = Some o /\ effect (sl_data buf) o (u32 (top + entry)) x /\
    (forall len' table' nest',
       fetch_field all buf top opts idx entry (len', table', nest') =
       Ok (fst (after idx x len' nest'), table' ++ tt, snd (after idx x len' nest'))).
Proof.
  intros all buf top opts idx entry len table nest st H. unfold fetch_field in *.
  destruct (nth_error opts idx) as [o|]; [|discriminate]. exists o.
  pose proof (kinds o) as K. destruct (field_type o) as [n| | |].
  - bok H. rename a into tt. exists (inl (u32 (u32 (top + entry) + Z.of_nat n))), tt.
    split; [reflexivity|]. split; [constructor; exact K|].
    intros len' table' nest'. rewrite E. cbn [bind after fst snd]. rewrite max_len_max. reflexivity.
  - bok H. rename a into off. bok H. rename a into cnt. bok H.
    exists (inl (u32 (u32 (top + entry) + off + 4 + cnt))), [cnt].
    split; [reflexivity|]. split.
    { constructor; [exact K| |]; apply get_at_word; assumption. }
    intros len' table' nest'. rewrite E. cbn [bind]. rewrite E0. cbn [bind].
    rewrite E1. cbn [bind after fst snd]. rewrite max_len_max.
    rewrite u32_add_l, <- (u32_add_l (u32 (top + entry) + off + 4)). 
    rewrite <- (Z.add_assoc (u32 (_ + _)) 4 cnt), u32_add_l, u32_add_l, Z.add_assoc. reflexivity.
  - bok H. rename a into rel.
    exists (inr (u32 (u32 (top + entry) + rel))), (if all then [0] else []).
    split; [reflexivity|]. split.
    { apply e_refers. apply r_table; [exact K|]. apply get_at_word. exact E. }
    intros len' table' nest'. rewrite E. cbn [bind after fst snd].
    rewrite (Z.add_comm rel). reflexivity.
  - bok H. rename a into off. bok H. rename a into cnt. bok H. bok H. rename a0 into rel.
    rewrite last_pos in *.
    exists (inr (u32 (u32 (u32 (top + entry) + off + 4 * cnt) + rel))), [].
    split; [reflexivity|]. split.
    { apply e_refers. apply (r_last _ _ _ _ off cnt); [exact K| | |]; apply get_at_word; assumption. }
    intros len' table' nest'. rewrite E. cbn [bind]. rewrite E0. cbn [bind].
    rewrite E1. cbn [bind]. rewrite last_pos. rewrite E2. cbn [bind after fst snd].
    rewrite app_nil_r. reflexivity.
Qed.
