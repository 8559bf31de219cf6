(** Decision procedures for concrete schemas and buffers. *)
From Coq Require Import ZArith List Bool Lia String.
From Coq Require Import Strings.Byte.
From Verif Require Import GoLib BaseModel GoLemmas BaseSpec BaseProofs TableModel TableSpec TableProofs.
From Verif Require Import TableProofs2 NameModel NameSpec NameProofs NameProofs2.
From Verif Require Import WalkModel WalkSpec WalkProofs WalkProofs2 WalkProofs3.
Import ListNotations.
Open Scope list_scope.
Open Scope Z_scope.

(** ** Name tables *)

Definition says_b (g : Z) (l : list class) : bool :=
  (0 <=? g) && (g <? 512) &&
  forallb (fun k => Bool.eqb (Z.testbit g k) (has l k)) (indexes 9) &&
  forallb (fun c => class_bit c <? 9) l.

Lemma says_sound : forall g l, says_b g l = true -> says g l.
Proof.
  intros g l H k Hk. unfold says_b in H. rewrite !andb_true_iff in H. destruct H as (((H1 & H2) & H3) & H4).
  rewrite forallb_forall in H3, H4. unfold has, bits in H3.
  assert (IN : In k (map class_bit l) <-> existsb (Z.eqb k) (map class_bit l) = true).
  { rewrite existsb_exists. split.
    - intros H. exists k. split; [exact H|lia].
    - intros (x & Hx & E). replace k with x by lia. exact Hx. }
  destruct (Z_lt_dec k 9) as [L|L].
  - rewrite IN. specialize (H3 k). rewrite eqb_true_iff in H3. rewrite H3; [reflexivity|].
    apply indexes_in. lia.
  - split.
    + intros T. exfalso. assert (B : g < 2 ^ k).
      { apply Z.lt_le_trans with (2 ^ 9); [lia|]. apply Z.pow_le_mono_r; lia. }
      destruct (Z.eq_dec g 0) as [->|N]; [rewrite Z.bits_0 in T; discriminate|].
      rewrite Z.bits_above_log2 in T; [discriminate|lia|]. apply Z.log2_lt_pow2; lia.
    + intros T. exfalso. apply in_map_iff in T. destruct T as (c & <- & Hc). specialize (H4 c Hc). lia.
Qed.

Definition keys_b {A} (l : list (Z * A)) (k : Z) : bool :=
  forallb (fun p => (0 <=? fst p) && (fst p <? k)) l &&
  forallb (fun i => existsb (fun p => fst p =? i) l) (indexes k).

Lemma keys_sound : forall A (l : list (Z * A)) k, keys_b l k = true -> keys_below l k.
Proof.
  intros A l k H i. unfold keys_b in H. rewrite andb_true_iff, !forallb_forall in H. destruct H as [H1 H2]. split.
  - intros (x & Hx). specialize (H1 _ Hx). cbn [fst] in H1. lia.
  - intros Hi. specialize (H2 i (proj2 (indexes_in k i) Hi)). apply existsb_exists in H2.
    destruct H2 as ([j x] & Hx & E). cbn [fst] in E. exists x. replace i with j by lia. exact Hx.
Qed.

Definition group_b (n : names) (s : string) (l : list class) : bool :=
  match get_type_group n s with Ok g => says_b g l | _ => false end.

Lemma group_sound : forall n s l, group_b n s l = true -> exists g, get_type_group n s = Ok g /\ says g l.
Proof.
  intros n s l H. unfold group_b in H. destruct (get_type_group n s) as [g| |]; try discriminate.
  exists g. split; [reflexivity|apply says_sound; exact H].
Qed.

Definition scalar_eq_dec (a b : scalar) : {a = b} + {a <> b}.
Proof. decide equality. Defined.

Definition scalar_b (a b : scalar) : bool := if scalar_eq_dec a b then true else false.

Definition struct_b (n : names) (name : string) (ms : list scalar) : bool :=
  is_struct_name n name && group_b n name [CStruct] &&
  match lookup (n_idxname n) name with Some _ => true | None => false end &&
  match lookup (n_groups n) name with Some l => keys_b l (zlen ms) | None => false end &&
  match lookup (n_types n) name with
  | Some l => forallb (fun i => match zget ms i, lookupz l i with
                                | Some t, Some t' => scalar_b t t' | _, _ => false end) (indexes (zlen ms))
  | None => false
  end.

Lemma struct_sound : forall n name ms, struct_b n name ms = true -> struct_described n name ms.
Proof.
  intros n name ms H. unfold struct_b in H. rewrite !andb_true_iff in H. destruct H as ((((H1 & H2) & H3) & H4) & H5).
  split; [|split; [|split; [|split]]].
  - unfold is_struct_name in H1. destruct (lookup (n_structs n) name) as [[|]|]; congruence.
  - apply group_sound; exact H2.
  - destruct (lookup (n_idxname n) name); [discriminate|congruence].
  - destruct (lookup (n_groups n) name) as [l|]; [|discriminate]. exists l. split; [reflexivity|apply keys_sound; exact H4].
  - destruct (lookup (n_types n) name) as [l|]; [|discriminate]. exists l. split; [reflexivity|]. rewrite forallb_forall in H5.
    intros i t Ht. pose proof (zget_some_range _ _ _ Ht) as R. specialize (H5 i (proj2 (indexes_in _ _) R)).
    rewrite Ht in H5. destruct (lookupz l i) as [t'|]; [|discriminate]. unfold scalar_b in H5.
    destruct (scalar_eq_dec t t'); congruence.
Qed.

Definition table_b (n : names) (name : string) : bool :=
  negb (is_struct_name n name) && group_b n name [CTable].

Lemma table_sound : forall n name, table_b n name = true -> table_described n name.
Proof.
  intros n name H. unfold table_b in H. rewrite andb_true_iff in H. destruct H as (H1 & H2). split.
  - unfold is_struct_name in H1. destruct lookup as [[|]|]; try discriminate; congruence.
  - apply group_sound; exact H2.
Qed.

Fixpoint strings_b (a b : list string) : bool :=
  match a, b with
  | [], [] => true
  | x :: a', y :: b' => String.eqb x y && strings_b a' b'
  | _, _ => false
  end.

Lemma strings_sound : forall a b, strings_b a b = true -> a = b.
Proof.
  induction a as [|x a IH]; intros [|y b] H; cbn in H; try discriminate; [reflexivity|].
  rewrite andb_true_iff in H. destruct H as [H1 H2]. apply String.eqb_eq in H1. subst y. f_equal. apply IH, H2.
Qed.

Definition elem_name (typ : string) : option string :=
  match typ with
  | String a (String b e) => if String.eqb (String a (String b EmptyString)) "[]" then Some e else None
  | _ => None
  end.

Lemma elem_sound : forall typ e, elem_name typ = Some e -> typ = ("[]" ++ e)%string.
Proof.
  intros [|a [|b typ]] e H; cbn [elem_name] in H; try discriminate. destruct String.eqb eqn:E; [|discriminate].
  apply String.eqb_eq in E. injection E as -> ->. injection H as <-. reflexivity.
Qed.

Definition elem_b (typ : string) (P : string -> bool) : bool :=
  match elem_name typ with Some e => P e | None => false end.

Definition field_b (n : names) (name : string) (i : Z) (t : ty) (typ : string) (g : Z) : bool :=
  match t with
  | TyScalar t => says_b g [CBasic (width t)] &&
      match lookup (n_types n) name with
      | Some l => match lookupz l i with Some t' => scalar_b t t' | None => false end
      | None => false
      end
  | TyStruct sn ms => says_b g [CStruct] && String.eqb typ sn && struct_b n sn ms
  | TyTable tn => says_b g [CTable] && String.eqb typ tn
  | TyUnion us => says_b g [CUnion] &&
      match lookup (n_unions n) typ with Some l => strings_b l us | None => false end && (zlen us <? 256)
  | TyScalars t => says_b g [CSlice; CBasic (width t)] &&
      elem_b typ (fun e => match lookup name_to_type e with Some t' => scalar_b t t' | None => false end &&
                           match lookup (n_idxname n) e with Some _ => false | None => true end)
  | TyStructs sn ms => says_b g [CSlice; CTable] && elem_b typ (String.eqb sn) && struct_b n sn ms
  | TyTables tn => says_b g [CSlice; CTable] && elem_b typ (String.eqb tn) && table_b n tn
  end.

Lemma field_sound : forall n name i t typ g, field_b n name i t typ g = true ->
  field_described n name i t typ g.
Proof.
  intros n name i t typ g H. destruct t as [t|sn ms|tn|us|t|sn ms|tn]; cbn [field_b field_described] in *;
    rewrite ?andb_true_iff in H.
  - destruct H as (H1 & H2). split; [apply says_sound; exact H1|].
    destruct lookup as [l|]; [|discriminate]. exists l. split; [reflexivity|].
    destruct lookupz as [t'|]; [|discriminate]. unfold scalar_b in H2. destruct (scalar_eq_dec t t'); congruence.
  - destruct H as ((H1 & H2) & H3). split; [apply says_sound; exact H1|].
    split; [apply String.eqb_eq; exact H2|apply struct_sound; exact H3].
  - destruct H as (H1 & H2). split; [apply says_sound; exact H1|apply String.eqb_eq; exact H2].
  - destruct H as ((H1 & H2) & H3). split; [apply says_sound; exact H1|].
    destruct lookup as [l|]; [|discriminate]. apply strings_sound in H2. subst l. split; [reflexivity|lia].
  - destruct H as (H1 & H2). split; [apply says_sound; exact H1|].
    unfold elem_b in H2. destruct (elem_name typ) as [e|] eqn:E; [|discriminate]. exists e.
    split; [apply elem_sound; exact E|]. rewrite andb_true_iff in H2. destruct H2 as [H2 H3].
    destruct (lookup name_to_type e) as [t'|]; [|discriminate]. unfold scalar_b in H2.
    split; [destruct (scalar_eq_dec t t'); congruence|]. destruct (lookup (n_idxname n) e); [discriminate|reflexivity].
  - destruct H as ((H1 & H2) & H3). split; [apply says_sound; exact H1|].
    unfold elem_b in H2. destruct (elem_name typ) as [e|] eqn:E; [|discriminate]. apply String.eqb_eq in H2. subst e.
    split; [apply elem_sound; exact E|apply struct_sound; exact H3].
  - destruct H as ((H1 & H2) & H3). split; [apply says_sound; exact H1|].
    unfold elem_b in H2. destruct (elem_name typ) as [e|] eqn:E; [|discriminate]. apply String.eqb_eq in H2. subst e.
    split; [apply elem_sound; exact E|apply table_sound; exact H3].
Qed.

Definition one_b (n : names) (name : string) (tys : list ty) : bool :=
  table_b n name &&
  match lookup (n_groups n) name with Some l => keys_b l (zlen tys) | None => false end &&
  match lookup (n_idxname n) name with
  | Some l => forallb (fun i => match zget tys i, lookupz l i, group_of n name i with
                                | Some t, Some typ, Some g => field_b n name i t typ g
                                | _, _, _ => false
                                end) (indexes (zlen tys))
  | None => false
  end.

Definition describes_b (n : names) (s : list (string * list ty)) : bool :=
  forallb (fun p => one_b n (fst p) (snd p)) s.

Lemma describes_sound : forall n s, describes_b n s = true -> describes n (lookup s).
Proof.
  intros n s H name tys Hs. unfold describes_b in H. rewrite forallb_forall in H.
  assert (I : In (name, tys) s).
  { clear H. induction s as [|[k v] s IH]; cbn [lookup] in Hs; [discriminate|]. destruct (String.eqb k name) eqn:E.
    - apply String.eqb_eq in E. subst k. injection Hs as ->. left. reflexivity.
    - right. apply IH. exact Hs. }
  specialize (H _ I). cbn [fst snd] in H. unfold one_b in H. rewrite !andb_true_iff in H. destruct H as ((H1 & H2) & H3).
  split; [apply table_sound; exact H1|]. split.
  - destruct (lookup (n_groups n) name) as [l|]; [|discriminate]. exists l. split; [reflexivity|apply keys_sound; exact H2].
  - destruct (lookup (n_idxname n) name) as [l|]; [|discriminate]. exists l. split; [reflexivity|].
    rewrite forallb_forall in H3. intros i t Ht. pose proof (zget_some_range _ _ _ Ht) as R.
    specialize (H3 i (proj2 (indexes_in _ _) R)). rewrite Ht in H3.
    destruct (lookupz l i) as [typ|]; [|discriminate]. destruct (group_of n name i) as [g|]; [|discriminate].
    exists typ, g. split; [reflexivity|]. split; [reflexivity|]. apply field_sound. exact H3.
Qed.

(** ** Buffers *)

Section Decode.
Variable l : list byte.
Variable s : schema.

Fixpoint uint_at (p : Z) (n : nat) : option Z :=
  match n with
  | O => Some 0
  | S n' => match zget l p, uint_at (p + 1) n' with
            | Some x, Some v => Some (b2z x + 256 * v)
            | _, _ => None
            end
  end.

Lemma uint_sound : forall n p v, uint_at p n = Some v -> holds_uint (img_bytes l) p n v.
Proof.
  induction n as [|n IH]; intros p v H; cbn [uint_at] in H.
  - injection H as <-. split; [cbn; lia|]. intros k Hk. lia.
  - destruct (zget l p) as [x|] eqn:E; [|discriminate]. destruct (uint_at (p + 1) n) as [w|] eqn:E2; [|discriminate].
    assert (EV : v = b2z x + 256 * w) by congruence. clear H. subst v. destruct (IH _ _ E2) as [R K]. pose proof (b2z_range x).
    unfold holds_uint. rewrite Nat2Z.inj_succ, Z.pow_succ_r by lia. split; [lia|].
    intros k Hk. destruct (Z.eq_dec k 0) as [->|N].
    + exists x. replace (p + 0) with p by lia. split; [exact E|]. rewrite Z.pow_0_r, Z.div_1_r.
      rewrite Z.add_comm, Z.mul_comm, Z.add_comm, Z.mod_add by lia. symmetry. apply Z.mod_small. lia.
    + destruct (K (k - 1)) as (y & Y1 & Y2); [lia|]. exists y. replace (p + k) with (p + 1 + (k - 1)) by lia.
      split; [exact Y1|]. rewrite Y2. replace k with (Z.succ (k - 1)) at 2 by lia.
      rewrite Z.pow_succ_r, <- Z.div_div by lia. do 2 f_equal.
      rewrite Z.add_comm, Z.mul_comm, Z.add_comm, Z.div_add by lia. rewrite Z.div_small by lia. lia.
Qed.

Definition occupied_b (p k : Z) : bool := (k <=? 0) || ((0 <=? p) && (p + k <=? zlen l)).

Lemma occupied_sound : forall p k, occupied_b p k = true -> occupied (img_bytes l) p k.
Proof.
  intros p k H i Hi. unfold occupied_b in H. unfold img_bytes. apply zget_some. lia.
Qed.

Definition deref (p : Z) : option Z :=
  match uint_at p 4 with Some o => if 4 <=? o then Some (p + o) else None | None => None end.

Lemma deref_sound : forall p q, deref p = Some q -> points_to (img_bytes l) p q.
Proof.
  intros p q H. unfold deref in H. destruct (uint_at p 4) as [o|] eqn:E; [|discriminate].
  destruct (4 <=? o) eqn:L; [|discriminate]. injection H as <-. split; [lia|].
  replace (p + o - p) with o by lia. apply uint_sound. exact E.
Qed.

Definition vector_b (p : Z) : option (Z * Z) :=
  match deref p with
  | Some q => match uint_at q 4 with Some k => Some (q + 4, k) | None => None end
  | None => None
  end.

Lemma vector_sound : forall p q k, vector_b p = Some (q, k) -> vector_from (img_bytes l) p q k.
Proof.
  intros p q k H. unfold vector_b in H. destruct (deref p) as [x|] eqn:E; [|discriminate].
  destruct (uint_at x 4) as [y|] eqn:E2; [|discriminate]. injection H as <- <-. split.
  - replace (x + 4 - 4) with x by lia. apply deref_sound. exact E.
  - replace (x + 4 - 4) with x by lia. apply uint_sound. exact E2.
Qed.

Fixpoint entries (p : Z) (k : nat) : option (list Z) :=
  match k with
  | O => Some []
  | S k' => match uint_at p 2, entries (p + 2) k' with Some e, Some es => Some (e :: es) | _, _ => None end
  end.

Lemma entries_sound : forall k p es, entries p k = Some es -> zlen es = Z.of_nat k /\
  forall i e, zget es i = Some e -> holds_uint (img_bytes l) (p + 2 * i) 2 e.
Proof.
  induction k as [|k IH]; intros p es H; cbn [entries] in H.
  - injection H as <-. split; [reflexivity|]. intros i e Hi. rewrite zget_nil in Hi. discriminate.
  - destruct (uint_at p 2) as [e0|] eqn:E; [|discriminate]. destruct (entries (p + 2) k) as [es'|] eqn:E2; [|discriminate].
    injection H as <-. destruct (IH _ _ E2) as [L N]. split; [rewrite zlen_cons; lia|].
    intros i e Hi. rewrite zget_cons in Hi. destruct (i =? 0) eqn:Z0.
    + injection Hi as <-. replace (p + 2 * i) with p by lia. apply uint_sound. exact E.
    + replace (p + 2 * i) with (p + 2 + 2 * (i - 1)) by lia. apply N. exact Hi.
Qed.

Definition table_header (p : Z) (k : nat) : option (Z * list Z * Z) :=
  match uint_at p 4 with
  | Some soff =>
      if (soff <? 2147483648) && (0 <=? p) && (0 <=? p - soff) then
        match uint_at (p - soff) 2, uint_at (p - soff + 2) 2, entries (p - soff + 4) k with
        | Some vl, Some tl, Some es => if vl =? 4 + 2 * Z.of_nat k then Some (soff, es, tl) else None
        | _, _, _ => None
        end
      else None
  | None => None
  end.

Lemma header_sound : forall p k soff es tl, table_header p k = Some (soff, es, tl) ->
  table_at (img_bytes l) p soff es tl /\ 0 <= soff.
Proof.
  intros p k soff es tl H. unfold table_header in H. destruct (uint_at p 4) as [so|] eqn:E; [|discriminate].
  destruct (_ && _ && _) eqn:B; [|discriminate]. rewrite !andb_true_iff in B. destruct B as [[B1 B2] B3].
  destruct (uint_at (p - so) 2) as [vl|] eqn:E1; [|discriminate].
  destruct (uint_at (p - so + 2) 2) as [tl'|] eqn:E2; [|discriminate].
  destruct (entries (p - so + 4) k) as [es'|] eqn:E3; [|discriminate].
  destruct (vl =? 4 + 2 * Z.of_nat k) eqn:V; [|discriminate]. injection H as <- <- <-.
  apply uint_sound in E, E1, E2. destruct (entries_sound _ _ _ E3) as [L N]. pose proof (proj1 E) as R.
  split; [|lia]. constructor.
  - rewrite Z.mod_small; [exact E|]. change (2 ^ 32) with 4294967296. lia.
  - change (2 ^ 31) with 2147483648. lia.
  - lia.
  - rewrite L. replace (4 + 2 * Z.of_nat k) with vl by lia. exact E1.
  - exact E2.
  - exact N.
Qed.

Section Fields.
Variable table : string -> Z -> option val.

Definition type_of_union (prev : option val) : option Z :=
  match prev with
  | Some (Scalar x w) => if w =? 1 then uint_at x 1 else None
  | Some (Absent (TyScalar t)) => if zwidth t =? 1 then Some 0 else None
  | _ => None
  end.

Fixpoint elems (slot : Z) (tn : string) (k : nat) : option (list val) :=
  match k with
  | O => Some []
  | S k' => match deref slot with
            | Some q => match table tn q, elems (slot + 4) tn k' with
                        | Some v, Some vs => Some (v :: vs)
                        | _, _ => None
                        end
            | None => None
            end
  end.

Definition field (p : Z) (prev : option val) (t : ty) (e : Z) : option val :=
  if e =? 0 then
    match t with
    | TyUnion us => match type_of_union prev with Some k => if k =? 0 then Some (Absent t) else None | None => None end
    | _ => Some (Absent t)
    end
  else if e <? 4 then None
  else match t with
    | TyScalar t => if occupied_b (p + e) (zwidth t) then Some (Scalar (p + e) (zwidth t)) else None
    | TyStruct sn ms => if occupied_b (p + e) (struct_size ms) then Some (Struct (p + e) ms) else None
    | TyTable tn => match deref (p + e) with Some q => table tn q | None => None end
    | TyUnion us =>
        match prev with
        | Some (Scalar x w) =>
            if w =? 1 then
              match uint_at x 1 with
              | Some k => match zget us (k - 1), deref (p + e) with
                          | Some tn, Some q => table tn q
                          | _, _ => None
                          end
              | None => None
              end
            else None
        | _ => None
        end
    | TyScalars t => match vector_b (p + e) with
                     | Some (q, k) => if occupied_b q (k * zwidth t) then Some (Scalars q k (zwidth t)) else None
                     | None => None
                     end
    | TyStructs sn ms => match vector_b (p + e) with
                     | Some (q, k) => if occupied_b q (k * struct_size ms) then Some (Structs q k ms) else None
                     | None => None
                     end
    | TyTables tn => match vector_b (p + e) with
                     | Some (q, k) => if k <=? zlen l then
                         match elems q tn (Z.to_nat k) with Some vs => Some (Tabs tn q vs) | None => None end
                       else None
                     | None => None
                     end
    end.

Fixpoint fields (p : Z) (prev : option val) (tys : list ty) (es : list Z) : option (list val) :=
  match tys, es with
  | [], [] => Some []
  | t :: tys', e :: es' =>
      match field p prev t e with
      | Some v => match fields p (Some v) tys' es' with Some vs => Some (v :: vs) | None => None end
      | None => None
      end
  | _, _ => None
  end.

End Fields.

Fixpoint decode (fuel : nat) (name : string) (p : Z) : option val :=
  match fuel with
  | O => None
  | S f =>
      match s name with
      | Some tys =>
          match table_header p (List.length tys) with
          | Some (_, es, _) =>
              match fields (decode f) p None tys es with Some fs => Some (Tab name p fs) | None => None end
          | None => None
          end
      | None => None
      end
  end.

Lemma decode_sound : forall fuel name p v, decode fuel name p = Some v ->
  stored_table (img_bytes l) s name p v.
Proof.
  induction fuel as [|f IH]; intros name p v H; cbn [decode] in H; [discriminate|].
  destruct (s name) as [tys|] eqn:Hs; [|discriminate].
  destruct (table_header p (List.length tys)) as [[[soff es] tl]|] eqn:Hh; [|discriminate].
  destruct (fields (decode f) p None tys es) as [fs|] eqn:Hf; [|discriminate]. injection H as <-.
  destruct (header_sound _ _ _ _ _ Hh) as [T Hso]. eapply St_table; eauto.
  assert (EL : forall k slot tn vs, elems (decode f) slot tn k = Some vs ->
    stored_elems (img_bytes l) s slot tn vs /\ zlen vs = Z.of_nat k).
  { induction k as [|k IHk]; intros slot tn vs H; cbn [elems] in H.
    - injection H as <-. split; [constructor|reflexivity].
    - destruct (deref slot) as [q|] eqn:D; [|discriminate]. destruct (decode f tn q) as [w|] eqn:D2; [|discriminate].
      destruct (elems (decode f) (slot + 4) tn k) as [ws|] eqn:D3; [|discriminate]. injection H as <-.
      destruct (IHk _ _ _ D3) as [I1 I2]. split; [|rewrite zlen_cons; lia].
      econstructor; [apply deref_sound; exact D|apply IH; exact D2|exact I1]. }
  clear Hh T. revert Hf. generalize (@None val) as prev. revert es fs. clear Hs.
  induction tys as [|t tys IHt]; intros es fs prev Hf; destruct es as [|e es]; cbn [fields] in Hf; try discriminate.
  - injection Hf as <-. constructor.
  - destruct (field (decode f) p prev t e) as [v|] eqn:Hv; [|discriminate].
    destruct (fields (decode f) p (Some v) tys es) as [vs|] eqn:Hvs; [|discriminate]. injection Hf as <-.
    constructor; [|apply IHt; exact Hvs]. clear Hvs IHt. unfold field in Hv.
    destruct (e =? 0) eqn:E0.
    + replace e with 0 by lia. destruct t; try (injection Hv as <-; constructor; reflexivity).
      unfold type_of_union in Hv. destruct prev as [pv|]; [|discriminate].
      destruct pv as [pt|x w| | | | |]; try discriminate.
      * destruct pt as [pt| | | | | |]; try discriminate. destruct (zwidth pt =? 1) eqn:W; [|discriminate].
        injection Hv as <-. apply Sv_untyped_union. lia.
      * destruct (w =? 1) eqn:W; [|discriminate]. destruct (uint_at x 1) as [k|] eqn:U; [|discriminate].
        destruct (k =? 0) eqn:K; [|discriminate]. injection Hv as <-. replace w with 1 by lia.
        apply Sv_no_union. replace 0 with k by lia. apply uint_sound. exact U.
    + destruct (e <? 4) eqn:E4; [discriminate|]. assert (HE : 4 <= e) by lia.
      destruct t as [t|sn ms|tn|us|t|sn ms|tn].
      * destruct occupied_b eqn:O; [|discriminate]. injection Hv as <-. constructor; [exact HE|apply occupied_sound; exact O].
      * destruct occupied_b eqn:O; [|discriminate]. injection Hv as <-. constructor; [exact HE|apply occupied_sound; exact O].
      * destruct (deref (p + e)) as [q|] eqn:D; [|discriminate].
        eapply Sv_table; [exact HE|apply deref_sound; exact D|apply IH; exact Hv].
      * destruct prev as [pv|]; [|discriminate]. destruct pv as [|x w| | | | |]; try discriminate.
        destruct (w =? 1) eqn:W; [|discriminate]. destruct (uint_at x 1) as [k|] eqn:U; [|discriminate].
        destruct (zget us (k - 1)) as [tn|] eqn:G; [|discriminate]. destruct (deref (p + e)) as [q|] eqn:D; [|discriminate].
        replace w with 1 by lia. eapply (Sv_union _ _ _ _ _ _ (k - 1)); [exact HE| |exact G|apply deref_sound; exact D|apply IH; exact Hv].
        replace (k - 1 + 1) with k by lia. apply uint_sound. exact U.
      * destruct (vector_b (p + e)) as [[q k]|] eqn:V; [|discriminate]. destruct occupied_b eqn:O; [|discriminate].
        injection Hv as <-. constructor; [exact HE|apply vector_sound; exact V|apply occupied_sound; exact O].
      * destruct (vector_b (p + e)) as [[q k]|] eqn:V; [|discriminate]. destruct occupied_b eqn:O; [|discriminate].
        injection Hv as <-. constructor; [exact HE|apply vector_sound; exact V|apply occupied_sound; exact O].
      * destruct (vector_b (p + e)) as [[q k]|] eqn:V; [|discriminate]. apply vector_sound in V.
        destruct (k <=? zlen l); [|discriminate]. destruct (elems (decode f) q tn (Z.to_nat k)) as [ws|] eqn:EW; [|discriminate].
        injection Hv as <-. destruct (EL _ _ _ _ EW) as [I1 I2]. pose proof (proj1 (proj2 V)) as R.
        constructor; [exact HE| |exact I1]. replace (zlen ws) with k by lia. exact V.
Qed.

End Decode.
