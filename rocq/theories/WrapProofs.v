(** Lemmas about changing the variant of a buffer. *)
From Coq Require Import ZArith List Bool Lia.
From Coq Require Import ZifyBool ZifyNat.
From Coq Require Import Strings.Byte.
From Verif Require Import GoLib GoLemmas BaseModel BaseSpec BaseProofs BaseProofs2 BaseProofs3.
From Verif Require Import VariantModel VariantSpec VariantProofs VariantProofs2 LayerModel MixModel MixSpec MixProofs.
From Verif Require Import WrapModel WrapSpec.
Import ListNotations.
Open Scope Z_scope.

Lemma sound_shows : forall v m, sound v -> (io_shows v m <-> shows (impl v) m).
Proof.
  intros [b|b|b|b str] m S; cbn [impl sound] in *; [apply plain_shows; exact S|apply single_shows; exact S| |destruct S].
  destruct S as [HB G]. destruct (b_diffs b) as [|d l] eqn:D; [apply bare_double_shows; assumption|].
  split; intros H.
  - pose proof (double_shows b d l (content b) HB D (G d l eq_refl) (shows_content b HB)) as C.
    apply (shows_ext b (content b)); [|apply shows_content; exact HB]. intros i Hi.
    destruct (H i Hi) as (v1 & s1 & R1 & V1). destruct (C i Hi) as (v2 & s2 & R2 & V2).
    rewrite R1 in R2. injection R2 as <- <-. congruence.
  - apply (double_shows b d l); auto.
Qed.

Lemma sound_memory : forall v, sound v -> in_memory (impl v).
Proof. intros [b|b|b|b str] S; cbn in *; [exact S|exact S|apply S|destruct S]. Qed.

Lemma layer_some : forall v m, layer_shows (Some v) m <-> io_shows v m.
Proof. intros v m. reflexivity. Qed.

Lemma to_no_layer : forall v m, sound v -> io_shows v m ->
  layer_shows (new_no_layer v) m /\ forall w, new_no_layer v = Some w -> sound w.
Proof.
  intros v m S H. pose proof (sound_memory v S) as M. split.
  - apply layer_some. apply single_shows; [exact M|]. apply sound_shows; assumption.
  - intros w E. injection E as <-. exact M.
Qed.

Lemma dup_gap_free : forall (f : diff -> diff) d l, (forall e, d_off (f e) = d_off e /\ d_len (f e) = d_len e) ->
  gap_free d l -> gap_free (f d) (map f l).
Proof.
  intros f d l F G l1 s l2 E. apply map_eq_app in E. destruct E as (k1 & k2 & -> & <- & E2).
  apply map_eq_cons in E2. destruct E2 as (s0 & k3 & -> & <- & _).
  destruct (G k1 s0 k3 eq_refl) as [G1 G2]. rewrite (proj1 (F d)), (proj1 (F s0)). split; [exact G1|].
  intros i Hi. destruct (G2 i Hi) as (e & I & C). exists (f e). split.
  - change (f d :: map f k1) with (map f (d :: k1)). apply in_map. exact I.
  - unfold covers in *. rewrite (proj1 (F e)), (proj2 (F e)). exact C.
Qed.

Lemma dup_sound : forall v, sound v -> sound (io_dup v).
Proof.
  intros [b|b|b|b str] S; cbn [sound io_dup] in *; [apply dup_spec; exact S|apply dup_spec; exact S| |destruct S].
  destruct S as [HB G]. split; [apply dup_spec; exact HB|]. intros d l E. cbn [base_dup b_diffs] in E.
  destruct (b_diffs b) as [|d0 l0]; [discriminate|]. cbn [map] in E. injection E as <- <-.
  apply (dup_gap_free (fun d => mkDiff (d_off d) (gs_make_copy (d_sl d)))); [|apply G; reflexivity].
  intros e. split; reflexivity.
Qed.

Lemma dup_shows : forall v m, sound v -> io_shows v m -> sound (io_dup v) /\ same_variant (io_dup v) v /\ io_shows (io_dup v) m.
Proof.
  intros v m S H. pose proof (dup_sound v S) as SD. split; [exact SD|].
  split; [destruct v; cbn in *; auto|]. apply sound_shows; [exact SD|]. apply sound_shows in H; [|exact S].
  pose proof (sound_memory v S) as M. destruct v as [b|b|b|b str]; cbn [impl io_dup sound] in *; [| | |destruct S]; apply dup_spec; assumption.
Qed.

Lemma to_double_layer : forall b m, in_memory b -> shows b m ->
  exists w, new_double_layer (Plain b) = Ok (Some w) /\ sound w /\
    (b_diffs b = [] -> io_shows w m) /\ (b_diffs b <> [] -> io_shows w (img_fill m (len_buf b))).
Proof.
  intros b m HB S. cbn [new_double_layer]. unfold new_double. destruct (b_diffs b) as [|d l] eqn:D.
  - exists (Double b). cbn [bind]. split; [reflexivity|]. split; [split; [exact HB|rewrite D; discriminate]|].
    split; [intros _; apply bare_double_shows; assumption|congruence].
  - destruct (flatten_props b HB) as (b' & E & HB' & D' & _ & _ & K). rewrite E. cbn [bind]. exists (Double b').
    split; [reflexivity|]. split; [split; [exact HB'|rewrite D'; discriminate]|]. split; [discriminate|].
    intros _. apply bare_double_shows; auto.
Qed.

Lemma fresh_shows : forall s, in_memory (new_base s) /\ shows (new_base s) (img_bytes (sl_data s)).
Proof.
  intros s. assert (M : in_memory (new_base s)) by (split; [reflexivity|constructor]). split; [exact M|].
  apply (shows_ext (new_base s) (content (new_base s))); [|apply shows_content; exact M]. reflexivity.
Qed.

Lemma fresh_bytes : forall k s, exists w, io_bytes k s = Ok (Some w) /\ sound w /\ impl w = new_base s /\
  io_shows w (img_bytes (sl_data s)).
Proof.
  intros k s. destruct (fresh_shows s) as [M S].
  destruct k; [exists (Plain (new_base s))|exists (Single (new_base s))|exists (Double (new_base s))];
    (split; [reflexivity|]); (split; [first [exact M|split; [exact M|discriminate]]|]); (split; [reflexivity|]).
  - apply plain_shows; assumption.
  - apply single_shows; assumption.
  - apply bare_double_shows; auto.
Qed.

Lemma new_list : forall k v, sound v -> (k = KNoLayer -> forall b, v <> Double b) ->
  exists w, list_io k v = Ok (Some w) /\ sound w /\ same_variant w v /\ io_shows w (img_bytes (zeros 4)).
Proof.
  intros k v S N. destruct (fresh_shows (gs_of (zeros 4))) as [M SH]. cbn [gs_of sl_data] in SH.
  assert (P : io_shows (Plain (new_base (gs_of (zeros 4)))) (img_bytes (zeros 4))) by (apply plain_shows; assumption).
  assert (Q : io_shows (Single (new_base (gs_of (zeros 4)))) (img_bytes (zeros 4))) by (apply single_shows; assumption).
  assert (R : io_shows (Double (new_base (gs_of (zeros 4)))) (img_bytes (zeros 4))) by (apply bare_double_shows; auto).
  destruct k, v as [b|b|b|b str]; try (destruct S; fail); try (exfalso; apply (N eq_refl b); reflexivity);
    (eexists; split; [reflexivity|]; split; [first [exact M|split; [exact M|discriminate]]|]; split; [exact I|assumption]).
Qed.

(** ** What does not work *)

Definition gappy : base := mkBase (gs_of [x01; x02]) nil [mkDiff 4 (gs_of [x05])] true 0.

Lemma gap_zeros : in_memory gappy /\ map (byte_at (Ok (Some (Plain gappy)))) [1; 2; 4] = [Ok (Some x02); Ok None; Ok (Some x05)] /\
  map (byte_at (new_double_layer (Plain gappy))) [1; 2; 4] = [Ok (Some x02); Ok (Some x00); Ok (Some x05)].
Proof.
  split; [|split; vm_compute; reflexivity]. split; [reflexivity|]. constructor; [vm_compute; discriminate|constructor].
Qed.

Lemma stream_lost : 
  map (byte_at (Ok (Some (Direct (new_base (gs_of [x01; x02])) [x11; x12])))) [1; 2] = [Ok (Some x02); Ok (Some x11)] /\
  map (byte_at (Ok (new_no_layer (Direct (new_base (gs_of [x01; x02])) [x11; x12])))) [1; 2] = [Ok (Some x02); Ok None] /\
  map (byte_at (Ok (Some (io_dup (Direct (new_base (gs_of [x01; x02])) [x11; x12]))))) [1; 2] = [Ok (Some x02); Ok None].
Proof. split; [|split]; vm_compute; reflexivity. Qed.

Lemma no_double : 
  map (byte_at (Ok (Some (Single (new_base (gs_of [x01; x02])))))) [0; 1] = [Ok (Some x01); Ok (Some x02)] /\
  map (byte_at (new_double_layer (Single (new_base (gs_of [x01; x02]))))) [0; 1] = [Panic; Panic].
Proof. split; vm_compute; reflexivity. Qed.

Lemma list_without : sound (Double (new_base (gs_of (zeros 4)))) /\
  list_io KNoLayer (Double (new_base (gs_of (zeros 4)))) = Ok None /\
  byte_at (list_io KNoLayer (Double (new_base (gs_of (zeros 4))))) 0 = Panic.
Proof. split; [split; [apply fresh_shows|discriminate]|]. split; vm_compute; reflexivity. Qed.
