(** Concrete behaviours of the journaled buffer that contradict the stated
    properties, computed on the model. *)
From Coq Require Import ZArith List Bool Lia.
From Coq Require Import Strings.Byte.
From Verif Require Import GoLib GoLemmas BaseModel BaseSpec BaseProofs BaseProofs2 BaseProofs3 BaseProofs4.
Import ListNotations.
Open Scope Z_scope.

(** Eight bytes written at 0, then four at 4: a read of eight at 0 returns the
    overwritten bytes from 4 on. *)
Lemma range_read_stale : exists os b s k,
  Forall wop_ok os /\ run_wops (new_base (gs_of nil)) os = Ok b /\
  base_r b 0 8 = Ok (Some s) /\ 0 <= k < 8 /\ k < gs_len s /\
  peek b k <> Ok (zget (sl_data s) k).
Proof.
  exists [OpWriteAt 0 [x01;x01;x01;x01;x01;x01;x01;x01]; OpWriteAt 4 [x02;x02;x02;x02]].
  eexists; eexists; exists 4.
  split; [repeat constructor; cbn; lia|]. split; [vm_compute; reflexivity|].
  split; [vm_compute; reflexivity|]. split; [lia|]. split; [vm_compute; reflexivity|].
  vm_compute. discriminate.
Qed.

Lemma merge_diffs_changes : exists os b b' i,
  Forall wop_ok os /\ Forall wop_nonempty os /\
  run_wops (new_base (gs_of nil)) os = Ok b /\ base_merge_diffs b = Ok b' /\
  0 <= i /\ peek b' i <> peek b i.
Proof.
  exists [OpWriteAt 0 [x01;x01]; OpWriteAt 10 [x02;x02];
          OpWriteAt 1 [x03;x03;x03;x03;x03;x03;x03;x03;x03;x03]].
  eexists; eexists; exists 10.
  split; [repeat constructor; cbn; lia|]. split; [repeat constructor; cbn; discriminate|].
  split; [vm_compute; reflexivity|]. split; [vm_compute; reflexivity|]. split; [lia|].
  vm_compute. discriminate.
Qed.

(** Two entries across the insertion point. *)
Lemma insert_space_two : exists os b b' i,
  Forall wop_ok os /\ Forall wop_nonempty os /\
  run_wops (new_base (gs_of nil)) os = Ok b /\ insert_space b 2 1 true = Ok b' /\
  0 <= i /\ (forall m, shows b m -> peek b' i <> Ok (img_insert m 2 1 i)).
Proof.
  exists [OpWriteAt 0 [x01;x01;x01;x01]; OpWriteAt 1 [x02;x02;x02]].
  eexists; eexists; exists 4.
  split; [repeat constructor; cbn; lia|]. split; [repeat constructor; cbn; discriminate|].
  split; [vm_compute; reflexivity|]. split; [vm_compute; reflexivity|]. split; [lia|].
  intros m Hm. unfold img_insert. cbn. specialize (Hm 3 ltac:(lia)). vm_compute in Hm.
  injection Hm as Hm. rewrite <- Hm. vm_compute. discriminate.
Qed.

(** Without filling ([isCreate = false]) the hole shows old bytes. *)
Lemma insert_space_hole : exists os b b' i,
  Forall wop_ok os /\ Forall wop_nonempty os /\
  run_wops (new_base (gs_of nil)) os = Ok b /\ insert_space b 2 2 false = Ok b' /\
  2 <= i < 4 /\ peek b' i = Ok (Some x03).
Proof.
  exists [OpWriteAt 0 [x01;x02;x03;x04]].
  eexists; eexists; exists 2.
  split; [repeat constructor; cbn; lia|]. split; [repeat constructor; cbn; discriminate|].
  split; [vm_compute; reflexivity|]. split; [vm_compute; reflexivity|]. split; [lia|].
  vm_compute. reflexivity.
Qed.

Lemma copy_extend_straddle : exists os b src b' i,
  Forall wop_ok os /\ run_wops (new_base (gs_of nil)) os = Ok b /\
  src = new_base (gs_of [x09]) /\ base_copy b src 0 1 2 1 = Ok b' /\ 3 <= i /\
  peek b' i <> peek b (i - 1).
Proof.
  exists [OpWriteAt 0 [x01;x02;x03;x04]].
  eexists; eexists; eexists; exists 3.
  split; [repeat constructor; cbn; lia|]. split; [vm_compute; reflexivity|]. split; [reflexivity|].
  split; [vm_compute; reflexivity|]. split; [lia|]. vm_compute. discriminate.
Qed.

(** An empty write far out moves the reported length beyond the content. *)
Lemma len_buf_empty_write : exists os b, Forall wop_ok os /\
  run_wops (new_base (gs_of nil)) os = Ok b /\ len_buf b = 100 /\ peek b 99 = Ok None.
Proof.
  exists [OpWriteAt 100 nil]. eexists.
  split; [repeat constructor; cbn; lia|]. split; [vm_compute; reflexivity|].
  split; vm_compute; reflexivity.
Qed.

(** ReadAt on eight bytes with a buffer of two reports eight. *)
Lemma read_at_overreports : exists b p off p' n,
  b = new_base (gs_of [x01;x02;x03;x04;x05;x06;x07;x08]) /\ zlen p = 2 /\ off = 0 /\
  read_at b p off = Ok (p', n) /\ zlen p < n.
Proof.
  eexists; exists [x00;x00]; exists 0; eexists; eexists.
  split; [reflexivity|]. split; [reflexivity|]. split; [reflexivity|].
  split; [vm_compute; reflexivity|]. vm_compute. reflexivity.
Qed.

(** Two successive Read calls of two bytes: the second delivers nothing. *)
Lemma read_skips : exists b,
  b = new_base (gs_of [x01;x02;x03;x04]) /\ run_reads b [2; 2] = Ok [[x01;x02]; nil].
Proof. eexists; split; [reflexivity|]. vm_compute. reflexivity. Qed.

(** Dedup as stated in the property. *)
Lemma dedup_props : forall b, in_memory b ->
  in_memory (base_dedup b) /\ len_buf (base_dedup b) = len_buf b /\
  (forall m, shows b m -> shows (base_dedup b) m) /\
  (forall d, In d (b_diffs (base_dedup b)) -> In d (b_diffs b)) /\
  (forall i d, nth_error (b_diffs b) i = Some d -> ~ In d (b_diffs (base_dedup b)) ->
     exists j e, (i < j)%nat /\ nth_error (b_diffs b) j = Some e /\
       d_off e <= d_off d /\ d_off d + d_len d <= d_off e + d_len e).
Proof.
  intros b Hb. split; [apply in_memory_dedup; auto|]. split; [apply dedup_len; auto|]. split; [|split].
  - intros m Hm i Hi. rewrite peek_content by (auto using in_memory_dedup). rewrite dedup_content.
    f_equal. apply (shows_unique b); auto using shows_content.
  - intros d Hd. cbn in Hd. apply delete_idx_In in Hd as (k & N & _). eapply nth_error_In; eauto.
  - intros i d N NI. destruct (dedup_pred (b_diffs b) i) eqn:D.
    + apply dedup_pred_iff in D as (di & j & dj & H1 & H2 & H3 & H4 & H5).
      rewrite N in H1. injection H1 as <-. exists j, dj. auto.
    + elim NI. cbn. eapply delete_idx_keep; eauto.
Qed.

(** Write and WriteAt report the length of their argument. *)
Lemma write_count : forall b p off,
  snd (base_write b p) = zlen p /\ snd (write_at b p off) = zlen p.
Proof. intros; split; reflexivity. Qed.

Lemma seq_writes_all : forall ps, exists b b',
  run_wops (new_base (gs_of nil)) (map OpWrite ps) = Ok b /\
  shows b (img_bytes (concat ps)) /\ b_seek b = zlen (concat ps) /\
  base_flatten b = Ok b' /\ sl_data (b_bytes b') = concat ps /\ b_diffs b' = nil.
Proof.
  intros ps. destruct (seq_writes ps) as (b & E & S & K).
  destruct (seq_writes_flat ps) as (b1 & b' & E1 & F & D & N). rewrite E in E1. injection E1 as <-.
  exists b, b'. auto 10.
Qed.

Lemma len_buf_write : forall b p off, in_memory b ->
  len_buf (fst (write_at b p off)) = Z.max (len_buf b) (off + zlen p).
Proof. exact len_buf_write_at. Qed.
