(** Proofs about the loggers. *)
From Coq Require Import ZArith List Bool String Lia.
From Verif Require Import LogModel LogSpec.
Import ListNotations.
Open Scope list_scope.
Open Scope string_scope.
Open Scope Z_scope.

Lemma letter_prefix : forall l, prefix_of l = letter l.
Proof.
  intros l. unfold prefix_of, letter, log_debug, log_warn, log_error.
  destruct l as [|[p|[p|p|]|]|p]; reflexivity.
Qed.

Lemma append_assoc : forall a b c, ((a ++ b) ++ c) = (a ++ (b ++ c)).
Proof. induction a as [|x a IH]; intros b c; [reflexivity|]. cbn. f_equal. apply IH. Qed.
Lemma append_nil : forall a, (a ++ "") = a.
Proof. induction a as [|x a IH]; [reflexivity|]. cbn. f_equal. apply IH. Qed.

Lemma base_logs : forall ms s, g_w s = None ->
  fold_left (fun s m => base_log s (fst m) (snd m)) ms s =
  mkL (g_base s) (g_log s) (g_level s) (g_filter s) None (g_out s ++ shown (g_base s) ms) (g_logout s).
Proof.
  induction ms as [|[l t] ms IH]; intros s HW; cbn [fold_left shown fst snd].
  - rewrite append_nil. destruct s; cbn in *. subst. reflexivity.
  - rewrite IH; unfold base_log.
    + destruct (g_base s <? l) eqn:E.
      * replace (l <=? g_base s) with false by lia. reflexivity.
      * replace (l <=? g_base s) with true by lia. unfold emit. rewrite HW. cbn [g_base g_log g_level g_filter g_out g_logout].
        rewrite letter_prefix, !append_assoc. reflexivity.
    + destruct (g_base s <? l); [exact HW|]. unfold emit. rewrite HW. reflexivity.
Qed.

Lemma log_logs : forall ms s,
  fold_left (fun s m => log_log s (fst m) (snd m)) ms s =
  mkL (g_base s) (g_log s) (g_level s) (g_filter s) (g_w s) (g_out s) (g_logout s ++ shown (g_log s) ms).
Proof.
  induction ms as [|[l t] ms IH]; intros s; cbn [fold_left shown fst snd].
  - rewrite append_nil. destruct s; reflexivity.
  - rewrite IH; unfold log_log. destruct (g_log s <? l) eqn:E.
    + replace (l <=? g_log s) with false by lia. reflexivity.
    + replace (l <=? g_log s) with true by lia. cbn [g_base g_log g_level g_filter g_w g_out g_logout].
      rewrite letter_prefix, !append_assoc. reflexivity.
Qed.

(** ** Log2 *)

Lemma run_of : forall R (opts : list (lopt R)) p,
  p_run (fold_left apply_opt opts p) = match last_run opts with Some r => Some r | None => p_run p end.
Proof.
  induction opts as [|o opts IH]; intros p; cbn [fold_left last_run]; [reflexivity|].
  rewrite IH. destruct o as [l f|t|r]; cbn [apply_opt p_run]; try reflexivity.
  destruct (last_run opts); reflexivity.
Qed.

Lemma log2_result : forall R s (opts : list (lopt R)), snd (log2 s opts) = last_run opts.
Proof.
  intros R s opts. unfold log2.
  assert (E : p_run (params opts) = last_run opts).
  { unfold params. rewrite run_of. cbn [p_run]. destruct (last_run opts); reflexivity. }
  destruct (Z.land _ _ =? 0); exact E.
Qed.

Lemma set_base_twice : forall s a b, set_base (set_base s a) b = set_base s b.
Proof. reflexivity. Qed.

Lemma neo_log_keeps : forall s l t, neo_log s l t = s.
Proof.
  intros s l t. unfold neo_log. destruct (g_base s <? l); [reflexivity|]. unfold emit, set_w. cbn. destruct s; reflexivity.
Qed.

Lemma log2_state : forall R s (opts : list (lopt R)),
  fst (log2 s opts) = s \/ fst (log2 s opts) = set_base s (g_log s).
Proof.
  intros R s opts. unfold log2. destruct (Z.land _ _ =? 0); [left; reflexivity|right].
  cbn [fst]. destruct (p_texts (params opts)) as [|t [|t' ts]]; rewrite ?neo_log_keeps; reflexivity.
Qed.

Lemma log2_silent : forall R s (opts : list (lopt R)),
  g_out (fst (log2 s opts)) = g_out s /\ g_w (fst (log2 s opts)) = g_w s /\ g_logout (fst (log2 s opts)) = g_logout s.
Proof. intros R s opts. destruct (log2_state R s opts) as [->| ->]; repeat split; reflexivity. Qed.

Lemma log2_keeps : forall R s (opts : list (lopt R)), g_base s = g_log s -> fst (log2 s opts) = s.
Proof.
  intros R s opts H. destruct (log2_state R s opts) as [->| ->]; [reflexivity|]. unfold set_base. destruct s; cbn in *. subst. reflexivity.
Qed.

(** Whether a flag is enabled *)
Lemma flags_params : forall R (opts : list (lopt R)) l f, flags opts l f ->
  p_level (params opts) = l /\ p_filter (params opts) = f.
Proof.
  intros R opts l f (a & c & -> & Hc). unfold params. rewrite fold_left_app. cbn [fold_left apply_opt].
  assert (G : forall q, p_level q = l -> p_filter q = f -> p_level (fold_left apply_opt c q) = l /\ p_filter (fold_left apply_opt c q) = f).
  { clear -Hc. induction c as [|o c IH]; intros q H1 H2; cbn [fold_left]; [auto|]. inversion Hc as [|x y Ho Hc' E]; subst x y.
    destruct o as [l' f'|t|r]; [destruct Ho| |]; apply IH; auto. }
  apply G; reflexivity.
Qed.

Lemma log2_level : forall R s (opts : list (lopt R)) l f, flags opts l f -> Z.land (g_filter s) f <> 0 ->
  g_base (fst (log2 s opts)) = g_log s.
Proof.
  intros R s opts l f HF HN. destruct (flags_params R opts l f HF) as [_ E]. unfold log2. rewrite E.
  replace (Z.land (g_filter s) f =? 0) with false by lia. cbn [fst].
  destruct (p_texts (params opts)) as [|t [|t' ts]]; rewrite ?neo_log_keeps; reflexivity.
Qed.

Lemma unflagged_params : forall R (opts : list (lopt R)) q, unflagged opts -> p_filter (fold_left apply_opt opts q) = p_filter q.
Proof.
  induction opts as [|o opts IH]; intros q H; cbn [fold_left]; [reflexivity|]. inversion H as [|x y Ho Hc E]; subst x y.
  rewrite IH by exact Hc. destruct o; [destruct Ho| |]; reflexivity.
Qed.

Lemma log2_unflagged : forall R s (opts : list (lopt R)), unflagged opts -> Z.odd (g_filter s) = false -> fst (log2 s opts) = s.
Proof.
  intros R s opts HU HO. unfold log2. unfold params at 1. rewrite unflagged_params by exact HU. cbn [p_filter].
  replace (Z.land (g_filter s) flt_none) with 0; [reflexivity|].
  change flt_none with (Z.ones 1). rewrite Z.land_ones by lia. change (2 ^ 1) with 2. rewrite Zmod_odd, HO. reflexivity.
Qed.

Lemma enabled_iff : forall R s l f, l2_enabled s (OFlag (R := R) l f) = true <-> l <= g_level s /\ Z.land (g_filter s) f <> 0.
Proof.
  intros R s l f. unfold l2_enabled, params. cbn [fold_left apply_opt p_level p_filter]. split; intros H; lia.
Qed.
