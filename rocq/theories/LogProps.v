(** Property theorems about the loggers (C98, C99). *)
From Coq Require Import ZArith List Bool String.
From Verif Require Import LogModel LogSpec LogProofs.
Import ListNotations.
Open Scope list_scope.
Open Scope string_scope.
Open Scope Z_scope.

(** ** C98: messages at or below the level are written, in order *)

Theorem C98_base_log : forall ms s, g_w s = None ->
  fold_left (fun s m => base_log s (fst m) (snd m)) ms s =
  mkL (g_base s) (g_log s) (g_level s) (g_filter s) None (g_out s ++ shown (g_base s) ms) (g_logout s).
Proof. exact base_logs. Qed.
Print Assumptions C98_base_log.

Theorem C98_log_log : forall ms s,
  fold_left (fun s m => log_log s (fst m) (snd m)) ms s =
  mkL (g_base s) (g_log s) (g_level s) (g_filter s) (g_w s) (g_out s) (g_logout s ++ shown (g_log s) ms).
Proof. exact log_logs. Qed.
Print Assumptions C98_log_log.

Example C98_case : g_out (fold_left (fun s m => base_log s (fst m) (snd m)) [(0, "a"); (2, "b"); (1, "c")] (set_base start_state 1)) =
  "E: aW: c" /\
  g_logout (fold_left (fun s m => log_log s (fst m) (snd m)) [(0, "a"); (2, "b"); (1, "c")] (set_base start_state 1)) = "E: a".
Proof. split; reflexivity. Qed.

(** ** C99: Log2 *)

(** The function given with [L2OptRun] is run whatever the filter, and its
    result returned. *)
Theorem C99_result : forall R s (opts : list (lopt R)), snd (log2 s opts) = last_run opts.
Proof. exact log2_result. Qed.
Print Assumptions C99_result.

(** When the levels of the two loggers agree nothing is changed.  Missing: when
    they differ, see C99_level_refuted. *)
Theorem C99_keeps_partial : forall R s (opts : list (lopt R)), g_base s = g_log s -> fst (log2 s opts) = s.
Proof. exact log2_keeps. Qed.
Print Assumptions C99_keeps_partial.

Example C99_case : log2 (mkL 2 2 2 15 None "x" "") [OFlag 1 8; OText "before"; ORun 7; OText "after"; ORun 8] =
  (mkL 2 2 2 15 None "x" "", Some 8).
Proof. reflexivity. Qed.

(** Without a flag a call passes the filter only when its lowest bit is set. *)
Theorem C99_unflagged : forall R s (opts : list (lopt R)), unflagged opts -> Z.odd (g_filter s) = false -> fst (log2 s opts) = s.
Proof. exact log2_unflagged. Qed.
Print Assumptions C99_unflagged.

Theorem C99_enabled : forall R s l f, l2_enabled s (OFlag (R := R) l f) = true <-> l <= g_level s /\ Z.land (g_filter s) f <> 0.
Proof. exact enabled_iff. Qed.
Print Assumptions C99_enabled.

Example C99_unflagged_case : unflagged [OText (R := Z) "a"] /\
  fst (log2 (set_base start_state 2) [OText (R := Z) "a"]) = set_base start_state 2 /\ l2_enabled (R := Z) start_state (OFlag 0 6) = true.
Proof. split; [repeat constructor|]. split; reflexivity. Qed.

(** No message is ever written, whatever the level and the filter: the text goes
    into the builder it is taken from. *)
Theorem C99_written_refuted : forall R s (opts : list (lopt R)),
  g_out (fst (log2 s opts)) = g_out s /\ g_w (fst (log2 s opts)) = g_w s /\ g_logout (fst (log2 s opts)) = g_logout s.
Proof. exact log2_silent. Qed.
Print Assumptions C99_written_refuted.

(** An enabled call: *)
Example C99_written_case : let s := mkL 2 2 2 15 None "" "" in let o : lopt Z := OFlag 1 8 in
  l2_enabled s o = true /\ g_out (fst (log2 s [o; OText "lost"])) = "".
Proof. split; reflexivity. Qed.

(** The level of the one logger is overwritten with that of the other. *)
Theorem C99_level_refuted : forall R s (opts : list (lopt R)) l f, flags opts l f -> Z.land (g_filter s) f <> 0 ->
  g_base (fst (log2 s opts)) = g_log s.
Proof. exact log2_level. Qed.
Print Assumptions C99_level_refuted.

Example C99_level_case : flags [OText "a"; OFlag (R := Z) 1 2] 1 2 /\
  g_base (fst (log2 (set_base start_state 2) [OText "a"; OFlag (R := Z) 1 2])) = 0.
Proof. split; [|reflexivity]. exists [OText "a"], []. split; [reflexivity|constructor]. Qed.
