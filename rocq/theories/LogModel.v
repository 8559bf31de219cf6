(** Model of the loggers (query/base/base.go:45-101, query/base/log.go,
    query/log/error.go).  There are two of them with a level each.  A function
    that formats a message is modelled by the text it writes; it is run at most
    where the code runs it.  A builder is the text it holds. *)
From Coq Require Import ZArith List Bool String.
Import ListNotations.
Open Scope list_scope.
Open Scope string_scope.
Open Scope Z_scope.

(** The global variables: [base.CurrentLogLevel], [log.CurrentLogLevel],
    [base.LogCurrentState], [base.LogW] ([Some b]: a builder that holds [b];
    [None]: the real writer), and what the real writers of the two packages got. *)
Record lstate := mkL {
  g_base : Z; g_log : Z; g_level : Z; g_filter : Z; g_w : option string; g_out : string; g_logout : string }.

(** error.go:26-30: LOG_ERROR 0, LOG_WARN 1, LOG_DEBUG 2; log.go:11-16 *)
Definition log_error : Z := 0.
Definition log_warn : Z := 1.
Definition log_debug : Z := 2.
Definition flt_none : Z := 1.
Definition flt_normal : Z := 2.
Definition flt_is : Z := 4.
Definition flt_io : Z := 8.

Definition start_state : lstate := mkL 0 0 log_error flt_normal None "" "".

Definition prefix_of (l : Z) : string :=
  if l =? log_debug then "D: " else if l =? log_warn then "W: " else if l =? log_error then "E: " else " ".

Definition set_base (s : lstate) (l : Z) : lstate :=
  mkL l (g_log s) (g_level s) (g_filter s) (g_w s) (g_out s) (g_logout s).
Definition set_w (s : lstate) (w : option string) : lstate :=
  mkL (g_base s) (g_log s) (g_level s) (g_filter s) w (g_out s) (g_logout s).

(** [io.WriteString(LogW, t)] *)
Definition emit (s : lstate) (t : string) : lstate :=
  match g_w s with
  | Some b => set_w s (Some (b ++ t))
  | None => mkL (g_base s) (g_log s) (g_level s) (g_filter s) None (g_out s ++ t) (g_logout s)
  end.

(** base.go:78-101 [Log] *)
Definition base_log (s : lstate) (l : Z) (text : string) : lstate :=
  if g_base s <? l then s else emit s (prefix_of l ++ text).

(** error.go:51-74 [Log] *)
Definition log_log (s : lstate) (l : Z) (text : string) : lstate :=
  if g_log s <? l then s
  else mkL (g_base s) (g_log s) (g_level s) (g_filter s) (g_w s) (g_out s) (g_logout s ++ (prefix_of l ++ text)).

(** log.go:151-175 [neoLog]: [LogW] is a builder while the function runs and
    while the text of the builder is written. *)
Definition neo_log (s : lstate) (l : Z) (text : string) : lstate :=
  if g_base s <? l then s
  else
    let o := g_w s in
    let s := set_w s (Some (prefix_of l)) in
    let s := emit s text in
    let s := emit s (match g_w s with Some b => b | None => "" end) in
    set_w s o.

(** log.go:37-58 [Log2Option] *)
Inductive lopt (R : Type) :=
| OFlag (level filter : Z)
| OText (text : string)
| ORun (r : R).
Arguments OFlag {R}. Arguments OText {R}. Arguments ORun {R}.

Record lparam (R : Type) := mkP { p_level : Z; p_filter : Z; p_texts : list string; p_run : option R }.
Arguments mkP {R}. Arguments p_level {R}. Arguments p_filter {R}. Arguments p_texts {R}. Arguments p_run {R}.

Definition apply_opt {R} (p : lparam R) (o : lopt R) : lparam R :=
  match o with
  | OFlag l f => mkP l f (p_texts p) (p_run p)
  | OText t => mkP (p_level p) (p_filter p) (p_texts p ++ [t])%list (p_run p)
  | ORun r => mkP (p_level p) (p_filter p) (p_texts p) (Some r)
  end.

Definition params {R} (opts : list (lopt R)) : lparam R :=
  fold_left apply_opt opts (mkP 0 flt_none [] None).

(** log.go:65-79 [L2isEnable] *)
Definition l2_enabled {R} (s : lstate) (o : lopt R) : bool :=
  let p := params [o] in
  negb (g_level s <? p_level p) && negb (Z.land (g_filter s) (p_filter p) =? 0).

(** log.go:82-118 [Log2]: the state and the result of the function of [L2OptRun],
    which is given by its result and leaves the loggers alone.  The deferred
    [SetLogLevel] of line 105 runs before the deferred function of line 89. *)
Definition log2 {R} (s : lstate) (opts : list (lopt R)) : lstate * option R :=
  let p := params opts in
  let o := g_log s in
  if Z.land (g_filter s) (p_filter p) =? 0 then (s, p_run p)
  else
    let s := set_base s (g_level s) in
    let s := match p_texts p with t :: _ => neo_log s (p_level p) t | [] => s end in
    let s := set_base s o in
    let s := match p_texts p with
             | _ :: t :: _ => let s := set_base s (g_level s) in
                              let s := neo_log s (p_level p) t in set_base s o
             | _ => s
             end in
    (s, p_run p).
