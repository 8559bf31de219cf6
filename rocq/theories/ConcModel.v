(** Model of the two places that use goroutines and channels: the tree search
    (query/base/common.go:816-840) and the dump history
    (query/dump/histories.go).

    A run is a sequence of atomic steps of the goroutines; the relations [fstep]
    and [hstep] give every step that some goroutine can take, so a path is one
    schedule.  Simplified: the condition and the output function are pure (the
    code calls functions supplied by the user), and the streaming goroutine
    reads the slice of entries atomically (the code reads its header without
    synchronisation while Dump may be appending, which is a data race). *)
From Coq Require Import ZArith List Bool.
From Verif Require Import GoLib.
Import ListNotations.
Open Scope Z_scope.

(** ** FindTree *)

Section Find.
Context {A : Type}.

(** common.go:694-698 [Tree]; [A] stands for the node.  Parent is not used by
    the search. *)
Inductive tree := Tree (node : A) (childs : list tree).
Definition node_of (t : tree) : A := match t with Tree a _ => a end.
Definition childs_of (t : tree) : list tree := match t with Tree _ l => l end.

(** State of the two goroutines and the channel: the loops of the nested calls
    of findtree that are not finished, innermost first; the tree the producer
    is about to send; the buffered trees; whether the channel is closed; what
    the consumer has received; whether it has seen the close. *)
Record fst_ := mkF {
  fs_stack : list (list tree); fs_send : option tree; fs_buf : list tree;
  fs_closed : bool; fs_recv : list tree; fs_ended : bool }.

(** common.go:830-836: AllTree has run before the goroutine starts. *)
Definition find_start (root : tree) : fst_ := mkF [childs_of root] None [] false [] false.

(** common.go:816-825 [findtree], 833-836; [cap] is the capacity of the
    channel, 10 in the code. *)
Inductive fstep (cap : Z) (cond : tree -> bool) : fst_ -> fst_ -> Prop :=
| f_match t ts fs b c r e : (* 819: cond holds *)
    cond t = true ->
    fstep cap cond (mkF ((t :: ts) :: fs) None b c r e) (mkF (ts :: fs) (Some t) b c r e)
| f_skip t ts fs b c r e : (* 819, 822 *)
    cond t = false ->
    fstep cap cond (mkF ((t :: ts) :: fs) None b c r e) (mkF (childs_of t :: ts :: fs) None b c r e)
| f_send t fs b r e : (* 820, 822: there is room in the channel *)
    zlen b < cap ->
    fstep cap cond (mkF fs (Some t) b false r e) (mkF (childs_of t :: fs) None (b ++ [t]) false r e)
| f_hand t fs r e : (* 820, 822: the consumer is waiting *)
    fstep cap cond (mkF fs (Some t) [] false r e) (mkF (childs_of t :: fs) None [] false (r ++ [t]) e)
| f_return fs b c r e : (* 825 *)
    fstep cap cond (mkF ([] :: fs) None b c r e) (mkF fs None b c r e)
| f_close b r e : (* 835 *)
    fstep cap cond (mkF [] None b false r e) (mkF [] None b true r e)
| f_recv fs s t b c r : (* the consumer receives *)
    fstep cap cond (mkF fs s (t :: b) c r false) (mkF fs s b c (r ++ [t]) false)
| f_end fs s r : (* the consumer sees that the channel is closed and empty *)
    fstep cap cond (mkF fs s [] true r false) (mkF fs s [] true r true).

(** The states reached by schedules, with the number of steps. *)
Inductive fruns (cap : Z) (cond : tree -> bool) : nat -> fst_ -> fst_ -> Prop :=
| fr_refl s : fruns cap cond O s s
| fr_step n s s1 s2 : fstep cap cond s s1 -> fruns cap cond n s1 s2 -> fruns cap cond (S n) s s2.

End Find.
Arguments tree A : clear implicits.
Arguments fst_ A : clear implicits.

(** ** Dump histories *)

Section Histories.
Context {E T : Type}.
(** [render prev e] is the text of an entry: histories.go:134-149 [StringBy]
    prints the first entry whole and any other one as a difference to the
    previous. *)
Variable render : option E -> E -> T.

(** What the goroutine that owns the histories does: Dump (64-72), StreamOut
    (160-165), Finish (151-158).  Dump is called with the name and the dump
    already formatted. *)
Inductive hop := HDump (e : E) | HStream | HFinish.

(** What the owner is in the middle of. *)
Inductive hphase := HIdle | HSend (i : Z) | HWait | HDone.

(** The streaming goroutines: how many run and wait for the channel, and the
    one index, if any, each of the others has received. *)
Record hst := mkH {
  hs_ops : list hop; hs_phase : hphase; hs_logs : list E;
  hs_buf : list Z; hs_closed : bool;
  hs_wait : nat; hs_busy : list Z; hs_out : list T }.

Definition hist_start (ops : list hop) : hst := mkH ops HIdle [] [] false O [] [].

(** StringBy(i): logs[i] is out of range for a bad index *)
Definition string_by (logs : list E) (i : Z) : res T :=
  match zget logs i with
  | None => Panic
  | Some e => if i =? 0 then Ok (render None e)
              else match zget logs (i - 1) with
                   | None => Panic
                   | Some p => Ok (render (Some p) e)
                   end
  end.

(** [None] is the crash of the program by a panic. *)
Inductive hstep (cap : Z) : hst -> option hst -> Prop :=
| h_dump e ops l b c w k o : (* 66-71: format and append *)
    hstep cap (mkH (HDump e :: ops) HIdle l b c w k o)
              (Some (mkH ops (HSend (zlen l)) (l ++ [e]) b c w k o))
| h_send i ops l b w k o : (* 71, 153: there is room *)
    zlen b < cap ->
    hstep cap (mkH ops (HSend i) l b false w k o)
              (Some (mkH ops (if i =? -1 then HWait else HIdle) l (b ++ [i]) false w k o))
| h_send_closed i ops l b w k o : (* send on a closed channel *)
    hstep cap (mkH ops (HSend i) l b true w k o) None
| h_stream ops l b c w k o : (* 161-163 *)
    hstep cap (mkH (HStream :: ops) HIdle l b c w k o)
              (Some (mkH ops HIdle l b c (S w) k o))
| h_finish ops l b c w k o : (* 153 *)
    hstep cap (mkH (HFinish :: ops) HIdle l b c w k o)
              (Some (mkH ops (HSend (-1)) l b c w k o))
| h_wait ops l b o : (* 155-156: no streaming goroutine is left *)
    hstep cap (mkH ops HWait l b false O [] o) (Some (mkH ops HDone l b true O [] o))
| h_wait_closed ops l b o : (* close of a closed channel *)
    hstep cap (mkH ops HWait l b true O [] o) None
| h_again ops l b c w k o : (* Finish has returned *)
    hstep cap (mkH ops HDone l b c w k o) (Some (mkH ops HIdle l b c w k o))
| h_recv ops p l i b c w k o : (* 168: a streaming goroutine receives an index *)
    i <> -1 ->
    hstep cap (mkH ops p l (i :: b) c (S w) k o) (Some (mkH ops p l b c w (i :: k) o))
| h_stop ops p l b c w k o : (* 169-170, 174 *)
    hstep cap (mkH ops p l (-1 :: b) c (S w) k o) (Some (mkH ops p l b c w k o))
| h_closed ops p l w k o : (* 168: the channel is closed and empty *)
    hstep cap (mkH ops p l [] true (S w) k o) (Some (mkH ops p l [] true w k o))
| h_write ops p l b c w k1 i k2 o out : (* 172 *)
    string_by l i = Ok out ->
    hstep cap (mkH ops p l b c w (k1 ++ i :: k2) o)
              (Some (mkH ops p l b c (S w) (k1 ++ k2) (o ++ [out])))
| h_write_panic ops p l b c w k1 i k2 o :
    string_by l i = Panic ->
    hstep cap (mkH ops p l b c w (k1 ++ i :: k2) o) None.

Inductive hruns (cap : Z) : nat -> hst -> hst -> Prop :=
| hr_refl s : hruns cap 0 s s
| hr_step n s s1 s2 : hstep cap s (Some s1) -> hruns cap n s1 s2 -> hruns cap (S n) s s2.

End Histories.
Arguments hop E : clear implicits.
Arguments hst E T : clear implicits.
