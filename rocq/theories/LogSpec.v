(** What the loggers are to do, said without the model's functions. *)
From Coq Require Import ZArith List Bool String.
From Verif Require Import LogModel.
Import ListNotations.
Open Scope list_scope.
Open Scope string_scope.
Open Scope Z_scope.

(** A message: its level and its text *)
Definition message := (Z * string)%type.

Definition letter (l : Z) : string :=
  match l with 0 => "E: " | 1 => "W: " | 2 => "D: " | _ => " " end.

(** What a list of messages shows at a level: those that are not above it, in
    order, each behind its letter. *)
Fixpoint shown (level : Z) (ms : list message) : string :=
  match ms with
  | [] => ""
  | (l, t) :: ms => if l <=? level then letter l ++ t ++ shown level ms else shown level ms
  end.

(** The options of one [Log2] call mean: *)
Fixpoint last_run {R} (opts : list (lopt R)) : option R :=
  match opts with
  | [] => None
  | ORun r :: opts => match last_run opts with Some r' => Some r' | None => Some r end
  | _ :: opts => last_run opts
  end.

(** the level and the filter of the last flag *)
Definition flags {R} (opts : list (lopt R)) (l f : Z) : Prop :=
  exists before after, opts = (before ++ OFlag l f :: after)%list /\
    Forall (fun o => match o with OFlag _ _ => False | _ => True end) after.

(** no flag at all *)
Definition unflagged {R} (opts : list (lopt R)) : Prop :=
  Forall (fun o => match o with OFlag _ _ => False | _ => True end) opts.
