(** Vocabulary for reads from a stream. *)
From Coq Require Import ZArith List Bool Permutation.
From Coq Require Import Strings.Byte.
From Verif Require Import GoLib BaseModel BaseSpec StreamModel.
Import ListNotations.
Open Scope Z_scope.

(** Histories of calls on a buffer over a stream. *)
Inductive sop :=
| SRead (off req : Z)
| SWrite (off : Z) (p : list byte).

Definition run_sop (fuel : nat) (srt : list diff -> list diff) (x : sbuf) (o : sop) : res sbuf :=
  match o with
  | SRead off req => do (x', _) <- stream_r fuel srt x off req; Ok x'
  | SWrite off p => Ok (fst (write_at (fst x) p off), snd x)
  end.

Fixpoint run_sops (fuel : nat) (srt : list diff -> list diff) (x : sbuf) (os : list sop) : res sbuf :=
  match os with
  | nil => Ok x
  | o :: os' => do x' <- run_sop fuel srt x o; run_sops fuel srt x' os'
  end.

(** A sort: all that is used is that it keeps the entries. *)
Definition keeps (srt : list diff -> list diff) : Prop := forall l, Permutation (srt l) l.

(** The call reads, and reads inside the first [len] bytes. *)
Definition reads_in (len : Z) (o : sop) : Prop :=
  match o with SRead off req => 0 <= off /\ 0 <= req /\ off + req <= len | SWrite _ _ => False end.

(** As above, or a write at a position of the buffer. *)
Definition calls_in (len : Z) (o : sop) : Prop :=
  match o with SRead off req => 0 <= off /\ 0 <= req /\ off + req <= len | SWrite off _ => 0 <= off end.

(** Reads of at least one byte whose positions never go back. *)
Fixpoint forward (lo len : Z) (os : list (Z * Z)) : Prop :=
  match os with
  | nil => True
  | (off, req) :: os' => lo <= off /\ 1 <= req /\ off + req <= len /\ forward off len os'
  end.

(** All slices the reads return. *)
Fixpoint read_all (fuel : nat) (srt : list diff -> list diff) (x : sbuf) (os : list (Z * Z))
  : res (list (list byte)) :=
  match os with
  | nil => Ok nil
  | (off, req) :: os' =>
      do (x', s) <- stream_r fuel srt x off req;
      do r <- read_all fuel srt x' os';
      Ok (opt_data s :: r)
  end.

(** The image of a stream with journal entries over it: the newest entry that
    covers a position, the stream elsewhere. *)
Fixpoint img_sops (m : image) (os : list sop) : image :=
  match os with
  | nil => m
  | SRead _ _ :: os' => img_sops m os'
  | SWrite off p :: os' => img_sops (img_write m off p) os'
  end.

(** Insertion sort by offset, for the examples. *)
Fixpoint ins_diff (d : diff) (l : list diff) : list diff :=
  match l with
  | nil => [d]
  | x :: l' => if d_off d <? d_off x then d :: l else x :: ins_diff d l'
  end.
Definition sort_diffs (l : list diff) : list diff := fold_left (fun acc d => ins_diff d acc) l nil.

(** Reads of at least one byte, each starting behind the previous one. *)
Fixpoint stepwise (lo len : Z) (os : list (Z * Z)) : Prop :=
  match os with
  | nil => True
  | (off, req) :: os' => lo <= off /\ 1 <= req /\ off + req <= len /\ stepwise (off + req) len os'
  end.

(** Nothing cached but bytes from the start of the stream. *)
Definition simple_cache (b : base) : Prop := b_rdiffs b = nil /\ b_diffs b = nil.

(** Cached bytes are those of the stream. *)
Definition cached (s : list byte) (d : diff) : Prop :=
  0 <= d_off d /\ slice_of_image (img_bytes s) (d_off d) (d_data d).

Definition agrees (s : list byte) (b : base) : Prop :=
  slice_of_image (img_bytes s) 0 (sl_data (b_bytes b)) /\ Forall (cached s) (b_rdiffs b).

(** A source that reports the end only when it delivers less than asked. *)
Definition no_eof : Z -> Z -> bool := fun _ _ => false.
