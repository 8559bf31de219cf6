(** Go data used by every model file: bytes, slices by value, results with
    panics, and the little-endian codecs of google/flatbuffers.

    Nothing in this file is specific to the repository. *)
From Coq Require Import ZArith List Bool.
From Coq Require Import Strings.Byte.
Import ListNotations.
Open Scope Z_scope.

(** Result of a Go call that may panic.  [OutOfFuel] is only produced by
    models of loops that are not structurally recursive; theorems exclude it. *)
Inductive res (A : Type) : Type :=
| Ok (a : A)
| Panic
| OutOfFuel.
Arguments Ok {A} _.
Arguments Panic {A}.
Arguments OutOfFuel {A}.

Definition bind {A B} (m : res A) (f : A -> res B) : res B :=
  match m with
  | Ok a => f a
  | Panic => Panic
  | OutOfFuel => OutOfFuel
  end.

Notation "'do' x <- m ; f" := (bind m (fun x => f))
  (at level 200, x pattern, m at level 100, f at level 200).

(** Length of a Go slice as an integer.  Go's [int] is modelled by [Z]
    (no overflow of 64-bit integers). *)
Definition zlen {A} (l : list A) : Z := Z.of_nat (length l).

(** Indexing with an integer. *)
Definition zget {A} (l : list A) (i : Z) : option A :=
  if i <? 0 then None else nth_error l (Z.to_nat i).

Definition zfirst {A} (n : Z) (l : list A) : list A := firstn (Z.to_nat n) l.
Definition zskip {A} (n : Z) (l : list A) : list A := skipn (Z.to_nat n) l.

Definition b2z (b : byte) : Z := Z.of_N (Byte.to_N b).
Definition z2b (z : Z) : byte :=
  match Byte.of_N (Z.to_N (z mod 256)) with
  | Some b => b
  | None => x00
  end.

Definition zeros (n : Z) : list byte := repeat x00 (Z.to_nat n).

(** A Go byte slice by value: the visible bytes, and the bytes between its
    length and its capacity. *)
Record gslice := mkSlice { sl_data : list byte; sl_spare : list byte }.

Definition gs_len (s : gslice) : Z := zlen (sl_data s).
Definition gs_cap (s : gslice) : Z := zlen (sl_data s) + zlen (sl_spare s).

(** [s[a:]] *)
Definition gs_from (s : gslice) (a : Z) : res gslice :=
  if (0 <=? a) && (a <=? gs_len s)
  then Ok (mkSlice (zskip a (sl_data s)) (sl_spare s))
  else Panic.

(** [s[a:b]]; [b] may exceed the length up to the capacity. *)
Definition gs_range (s : gslice) (a b : Z) : res gslice :=
  if (0 <=? a) && (a <=? b) && (b <=? gs_cap s)
  then let full := sl_data s ++ sl_spare s in
       Ok (mkSlice (zskip a (zfirst b full)) (zskip b full))
  else Panic.

(** [s[:b]] *)
Definition gs_upto (s : gslice) (b : Z) : res gslice := gs_range s 0 b.

(** [s[:b:c]] *)
Definition gs_upto3 (s : gslice) (b c : Z) : res gslice :=
  if (0 <=? b) && (b <=? c) && (c <=? gs_cap s)
  then let full := sl_data s ++ sl_spare s in
       Ok (mkSlice (zfirst b full) (zskip b (zfirst c full)))
  else Panic.

(** [make([]byte, n, c)] *)
Definition gs_make (n c : Z) : gslice := mkSlice (zeros n) (zeros (c - n)).

(** A slice with no spare capacity. *)
Definition gs_of (l : list byte) : gslice := mkSlice l nil.

(** Overwrite [l] at index [a] with [p], as [copy(l[a:], p)] does: bytes of
    [p] that do not fit are dropped.  [a] must be within [0 .. len l]. *)
Definition copy_at (l : list byte) (a : Z) (p : list byte) : list byte :=
  zfirst a l ++ zfirst (zlen l - a) p ++ zskip (a + zlen p) l.

(** ** Little-endian codecs (google/flatbuffers/go encode.go, not in the
    repository; modelled by their documented behaviour). *)

Fixpoint le_encode (n : nat) (v : Z) : list byte :=
  match n with
  | O => nil
  | S n' => z2b v :: le_encode n' (v / 256)
  end.

Fixpoint le_decode (l : list byte) : Z :=
  match l with
  | nil => 0
  | b :: l' => b2z b + 256 * le_decode l'
  end.

(** [GetUintN(buf)]: panics if the slice is too short. *)
Definition get_le (n : nat) (buf : list byte) : res Z :=
  if (length buf <? n)%nat then Panic else Ok (le_decode (firstn n buf)).

(** [WriteUintN(buf, v)]: the written slice, panics if it is too short. *)
Definition put_le (n : nat) (buf : list byte) (v : Z) : res (list byte) :=
  if (length buf <? n)%nat then Panic else Ok (le_encode n v ++ skipn n buf).

Definition get_u8 := get_le 1.
Definition get_u16 := get_le 2.
Definition get_u32 := get_le 4.
Definition get_u64 := get_le 8.

(** Reinterpretation of an n-byte unsigned value as a signed one. *)
Definition to_signed (n : nat) (v : Z) : Z :=
  if v <? 2 ^ (8 * Z.of_nat n - 1) then v else v - 2 ^ (8 * Z.of_nat n).

Definition u8 (z : Z) := z mod 2 ^ 8.
Definition u16 (z : Z) := z mod 2 ^ 16.
Definition u32 (z : Z) := z mod 2 ^ 32.

(** ** Index searches of kazu/loncha (not in the repository): index of the
    last/first element satisfying a predicate. *)
Fixpoint last_index_from {A} (p : A -> bool) (l : list A) (i : nat) : option nat :=
  match l with
  | nil => None
  | x :: l' =>
      match last_index_from p l' (S i) with
      | Some k => Some k
      | None => if p x then Some i else None
      end
  end.

Definition last_index {A} (p : A -> bool) (l : list A) : option nat :=
  last_index_from p l 0.

Fixpoint first_index_from {A} (p : A -> bool) (l : list A) (i : nat) : option nat :=
  match l with
  | nil => None
  | x :: l' => if p x then Some i else first_index_from p l' (S i)
  end.

Definition first_index {A} (p : A -> bool) (l : list A) : option nat :=
  first_index_from p l 0.

(** [loncha.Delete(&l, pred)] where [pred] gets the index: elements whose
    index satisfies the predicate are removed, the order is kept. *)
Fixpoint delete_idx_from {A} (p : nat -> bool) (l : list A) (i : nat) : list A :=
  match l with
  | nil => nil
  | x :: l' => if p i then delete_idx_from p l' (S i)
               else x :: delete_idx_from p l' (S i)
  end.

Definition delete_idx {A} (p : nat -> bool) (l : list A) : list A :=
  delete_idx_from p l 0.
