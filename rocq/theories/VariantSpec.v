(** Specifications for the buffer variants. *)
From Coq Require Import ZArith List Bool.
From Coq Require Import Strings.Byte.
From Verif Require Import GoLib BaseModel BaseSpec.
Import ListNotations.
Open Scope Z_scope.

(** What one journal entry holds. *)
Definition entry_img (d : diff) : image := img_write (fun _ => None) (d_off d) (d_data d).

(** The entry [s] laid over the entry [d], zero in the gap between the end of
    [d] and the start of [s]. *)
Definition laid_over (d s : diff) : image :=
  fun i => if (d_off d + d_len d <=? i) && (i <? d_off s) then Some x00
           else img_write (entry_img d) (d_off s) (d_data s) i.

(** The bytes of [m] from [start] on, at most [size] of them. *)
Definition img_window (m : image) (start size : Z) : image :=
  fun i => if (0 <=? i) && (i <? size) then m (start + i) else None.

(** The bytes [data] continued by the bytes [str]. *)
Definition continued (data str : list byte) : image := img_bytes (data ++ str).

(** Every entry of [l] starts at or after the entry [d], and every position
    between the two starts lies in an entry before it. *)
Definition gap_free (d : diff) (l : list diff) : Prop :=
  forall l1 s l2, l = l1 ++ s :: l2 -> d_off d <= d_off s /\
    forall i, d_off d <= i < d_off s -> exists e, In e (d :: l1) /\ covers i e = true.
