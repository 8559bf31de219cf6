(** What the variants of a buffer show, and when a copy between them is
    described. *)
From Coq Require Import ZArith List Bool.
From Coq Require Import Strings.Byte.
From Verif Require Import GoLib BaseModel BaseSpec VariantModel VariantSpec MixModel.
Import ListNotations.
Open Scope Z_scope.

(** Asked for one byte at any position, the buffer gives that of the image. *)
Definition io_shows (v : io) (m : image) : Prop :=
  forall i, 0 <= i -> exists v' s, io_r v i 1 = Ok (v', s) /\ hd_error (opt_data s) = m i.

(** There is nothing left to merge. *)
Definition settled (b : base) : Prop := dl_merge b = Ok b.

(** Buffers from which can be copied: range reads give current bytes.  A
    [DirectReader] must not have gaps below its stream. *)
Definition readable (v : io) : Prop :=
  match v with
  | Plain b | Single b => in_memory b /\ reads_current b
  | Double b => in_memory b /\ reads_current b /\ settled b
  | Direct b _ => in_memory b /\ reads_current b /\
      exists data, shows b (img_bytes data) /\ len_buf b = zlen data
  end.

(** Buffers into which [size] bytes can be copied at [off] *)
Definition writable (v : io) (off size : Z) : Prop :=
  match v with
  | Plain b | Single b => in_memory b
  | Double b => in_memory b /\ b_diffs b = []
  | Direct b _ => in_memory b /\ off + size <= len_buf b
  end.
