(** Vocabulary for changing the variant of a buffer. *)
From Coq Require Import ZArith List Bool.
From Coq Require Import Strings.Byte.
From Verif Require Import GoLib BaseModel BaseSpec VariantModel VariantSpec LayerModel MixModel MixSpec WrapModel.
Import ListNotations.
Open Scope Z_scope.

(** What is read through a layer *)
Definition layer_shows (v : layer) (m : image) : Prop :=
  forall i, 0 <= i -> exists v' s, layer_r v i 1 = Ok (v', s) /\ hd_error (opt_data s) = m i.

(** A buffer in memory, without a gap between the entries of a [DoubleLayer] and
    without a stream behind it *)
Definition sound (v : io) : Prop :=
  match v with
  | Plain b | Single b => in_memory b
  | Double b => in_memory b /\ forall d l, b_diffs b = d :: l -> gap_free d l
  | Direct _ _ => False
  end.

Definition same_variant (v w : io) : Prop :=
  match v, w with
  | Plain _, Plain _ | Single _, Single _ | Double _, Double _ => True
  | _, _ => False
  end.

Definition byte_at (r : res layer) (i : Z) : res (option byte) :=
  do v <- r; do (x, s) <- layer_r v i 1; Ok (hd_error (opt_data s)).
