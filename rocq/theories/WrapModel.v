(** Model of choosing and changing the variant of a buffer: [NewNoLayer],
    [NewDoubleLayer], [New], [NewFromBytes], [Dup] and the buffer of a new list
    (query/base/directreader.go:55-78, 171-204, 322-330, base.go:455-503,
    option.go:34-41, list.go:908-914, 1095-1111).  Slices are values.  A buffer
    whose journal [NewDoubleLayer] flattens is changed itself, too. *)
From Coq Require Import ZArith List Bool.
From Coq Require Import Strings.Byte.
From Verif Require Import GoLib BaseModel VariantModel LayerModel MixModel.
Import ListNotations.
Open Scope Z_scope.

(** [NoLayer{}] and [DoubleLayer{}] have no [BaseImpl]: every use of them is a
    nil dereference. *)
Definition layer := option io.

Definition layer_r (v : layer) (off req : Z) : res (io * option gslice) :=
  match v with
  | Some v => io_r v off req
  | None => Panic
  end.

(** [Impl()]; that of a [DirectReader] is that of the buffer in it *)
Definition impl (v : io) : base :=
  match v with
  | Plain b | Single b | Double b | Direct b _ => b
  end.

(** directreader.go:55-68; [Impl()] is never nil for the buffers here *)
Definition new_no_layer (v : io) : layer := Some (Single (impl v)).

(** directreader.go:187-200 *)
Definition new_double_layer (v : io) : res layer :=
  match v with
  | Double b => Ok (Some (Double b))
  | Plain b => do b' <- new_double b; Ok (Some (Double b'))
  | Single _ | Direct _ _ => Ok None
  end.

(** base.go:501-503, directreader.go:177-179, 328-330: [New] of the variant [k] *)
Definition io_new (k : kind) (v : io) : res layer :=
  match k with
  | KBase => Ok (Some v)
  | KNoLayer => Ok (new_no_layer v)
  | KDoubleLayer => new_double_layer v
  end.

(** base.go:493-498, directreader.go:172-174, 323-325: [NewFromBytes], and with the
    default variant [NewBase] *)
Definition io_bytes (k : kind) (s : gslice) : res layer := io_new k (Plain (new_base s)).

(** base.go:455-481, directreader.go:75-78, 202-204.  [DirectReader] has the [Dup]
    of the buffer in it. *)
Definition io_dup (v : io) : io :=
  match v with
  | Plain b => Plain (base_dup b)
  | Single b => Single (base_dup b)
  | Double b => Double (base_dup b)
  | Direct b _ => Plain (base_dup b)
  end.

(** list.go:1095-1111 [List.new] with [InitList] (908-914): the buffer of a new
    list when the default variant is [k] and the list at hand lies in [v] *)
Definition list_io (k : kind) (v : io) : res layer :=
  do n <- io_bytes k (gs_of (zeros 4));
  match n with
  | None => Panic
  | Some n =>
      match v with
      | Plain _ => Ok (Some (Plain (impl n)))
      | Single _ => Ok (new_no_layer n)
      | Double _ => new_double_layer n
      | Direct _ _ => Ok (Some n)
      end
  end.
