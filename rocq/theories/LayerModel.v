(** Model of inserting space into the buffer variants and of the choice of a
    variant (query/base/directreader.go, query/base/option.go), with slices by
    value: only the buffer returned is described, not the one the call was made
    on, whose journal is changed in place in one case. *)
From Coq Require Import ZArith List Bool String.
From Coq Require Import Strings.Byte.
From Verif Require Import GoLib BaseModel VariantModel.
Import ListNotations.
Open Scope list_scope.
Open Scope Z_scope.

(** directreader.go:86-98 [NoLayer.insertSpace] *)
Definition nl_insert (b : base) (pos size : Z) (isCreate : bool) : res base :=
  do nb <- insert_space b pos size isCreate;
  if pos + size <=? len_buf nb then Ok nb
  else insert_space b pos size true.

(** directreader.go:233-288 [DoubleLayer.insertSpace].  The parameter isCreate
    is not used.  The result is a [*BaseImpl]. *)
Definition dl_insert (b : base) (pos size : Z) : res base :=
  do b <- dl_merge b;
  let mk ds := mkBase (b_bytes b) nil ds true 0 in
  match b_diffs b with
  | nil =>
      let len := gs_len (b_bytes b) in
      let blen := Z.max size (size + len - pos) in
      if blen <? 0 then Panic
      else
        let bytes := gs_make blen blen in
        if len <=? pos then Ok (mk [mkDiff pos bytes])
        else
          do from <- gs_from (b_bytes b) pos;
          do to <- gs_upto bytes size;
          let p := zfirst (gs_len to) (sl_data from) in
          do bytes <- gs_copy bytes 0 p;
          Ok (mk [mkDiff pos bytes])
  | d :: rest =>
      let put d' := Ok (mk (d' :: rest)) in
      if include d pos then
        do h <- gs_upto (d_sl d) pos;
        if size <=? d_cap d - gs_len h then
          do s <- gs_upto (d_sl d) (d_len d + size);
          do from <- gs_from s (pos - d_off d);
          do s <- gs_copy s (pos - d_off d + size) (sl_data from);
          do s <- gs_copy s (pos - d_off d) (zeros size);
          put (mkDiff (d_off d) s)
        else
          let s := gs_make (d_len d + size) (2 * d_len d + size) in
          do h <- gs_upto (d_sl d) (pos - d_off d);
          do s <- gs_copy s 0 (sl_data h);
          do t <- gs_from (d_sl d) (pos - d_off d);
          do s <- gs_copy s (pos - d_off d + size) (sl_data t);
          put (mkDiff (d_off d) s)
      else if pos <? d_off d then
        let s := gs_make (d_len d + size) (2 * (d_len d + size)) in
        do s <- gs_copy s size (d_data d);
        put (mkDiff pos s)
      else
        let s := gs_make (pos - d_off d + size) (2 * (pos - d_off d + size)) in
        do s <- gs_copy s 0 (d_data d);
        put (mkDiff (d_off d) s)
  end.

(** directreader.go:195-207 [NewDoubleLayer] of a [*BaseImpl] *)
Definition new_double (b : base) : res base :=
  match b_diffs b with nil => Ok b | _ => base_flatten b end.

(** ** The default variant (option.go:16-31) *)

Inductive kind := KBase | KNoLayer | KDoubleLayer.

Definition default_base (name : string) : kind :=
  if String.eqb name "NoLayer" then KNoLayer
  else if String.eqb name "DobuleLayer" then KDoubleLayer
  else KBase.
