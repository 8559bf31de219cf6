(** Model of [Copy] between buffers of any two variants (query/base/base.go:675-710,
    directreader.go:166-169, 315-320).  Slices are values: the destination keeps
    the bytes the source had, although the code lets both share them.  The
    destination is not the source. *)
From Coq Require Import ZArith List Bool.
From Coq Require Import Strings.Byte.
From Verif Require Import GoLib BaseModel VariantModel.
Import ListNotations.
Open Scope Z_scope.

(** [BaseImpl], [NoLayer], [DoubleLayer] and a [DirectReader] over a [BaseImpl]
    and the bytes of its [io.ReaderAt] *)
Inductive io :=
  | Plain (b : base)
  | Single (b : base)
  | Double (b : base)
  | Direct (b : base) (str : list byte).

(** [R(off, Size(req))] and the buffer afterwards *)
Definition io_r (v : io) (off req : Z) : res (io * option gslice) :=
  match v with
  | Plain b => do s <- base_r b off req; Ok (v, s)
  | Single b => do s <- nl_r b off req; Ok (v, s)
  | Double b => do (b', s) <- dl_r b off req; Ok (Double b', s)
  | Direct b str => do s <- dr_r b str off req; Ok (v, s)
  end.

(** base.go:689-708, with the source read as its variant does *)
Fixpoint mix_loop (fuel : nat) (src : io) (srcOff size dstOff ptr : Z) (ds : list diff)
    : res (io * list diff) :=
  if srcOff + size <=? ptr then Ok (src, ds)
  else match fuel with
  | O => OutOfFuel
  | S f =>
      do (src', s) <- io_r src ptr (size - (ptr - srcOff));
      match s with
      | None => Ok (src', ds)
      | Some data =>
          if gs_len data =? 0 then Ok (src', ds)
          else
            do data <- (if size - (ptr - srcOff) <? gs_len data
                        then gs_upto data (size - (ptr - srcOff))
                        else Ok data);
            mix_loop f src' srcOff size dstOff (ptr + gs_len data)
              (ds ++ [mkDiff ((ptr - srcOff) + dstOff) data])
      end
  end.

(** base.go:675-710 *)
Definition mix_into (b : base) (src : io) (srcOff size dstOff extend : Z) : res (io * base) :=
  do ds0 <- (if dstOff <? gs_len (b_bytes b)
             then do t <- gs_from (b_bytes b) dstOff;
                  Ok (diffs_insert (b_diffs b) 0 [mkDiff dstOff t])
             else Ok (b_diffs b));
  let ds1 := map (fun d => if dstOff <=? d_off d
                           then mkDiff (d_off d + extend) (d_sl d) else d) ds0 in
  do (src', ds2) <- mix_loop (Z.to_nat size) src srcOff size dstOff srcOff ds1;
  Ok (src', set_diffs b ds2).

(** [dst.Copy(src, srcOff, size, dstOff, extend)]: the source and the destination
    afterwards.  [DirectReader] has the [Copy] of the buffer in it. *)
Definition io_copy (dst src : io) (srcOff size dstOff extend : Z) : res (io * io) :=
  match dst with
  | Plain b => do (src', b') <- mix_into b src srcOff size dstOff extend; Ok (src', Plain b')
  | Single b => do (src', b') <- mix_into b src srcOff size dstOff extend; Ok (src', Single b')
  | Double b =>
      do (src', b') <- mix_into b src srcOff size dstOff extend;
      do b'' <- dl_merge b'; Ok (src', Double b'')
  | Direct b str =>
      do (src', b') <- mix_into b src srcOff size dstOff extend; Ok (src', Direct b' str)
  end.
