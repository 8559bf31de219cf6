(** Specification of an editable byte buffer, independent of the journal: a
    buffer is a partial map from positions to bytes. *)
From Coq Require Import ZArith List Bool.
From Coq Require Import Strings.Byte.
From Verif Require Import GoLib BaseModel.
Import ListNotations.
Open Scope Z_scope.

(** What a position holds; [None] where nothing is defined. *)
Definition image := Z -> option byte.

(** The bytes [l] placed at positions [0 .. len l - 1]. *)
Definition img_bytes (l : list byte) : image := fun i => zget l i.

(** [p] stored at [off]. *)
Definition img_write (m : image) (off : Z) (p : list byte) : image :=
  fun i => if (off <=? i) && (i <? off + zlen p) then zget p (i - off) else m i.

(** [size] zero bytes inserted at [pos]. *)
Definition img_insert (m : image) (pos size : Z) : image :=
  fun i => if i <? pos then m i
           else if i <? pos + size then Some x00
           else m (i - size).

(** [len] is the least bound of the defined positions (from 0 on). *)
Definition img_len (m : image) (len : Z) : Prop :=
  0 <= len /\ (forall i, len <= i -> m i = None)
  /\ (len = 0 \/ m (len - 1) <> None).

(** The observation: the first byte of [R(i, Size(1))], [None] when the call
    returns no data. *)
Definition peek (b : base) (i : Z) : res (option byte) :=
  do s <- base_r b i 1; Ok (hd_error (opt_data s)).

(** [b] shows the image [m]. *)
Definition shows (b : base) (m : image) : Prop :=
  forall i, 0 <= i -> peek b i = Ok (m i).

(** The slice returned by a read, compared with an image: byte [k] of the
    slice is what the image has at [off + k]. *)
Definition slice_of_image (m : image) (off : Z) (l : list byte) : Prop :=
  forall k, 0 <= k < zlen l -> zget l k = m (off + k).

(** A buffer without a stream and read cache whose journal entries have
    non-negative offsets.  Every buffer created from bytes has this form and
    all operations keep it. *)
Definition in_memory (b : base) : Prop :=
  b_rdiffs b = nil /\ Forall (fun d => 0 <= d_off d) (b_diffs b).

(** Histories of write calls. *)
Inductive wop :=
| OpWriteAt (off : Z) (p : list byte)   (* WriteAt(p, off) *)
| OpWrite (p : list byte)               (* Write(p): at the cursor *)
| OpUpdate (off : Z) (p : list byte).   (* copy(U(off, len(p)), p) *)

Definition wop_ok (o : wop) : Prop :=
  match o with
  | OpWriteAt off _ => 0 <= off
  | OpWrite _ => True
  | OpUpdate off _ => 0 <= off
  end.

Definition run_wop (b : base) (o : wop) : res base :=
  match o with
  | OpWriteAt off p => Ok (fst (write_at b p off))
  | OpWrite p => Ok (fst (base_write b p))
  | OpUpdate off p => base_u b off (zlen p) p
  end.

Fixpoint run_wops (b : base) (os : list wop) : res base :=
  match os with
  | nil => Ok b
  | o :: os' => do b' <- run_wop b o; run_wops b' os'
  end.

(** The specification of a history: image and cursor. *)
Definition spec_wop (st : image * Z) (o : wop) : image * Z :=
  let '(m, cur) := st in
  match o with
  | OpWriteAt off p => (img_write m off p, cur)
  | OpWrite p => (img_write m cur p, cur + zlen p)
  | OpUpdate off p => (img_write m off p, cur)
  end.

Definition spec_wops (m : image) (os : list wop) : image :=
  fst (fold_left spec_wop os (m, 0)).

(** Successive [Read] calls with buffers of the given lengths: the bytes
    delivered by each (as many as reported, at most the buffer). *)
Fixpoint run_reads (b : base) (ns : list Z) : res (list (list byte)) :=
  match ns with
  | nil => Ok nil
  | n :: ns' =>
      do (b', p, cnt) <- base_read b (zeros n);
      do rest <- run_reads b' ns';
      Ok (zfirst cnt p :: rest)
  end.

(** Every one of the reads reports at most as many bytes as it was given room
    for, which is what io.Reader asks for. *)
Fixpoint reads_fit (b : base) (ns : list Z) : Prop :=
  match ns with
  | nil => True
  | n :: ns' => forall b' p cnt, base_read b (zeros n) = Ok (b', p, cnt) ->
                  cnt <= n /\ reads_fit b' ns'
  end.

(** The pieces follow one another in the image from position [cur] on; a piece
    is only empty where there is nothing. *)
Fixpoint consecutive (m : image) (cur : Z) (out : list (list byte)) : Prop :=
  match out with
  | nil => True
  | c :: out' =>
      slice_of_image m cur c /\ (c = nil <-> m cur = None) /\
      consecutive m (cur + zlen c) out'
  end.

(** An image with its gaps below [len] filled with zero and nothing above. *)
Definition img_fill (m : image) (len : Z) : image :=
  fun i => if (0 <=? i) && (i <? len)
           then Some (match m i with Some x => x | None => x00 end)
           else None.

(** [n] bytes of [src] from [srcOff] laid over [m] at [dstOff]. *)
Definition img_overlay (m src : image) (srcOff n dstOff : Z) : image :=
  fun i => if (dstOff <=? i) && (i <? dstOff + n)
           then src (srcOff + (i - dstOff)) else m i.

(** [n] positions of [m] from [off] on are defined, and either that is all
    that was asked for or the next one is undefined. *)
Definition defined_run (m : image) (off size n : Z) : Prop :=
  0 <= n <= size /\ (forall k, 0 <= k < n -> m (off + k) <> None)
  /\ (n = size \/ m (off + n) = None).

(** Every read of [b] returns current bytes only. *)
Definition reads_current (b : base) : Prop :=
  forall off req s m, 0 <= off -> 0 <= req -> shows b m ->
    base_r b off req = Ok s -> slice_of_image m off (opt_data s).

(** No journal entry starts strictly inside an earlier one. *)
Definition no_inner_start (ds : list diff) : Prop :=
  forall l1 d l2 e l3, ds = l1 ++ d :: l2 ++ e :: l3 ->
    d_off e <= d_off d \/ d_off d + d_len d <= d_off e.

(** Two entries overlap or are adjacent. *)
Definition touching (d e : diff) : Prop :=
  d_off d <= d_off e + d_len e /\ d_off e <= d_off d + d_len d.

(** Two entries share no position. *)
Definition apart (d e : diff) : Prop :=
  d_off d + d_len d <= d_off e \/ d_off e + d_len e <= d_off d.

(** The entry crosses position [pos]: it starts before and holds it. *)
Definition straddles (pos : Z) (d : diff) : bool :=
  (d_off d <? pos) && (pos <? d_off d + d_len d).

(** A write call with at least one byte. *)
Definition wop_nonempty (o : wop) : Prop :=
  match o with
  | OpWriteAt _ p | OpWrite p | OpUpdate _ p => p <> nil
  end.
