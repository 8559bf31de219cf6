(** Model of [CommonList] (query/base/list.go:16-253), a vector of tables whose
    data area is kept in a file while its header (count and slots) stays in
    memory.

    Buffers are [BaseImpl] buffers in memory, elements are tables with inline
    fields.  The data writer is a plain [io.Writer], or a file that can also be
    read, written at an offset and sought, as [os.File] can; its operations do
    not fail.  The field [dCur] is omitted (it is written and never read). *)
From Coq Require Import ZArith List Bool.
From Coq Require Import Strings.Byte.
From Verif Require Import GoLib BaseModel TableModel ListModel.
Import ListNotations.
Open Scope Z_scope.

(** Content and cursor of a file. *)
Record file := mkFile { f_data : list byte; f_cur : Z }.

(** Bytes stored at an offset; a hole before them is filled with zeros. *)
Definition stored (l p : list byte) (off : Z) : list byte :=
  if zlen p =? 0 then l
  else let l := l ++ zeros (off - zlen l) in
       zfirst off l ++ p ++ zskip (off + zlen p) l.

Inductive writer := NoWriter | Plain (f : file) | File (f : file).

(** [Write] at the cursor; a nil interface panics. *)
Definition w_write (w : writer) (p : list byte) : res writer :=
  let step f := mkFile (stored (f_data f) p (f_cur f)) (f_cur f + zlen p) in
  match w with
  | NoWriter => Panic
  | Plain f => Ok (Plain (step f))
  | File f => Ok (File (step f))
  end.

(** [WriteAt]; a negative offset is an error, which the callers ignore. *)
Definition f_write_at (f : file) (p : list byte) (off : Z) : file :=
  if off <? 0 then f else mkFile (stored (f_data f) p off) (f_cur f).

(** list.go:17-22 [CommonList]: the list, [dataW] and [dLen]. *)
Record sep := mkSep { s_list : lnode; s_w : writer; s_len : Z }.

(** list.go:30-34 [SetDataWriter] *)
Definition set_writer (l : lnode) (w : writer) : sep := mkSep l w 0.

Inductive sep_res := SOk (s : sep) | SErr (s : sep) | SUnmodelled.

(** [R(pos, Size(size))[:size]] *)
Definition read_cut (b : base) (pos size : Z) : res (list byte) :=
  do s <- base_r b pos size;
  match s with
  | Some x => do y <- gs_upto x size; Ok (sl_data y)
  | None => if size =? 0 then Ok nil else Panic
  end.

(** list.go:61-68, the loop of [WriteDataAll]; [None] when the size of an
    element is not modelled. *)
Fixpoint write_elems (ks : list fkind) (b : base) (ps : list Z) (w : writer) (len : Z)
  : res (option (writer * Z)) :=
  match ps with
  | nil => Ok (Some (w, len))
  | p :: ps' =>
      let vSize := zlen ks * 2 + 4 in
      do i <- elem_info (ETable ks) b p;
      match i with
      | None => Ok None
      | Some i =>
          do q <- read_cut b (p - vSize) (i + vSize);
          do w <- w_write w q;
          write_elems ks b ps' w (len + (i + vSize))
      end
  end.

(** list.go:43-81 [WriteDataAll]; [Count] is the cached one (common.go:689). *)
Definition write_data_all (ks : list fkind) (s : sep) : res sep_res :=
  let l := s_list s in
  if l_vlen l =? 0 then Ok (SOk s)
  else
    do b <- base_flatten (l_io l);
    let l := set_io l b in
    do p <- list_at (ETable ks) l 0;
    match p with
    | None => Ok (SErr (mkSep l (s_w s) (s_len s)))
    | Some p =>
        let vSize := zlen ks * 2 + 4 in
        do ps <- list_all (ETable ks) l;
        do r <- write_elems ks b ps (s_w s) (s_len s);
        match r with
        | None => Ok SUnmodelled
        | Some (w, len) =>
            do h <- base_r b 0 (p - vSize);
            do h <- match h with
                    | Some x => gs_upto3 x (p - vSize) (p - vSize)
                    | None => if p - vSize =? 0 then Ok (gs_of nil) else Panic
                    end;
            Ok (SOk (mkSep (set_io l (mkBase h nil nil (b_check b) 0)) w len))
        end
    end.

(** list.go:84-90 [At]; [None] is a returned error. *)
Definition sep_at (ks : list fkind) (s : sep) (i : Z) : res (option Z) :=
  match s_w s with
  | NoWriter => list_at (ETable ks) (s_list s) i
  | _ => Ok None
  end.

(** list.go:142-157: the journal entries of the element. *)
Fixpoint write_diffs (f : file) (cur pos : Z) (ds : list diff) : file :=
  match ds with
  | nil => f
  | d :: ds' => write_diffs (f_write_at f (d_data d) (cur + pos + d_off d)) cur pos ds'
  end.

(** list.go:125-168 [WriteElm] *)
Definition write_elm (s : sep) (elm : base) (pos size : Z) : res sep :=
  let l := s_list s in
  match b_diffs (l_io l) with
  | nil =>
      do q <- read_cut elm pos size;
      do w <- w_write (s_w s) q;
      do h <- base_r (l_io l) 0 (pos + size);
      do b <- (if pos + size <=? opt_len h
               then match h with
                    | Some x => do x <- gs_upto3 x (pos + size) (pos + size); Ok (new_base x)
                    | None => Panic
                    end
               else Ok (l_io l));
      Ok (mkSep (set_io l b) w (s_len s + size))
  | ds =>
      do n <- list_vlen l;
      let wStart := l_pos l + n * 4 + s_len s in
      do w <- match s_w s with
              | File f =>
                  let cur := s_len s in
                  do q <- base_r elm 0 0;
                  Ok (File (write_diffs (f_write_at f (opt_data q) cur) cur pos (b_diffs elm)))
              | w => Ok w
              end;
      let kept := filter (fun d => negb ((wStart + pos + size <=? d_off d + d_len d)
                                         || (wStart <=? d_off d))) ds in
      Ok (mkSep (set_io l (set_diffs (l_io l) kept)) w (s_len s + size))
  end.

(** list.go:93-116 [SetAt] with a table at [p] of the buffer [elm]; the error of
    the inner [SetAt] is ignored. *)
Definition sep_set_at (ks : list fkind) (s : sep) (i : Z) (elm : base) (p : Z) : res sep_res :=
  match s_w s with
  | NoWriter =>
      do r <- set_at (ETable ks) (s_list s) i elm p (-1);
      match r with
      | LOk l => Ok (SOk (mkSep l NoWriter (s_len s)))
      | LErr => Ok (SErr s)
      | LUnmodelled => Ok SUnmodelled
      end
  | w =>
      if negb (l_vlen (s_list s) =? i) then Ok (SErr s)
      else
        let vSize := zlen ks * 2 + 4 in
        do e <- elem_info (ETable ks) elm p;
        match e with
        | None => Ok SUnmodelled
        | Some e =>
            do r <- set_at (ETable ks) (s_list s) i elm p e;
            match r with
            | LUnmodelled => Ok SUnmodelled
            | LErr => do s <- write_elm s elm (p - vSize) (e + vSize); Ok (SOk s)
            | LOk l => do s <- write_elm (mkSep l w (s_len s)) elm (p - vSize) (e + vSize); Ok (SOk s)
            end
        end
  end.

(** [Merge] on the list, which flattens the header. *)
Definition sep_merge (s : sep) : res sep :=
  do b <- base_flatten (l_io (s_list s));
  Ok (mkSep (set_io (s_list s) b) (s_w s) (s_len s)).

(** list.go:207-218, the two loops of [Add]: slot [i] of [from] plus [d] is
    stored in slot [at + i]. *)
Fixpoint move_slots (nb : base) (from : lnode) (at_ d : Z) (is : list Z) : res base :=
  match is with
  | nil => Ok nb
  | i :: is' =>
      do o <- rd 4 (l_io from) (l_pos from + i * 4);
      do nb <- base_u nb (4 + (at_ + i) * 4) 4 (le_encode 4 (u32 (o + d)));
      move_slots nb from at_ d is'
  end.

(** Result of [Add]: the new list and [src] afterwards, or an error with both
    lists afterwards. *)
Inductive sep_added := Added (n src : sep) | NotAdded (dst src : sep).

(** list.go:172-248 [Add], for two lists of the same table type that do not share
    a file. *)
Definition sep_add (dst src : sep) : res sep_added :=
  match s_w dst, s_w src with
  | NoWriter, _ | _, NoWriter => Ok (NotAdded dst src)
  | wd, ws =>
      let ld := s_list dst in
      let ls := s_list src in
      do nd <- list_vlen ld;
      do ns <- list_vlen ls;
      let newLen := u32 (nd + ns) in
      let nb := mkBase (gs_of (zeros (4 + newLen * 4))) nil nil (b_check (l_io ld)) 0 in
      do nb <- base_u nb 0 4 (le_encode 4 newLen);
      do nb <- move_slots nb ld 0 (ns * 4) (zseq nd);
      do nb <- move_slots nb ls nd (u32 (s_len dst)) (zseq ns);
      do n <- rd 4 nb (l_pos ld - 4);
      let l := mkL nb 4 (l_pos ld) n (l_size ld + (l_size ls - 4)) in
      match wd, ws with
      | File f, File g =>
          let p := zskip (f_cur g) (f_data g) in
          let e := zlen (f_data f) in
          let f' := File (mkFile (stored (f_data f) p e) (e + zlen p)) in
          let src' := mkSep ls (File (mkFile (f_data g) (f_cur g + zlen p))) (s_len src) in
          if zlen p =? s_len src
          then Ok (Added (mkSep l f' (s_len dst + s_len src)) src')
          else Ok (NotAdded (mkSep ld f' (s_len dst)) src')
      | File f, _ =>
          Ok (NotAdded (mkSep ld (File (mkFile (f_data f) (zlen (f_data f)))) (s_len dst)) src)
      | _, _ => Ok (NotAdded dst src)
      end
  end.
