(** Model of joining vectors and of taking a part of one: [List.Add] and
    [List.New] (query/base/list.go), on buffers in memory of type [BaseImpl].

    Logging, the change of the log level and the dump helpers are omitted.
    [oldImpl.overwrite] (749-751) only concerns the other two buffer types. *)
From Coq Require Import ZArith List Bool.
From Coq Require Import Strings.Byte.
From Verif Require Import GoLib BaseModel TableModel ListModel.
Import ListNotations.
Open Scope Z_scope.

(** list.go:1233-1264 [indexOnMaxPos(false)]: the element whose node comes
    first; -1 when the list is empty.  No [Info] is taken here. *)
Fixpoint min_pos_loop (ps : list Z) (i best pos : Z) : Z :=
  match ps with
  | nil => best
  | p :: ps' =>
      if (i =? 0) || (p <? pos)
      then min_pos_loop ps' (i + 1) i p
      else min_pos_loop ps' (i + 1) best pos
  end.

Definition index_on_min_pos (k : ekind) (l : lnode) : res Z :=
  do ps <- list_all k l; Ok (min_pos_loop ps 0 (-1) 0).

(** list.go:595-634 [movOffToTable] (what [moveOffsetToTable] calls with the
    default configuration, option.go:44): the offsets are read first, then one
    [U] covers all slots.  The bytes that are read back while they are written
    are those of the slice [U] returned, so the two panics at 621 and 629 do not
    occur; [bufs[0]] panics for an empty list. *)
Fixpoint read_slots (b : base) (pos : Z) (is : list Z) : res (list Z) :=
  match is with
  | nil => Ok nil
  | i :: is' =>
      do off <- rd 4 b (pos + i * 4);
      do rest <- read_slots b pos is';
      Ok (off :: rest)
  end.

Definition write_slots (offs : list Z) : list byte :=
  concat (map (fun o => le_encode 4 (u32 o)) offs).

Definition move_offsets (l : lnode) (d : Z) : res lnode :=
  do cnt <- list_vlen l;
  do offs <- read_slots (l_io l) (l_pos l) (zseq cnt);
  do b <- base_u (l_io l) (l_pos l) (cnt * 4)
            (write_slots (map (fun o => o + d) offs));
  if cnt =? 0 then Panic else Ok (set_io l b).

(** Result of joining: both lists afterwards.  [dup] (list.go:258-267) shares
    the [NodeList], and with it the [Node], of its receiver, so what is done to
    the copy is done to the argument. *)
Inductive add_res := AOk (l a : lnode) | AErr | AUnmodelled.

(** list.go:258-267 [dup] *)
Definition list_dup (k : ekind) (l : lnode) : res list_res :=
  refresh k (set_io l (base_dup (l_io l))).

(** Both variables denote the same list when a list is added to itself. *)
Definition change_arg (same : bool) (st : lnode * lnode) (a : lnode) : lnode * lnode :=
  if same then (a, a) else (fst st, a).
Definition change_list (same : bool) (st : lnode * lnode) (l : lnode) : lnode * lnode :=
  if same then (l, l) else (l, snd st).

(** list.go:872-938 [InsertSpace] followed by [moveOffsetToTable]
    (list.go:708-718); [None] inside a root buffer. *)
Definition open_space (l : lnode) (pos size : Z) : res (option lnode) :=
  do l' <- list_insert_space l pos size false;
  match l' with
  | None => Ok None
  | Some l' =>
      do r <- in_root (l_io l') (l_npos l');
      if r then Ok (Some l')
      else do l' <- move_offsets l' size; Ok (Some l')
  end.

(** base.go:689-708, the loop of [Copy] when the source is the destination: each
    read sees the entries appended before. *)
Fixpoint copy_self_loop (fuel : nat) (b : base) (srcOff size dstOff ptr : Z) : res base :=
  if srcOff + size <=? ptr then Ok b
  else match fuel with
  | O => OutOfFuel
  | S f =>
      do s <- base_r b ptr (size - (ptr - srcOff));
      match s with
      | None => Ok b
      | Some data =>
          if gs_len data =? 0 then Ok b
          else
            do data <- (if size - (ptr - srcOff) <? gs_len data
                        then gs_upto data (size - (ptr - srcOff))
                        else Ok data);
            copy_self_loop f (set_diffs b (b_diffs b ++ [mkDiff ((ptr - srcOff) + dstOff) data]))
              srcOff size dstOff (ptr + gs_len data)
      end
  end.

(** base.go:675-710 [Copy] with [extend = 0]. *)
Definition copy_into (same : bool) (b src : base) (srcOff size dstOff : Z) : res base :=
  if same then
    do ds0 <- (if dstOff <? gs_len (b_bytes b)
               then do t <- gs_from (b_bytes b) dstOff;
                    Ok (diffs_insert (b_diffs b) 0 [mkDiff dstOff t])
               else Ok (b_diffs b));
    copy_self_loop (Z.to_nat size) (set_diffs b ds0) srcOff size dstOff srcOff
  else base_copy b src srcOff size dstOff 0.

(** list.go:636-760 [addTableList] with one argument. *)
Definition add_table_list (ks : list fkind) (same : bool) (l0 a0 : lnode) : res add_res :=
  let k := ETable ks in
  do an <- list_vlen a0;
  if an =? 0 then Ok (AOk l0 a0)
  else
    do ln <- list_vlen l0;
    if ln =? 0 then
      do a <- list_dup k a0;
      match a with
      | LOk a =>
          do l <- refresh k (mkL (base_dup (l_io a)) (l_npos l0) (l_pos a) (l_vlen l0) (l_size l0));
          match l with
          | LOk l => Ok (AOk l a)
          | LErr => Ok AErr
          | LUnmodelled => Ok AUnmodelled
          end
      | LErr => Ok AErr
      | LUnmodelled => Ok AUnmodelled
      end
    else
      do lt <- vlen_total k l0;
      match lt with
      | None => Ok AUnmodelled
      | Some lt =>
      let vlen := l_vlen lt in
      do lr <- refresh k lt;
      match lr with
      | LErr => Ok AErr
      | LUnmodelled => Ok AUnmodelled
      | LOk l =>
      let st := change_list same (l, a0) l in
      do i <- index_on_min_pos k l;
      do first <- list_at k l i;
      do m <- index_on_max_pos k l;
      match m with
      | None => Ok AUnmodelled
      | Some m =>
      do _ <- list_at k l m;
      match first with
      | None => Ok AErr
      | Some first =>
      let dataEnd := l_pos l + l_size l in
      do vl <- virtual_table_len (l_io l) first;
      let vtableStart := first - vl in
      do cnt <- list_vlen l;
      let headerEnd := l_pos l + 4 * cnt in
      do ar <- list_dup k (snd st);
      match ar with
      | LErr => Ok AErr
      | LUnmodelled => Ok AUnmodelled
      | LOk a =>
      do ar <- refresh k a;
      match ar with
      | LErr => Ok AErr
      | LUnmodelled => Ok AUnmodelled
      | LOk a =>
      let st := change_arg same st a in
      do am <- index_on_max_pos k a;
      match am with
      | None => Ok AUnmodelled
      | Some am =>
      do alast <- list_at k a am;
      match alast with
      | None => Ok AErr
      | Some alast =>
      do ai <- index_on_min_pos k a;
      do afirst <- list_at k a ai;
      match afirst with
      | None => Ok AErr
      | Some afirst =>
      do _ <- elem_info k (l_io a) alast;
      let aDataEnd := l_pos a + l_size a in
      let aVlen := l_vlen a in
      do acnt <- list_vlen a;
      let aSizeOfHeader := acnt * 4 in
      do avl <- virtual_table_len (l_io a) afirst;
      let avTableStart := afirst - avl in
      do a' <- open_space a avTableStart (dataEnd - vtableStart);
      match a' with
      | None => Ok AUnmodelled
      | Some a' =>
      let st := change_arg same st a' in
      do l' <- open_space (fst st) headerEnd aSizeOfHeader;
      match l' with
      | None => Ok AUnmodelled
      | Some l' =>
      let st := change_list same st l' in
      do b <- base_u (l_io (fst st)) (l_pos (fst st) - 4) 4 (le_encode 4 (u32 (vlen + aVlen)));
      let st := change_list same st (set_io (fst st) b) in
      do b <- copy_into same (l_io (fst st)) (l_io (snd st)) (l_pos (snd st)) aSizeOfHeader headerEnd;
      let st := change_list same st (set_io (fst st) b) in
      do b <- copy_into same (l_io (fst st)) (l_io (snd st)) (avTableStart + dataEnd - vtableStart)
                (aDataEnd - avTableStart) (dataEnd + aSizeOfHeader);
      let st := change_list same st (set_io (fst st) b) in
      do lr <- refresh k (fst st);
      match lr with
      | LOk l => let st := change_list same st l in Ok (AOk (fst st) (snd st))
      | LErr => Ok AErr
      | LUnmodelled => Ok AUnmodelled
      end end end end end end end end end end end end.

(** list.go:531-541 [addStructList]: the elements are those of [slist.All()],
    computed once.  Each is a node on the buffer of [slist], whose size is set
    from [Info] (list.go:770-772).  Not for a list added to itself, whose buffer
    changes under its elements. *)
Fixpoint add_struct_loop (k : ekind) (size : Z) (l : lnode) (src : base) (ps : list Z)
  : res list_res :=
  match ps with
  | nil => Ok (LOk l)
  | p :: ps' =>
      do n <- list_vlen l;
      do r <- set_struct_at k l n src p size;
      match r with
      | LOk l => add_struct_loop k size l src ps'
      | other => Ok other
      end
  end.

(** list.go:474-500 [Add]; the list and the argument are different lists of the
    same element type unless [same]. *)
Definition list_add (k : ekind) (same : bool) (l a : lnode) : res add_res :=
  do r <- in_root (l_io l) (l_npos l);
  if r then Ok AErr
  else
    do e <- list_first k a;
    match e with
    | None => Ok AErr
    | Some _ =>
        match k with
        | ETable ks => add_table_list ks same l a
        | EBasic size | EStruct size =>
            if same then Ok AUnmodelled
            else
              do ps <- list_all k a;
              do r <- add_struct_loop k size l (l_io a) ps;
              match r with
              | LOk l => Ok (AOk l a)
              | LErr => Ok AErr
              | LUnmodelled => Ok AUnmodelled
              end
        end
    end.

(** list.go:1266-1283 [atWithBegin]: position of the node and of what belongs
    to it. *)
Definition at_with_begin (k : ekind) (l : lnode) (i : Z) : res (option (Z * Z)) :=
  do e <- list_at k l i;
  match e with
  | None => Ok None
  | Some p =>
      match k with
      | EBasic _ | EStruct _ => Ok (Some (p, p))
      | ETable _ => do n <- virtual_table_len (l_io l) p; Ok (Some (p, p - n))
      end
  end.

(** list.go:1172-1192, the search for the data range: start, end and whether the
    elements are tables.  A first element that is not there is used nevertheless
    and panics. *)
Fixpoint range_loop (k : ekind) (l : lnode) (idx : Z) (is : list Z) (dStart dEnd : Z) (isTable : bool)
  : res (option (Z * Z * bool)) :=
  match is with
  | nil => Ok (Some (dStart, dEnd, isTable))
  | i :: is' =>
      do e <- at_with_begin k l i;
      match e with
      | None => if i =? idx then Panic else range_loop k l idx is' dStart dEnd isTable
      | Some (p, begin) =>
          let isTable := if (i =? idx) && isTable && (p =? begin) then false else isTable in
          let dStart := if i =? idx then begin else dStart in
          let dStart := if begin <? dStart then begin else dStart in
          do s <- elem_info k (l_io l) p;
          match s with
          | None => Ok None
          | Some s =>
              let dEnd := if dEnd <? p + s then p + s else dEnd in
              range_loop k l idx is' dStart dEnd isTable
          end
      end
  end.

(** [flatbuffers.WriteUint32(sub.R(off, Size(4)), v)] (list.go:1221): the bytes
    of the buffer itself are overwritten.  [sub] is a fresh list whose four bytes
    are not covered by any entry. *)
Definition poke_head (b : base) (v : Z) : base :=
  mkBase (gs_of (copy_at (sl_data (b_bytes b)) 0 (le_encode 4 v)))
    (b_rdiffs b) (b_diffs b) (b_check b) (b_seek b).

(** list.go:1117-1231 [New] with [OptRange(start, last)] and 1095-1111 [new];
    [LErr] is nil. *)
Definition new_range (k : ekind) (l : lnode) (start last : Z) : res list_res :=
  if (last <? start) || (start <? 0) then Ok LErr
  else
    let idx := start in
    let cnt := last - start + 1 in
    do n <- list_vlen l;
    if n <=? idx then Ok LErr
    else
      let sub := init_list in
      let size := cnt * 4 in
      do offs <- read_slots (l_io l) (l_pos l) (map (fun i => idx + i) (zseq cnt));
      do r <- range_loop k l idx (map (fun i => idx + i) (zseq cnt)) (-1) (-1) true;
      match r with
      | None => Ok LUnmodelled
      | Some (dStart, dEnd, isTable) =>
          let skip := (n - idx - cnt) * 4 + (dStart - (l_pos l + n * 4)) in
          do b <- base_u (l_io sub) 4 size
                    (if isTable then write_slots (map (fun o => o - skip) offs) else nil);
          do b <- base_copy b (base_dup (l_io l)) dStart (dEnd - dStart)
                    (if isTable then 4 + size else 4) 0;
          refresh k (set_io sub (poke_head b (u32 cnt)))
      end.

(** list.go:1117-1121 [New] without options. *)
Definition new_list : lnode := init_list.
