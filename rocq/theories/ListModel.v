(** Model of vectors (query/base/list.go) on a buffer in memory.

    The element type named by [node.Name[2:]] is modelled by [ekind]; vectors
    of strings, unions and vectors are not modelled.  Logging and dump calls are
    omitted.  [None] in results of access functions is a returned error. *)
From Coq Require Import ZArith List Bool.
From Coq Require Import Strings.Byte.
From Verif Require Import GoLib BaseModel TableModel.
Import ListNotations.
Open Scope Z_scope.

Inductive ekind := EBasic (size : Z) | EStruct (size : Z) | ETable (fields : list fkind).

(** Size of an element stored inline ([Info().Size] of the first element,
    common.go:41-53), [None] for elements stored as offsets. *)
Definition fixed_size (k : ekind) : option Z :=
  match k with EBasic n => Some n | EStruct n => Some n | ETable _ => None end.

(** A list node: buffer, [Node.Pos] and the cached
    [NodeList.ValueInfo] (Pos, VLen, Size). *)
Record lnode := mkL { l_io : base; l_npos : Z; l_pos : Z; l_vlen : Z; l_size : Z }.

Definition set_io (l : lnode) (b : base) : lnode :=
  mkL b (l_npos l) (l_pos l) (l_vlen l) (l_size l).
Definition set_info (l : lnode) (i : Z * Z * Z) : lnode :=
  let '(p, n, s) := i in mkL (l_io l) (l_npos l) p n s.

(** list.go:390-392 [VLen]; also [Count] (1065-1069) and [Len] (1004). *)
Definition list_vlen (l : lnode) : res Z := rd 4 (l_io l) (l_pos l - 4).

(** list.go:280-339 [At]: the position of the element's node.  The size of an
    inline element comes from [First().Info()], which only depends on the
    type. *)
Definition list_at (k : ekind) (l : lnode) (i : Z) : res (option Z) :=
  do n <- list_vlen l;
  if (n <=? i) || (i <? 0) then Ok None
  else
    match fixed_size k with
    | Some size => Ok (Some (l_pos l + (if 0 <? i then i * size else i * 4)))
    | None =>
        let ptr := l_pos l + i * 4 in
        do off <- rd 4 (l_io l) ptr;
        do s <- base_r (l_io l) (ptr + off) 4;
        match s with
        | None => Ok None
        | Some _ =>
            do _ <- preload_vtable (l_io l) (ptr + off);
            Ok (Some (ptr + off))
        end
    end.

(** list.go:342-344 [First], 347-352 [Last] *)
Definition list_first (k : ekind) (l : lnode) : res (option Z) := list_at k l 0.
Definition list_last (k : ekind) (l : lnode) : res (option Z) :=
  do n <- list_vlen l; list_at k l (n - 1).

(** The indexes [0 .. n-1]. *)
Definition zseq (n : Z) : list Z := map Z.of_nat (seq 0 (Z.to_nat n)).

(** list.go:355-368 [Select]; the predicate looks at the element's node, given
    by its position. *)
Fixpoint select_loop (k : ekind) (l : lnode) (f : Z -> bool) (is : list Z) : res (list Z) :=
  match is with
  | nil => Ok nil
  | i :: is' =>
      do m <- list_at k l i;
      do rest <- select_loop k l f is';
      match m with
      | Some p => Ok (if f p then p :: rest else rest)
      | None => Ok rest
      end
  end.

Definition list_select (k : ekind) (l : lnode) (f : Z -> bool) : res (list Z) :=
  do _ <- list_vlen l;
  select_loop k l f (zseq (l_vlen l)).

(** list.go:371-380 [Find]; [None] is nil. *)
Fixpoint find_loop (k : ekind) (l : lnode) (f : Z -> bool) (is : list Z) : res (option Z) :=
  match is with
  | nil => Ok None
  | i :: is' =>
      do m <- list_at k l i;
      match m with
      | Some p => if f p then Ok (Some p) else find_loop k l f is'
      | None => find_loop k l f is'
      end
  end.

Definition list_find (k : ekind) (l : lnode) (f : Z -> bool) : res (option Z) :=
  find_loop k l f (zseq (l_vlen l)).

(** list.go:383-385 [All] *)
Definition list_all (k : ekind) (l : lnode) : res (list Z) :=
  list_select k l (fun _ => true).

(** common.go:28-60 [Info] of an element, its size.  A table is the maximum over
    the [ValueInfo] of its fields (common.go:63-130): a scalar field has
    Pos = VirtualTable(i) and the size of its type even when it is absent; an
    absent struct field has size 0 ([Info] on an empty node).  Tables with
    fields stored by reference are not modelled here: [None]. *)
Fixpoint table_info (b : base) (pos : Z) (ks : list fkind) (i size : Z) : res (option Z) :=
  match ks with
  | nil => Ok (Some size)
  | k :: ks' =>
      do p <- virtual_table b pos i;
      match k with
      | KRef => Ok None
      | KBasic n => table_info b pos ks' (i + 1) (Z.max size (p + n - pos))
      | KStruct n =>
          let n := if p =? pos then 0 else n in
          table_info b pos ks' (i + 1) (Z.max size (p + n - pos))
      end
  end.

Definition elem_info (k : ekind) (b : base) (pos : Z) : res (option Z) :=
  match k with
  | EBasic n | EStruct n => Ok (Some n)
  | ETable ks => table_info b pos ks 0 (-1)
  end.

(** list.go:1233-1264 [indexOnMaxPos(true)]: the index, -1 when the list is
    empty. *)
Fixpoint max_pos_loop (k : ekind) (b : base) (ps : list Z) (i best pos : Z) : res (option Z) :=
  match ps with
  | nil => Ok (Some best)
  | p :: ps' =>
      do s <- elem_info k b p;
      match s with
      | None => Ok None
      | Some s =>
          if (i =? 0) || (pos <? p + s)
          then max_pos_loop k b ps' (i + 1) i (p + s)
          else max_pos_loop k b ps' (i + 1) best pos
      end
  end.

Definition index_on_max_pos (k : ekind) (l : lnode) : res (option Z) :=
  do ps <- list_all k l; max_pos_loop k (l_io l) ps 0 (-1) 0.

(** list.go:395-437 [InfoSlice]: Pos, VLen and Size; [None] when the element
    type is not modelled.  The second element looked up (418-427) only feeds a
    warning; its reads are kept because they can panic. *)
Definition info_slice (k : ekind) (l : lnode) : res (option (Z * Z * Z)) :=
  do v <- match k with
          | EBasic n => Ok (Some (l_pos l, l_vlen l * n))
          | _ =>
              do e <- list_last k l;
              do v <- match e with
                      | Some p => do s <- elem_info k (l_io l) p;
                                  Ok (option_map (fun s => (p, s)) s)
                      | None => Ok (Some (0, 0))
                      end;
              do m <- index_on_max_pos k l;
              match m with
              | None => Ok None
              | Some i =>
                  do e2 <- list_at k l i;
                  do _ <- match e2 with
                          | Some p => elem_info k (l_io l) p
                          | None => Ok None
                          end;
                  Ok v
              end
          end;
  match v with
  | None => Ok None
  | Some (vp, vs) =>
      do n <- list_vlen l;
      let size := if n =? 0 then 0 else -1 in
      let size := if l_pos l + size <? vp + vs then vp + vs - l_pos l else size in
      Ok (Some (l_pos l, n, size))
  end.

(** list.go:519-529 [vlenTotal]: the node with refreshed cache. *)
Definition vlen_total (k : ekind) (l : lnode) : res (option lnode) :=
  do l <- (if (l_pos l =? 0) || (l_vlen l =? 0) || (l_size l =? 0)
           then do i <- info_slice k l; Ok (option_map (set_info l) i)
           else Ok (Some l));
  match l with
  | None => Ok None
  | Some l => Ok (Some (if l_vlen l =? 0 then mkL (l_io l) (l_npos l) (l_pos l) 0 0 else l))
  end.

(** Results of changing calls: new node, returned error, or a case that is not
    modelled. *)
Inductive list_res := LOk (l : lnode) | LErr | LUnmodelled.

Definition refresh (k : ekind) (l : lnode) : res list_res :=
  do i <- info_slice k l;
  match i with
  | None => Ok LUnmodelled
  | Some i => Ok (LOk (set_info l i))
  end.

(** list.go:761-791 [setStructAt] with an element of [size] bytes at [srcPos] of
    another buffer. *)
Definition set_struct_at (k : ekind) (l : lnode) (idx : Z) (src : base) (srcPos size : Z)
  : res list_res :=
  if l_vlen l <? idx then Ok LErr
  else
    do l <- vlen_total k l;
    match l with
    | None => Ok LUnmodelled
    | Some l =>
        let ptr := l_pos l + idx * size in
        let extend := if l_vlen l =? idx then size else 0 in
        do b <- base_copy (l_io l) src srcPos size ptr extend;
        do b <- (if l_vlen l =? idx
                 then base_u b (l_pos l - 4) 4 (le_encode 4 (u32 (l_vlen l + 1)))
                 else Ok b);
        refresh k (set_io l b)
    end.

(** common.go:872-938 [InsertSpace] on a list node outside a root buffer
    ([None] inside one). *)
Definition list_insert_space (l : lnode) (pos size : Z) (create : bool) : res (option lnode) :=
  do nb <- insert_space (l_io l) pos size create;
  do r <- in_root (l_io l) (l_npos l);
  if r then Ok None
  else Ok (Some (mkL nb (l_npos l)
                  (if pos <? l_pos l then l_pos l + size else l_pos l)
                  (l_vlen l) (l_size l))).

(** list.go:557-564, the loop of [updateOffsetToTable]: adds [d] to the offsets
    in the given slots.  Also the loop at 843-847. *)
Fixpoint bump_offsets (b : base) (pos d : Z) (is : list Z) : res base :=
  match is with
  | nil => Ok b
  | i :: is' =>
      do off <- rd 4 b (pos + i * 4);
      do b <- base_u b (pos + i * 4) 4 (le_encode 4 (u32 (off + d)));
      bump_offsets b pos d is'
  end.

(** list.go:552-571 [updateOffsetToTable]: new buffer and position for the new
    data. *)
Definition update_offsets (l : lnode) (lastIdx vlen total hext vSize : Z) : res (base * Z) :=
  do b <- bump_offsets (l_io l) (l_pos l) 4 (zseq vlen);
  let toData := l_pos l + total + hext in
  do b <- base_u b (l_pos l + lastIdx * 4) 4
            (le_encode 4 (u32 (toData + vSize - (l_pos l + lastIdx * 4))));
  Ok (b, toData).

(** list.go:793-883 [setTableAt] with a table at [srcPos] of another buffer;
    [esize] is its [Node.Size] when positive, else its [Info] is taken. *)
Definition set_table_at (ks : list fkind) (l : lnode) (idx : Z) (src : base) (srcPos esize : Z)
  : res list_res :=
  let k := ETable ks in
  if l_vlen l <? idx then Ok LErr
  else
    do l <- vlen_total k l;
    match l with
    | None => Ok LUnmodelled
    | Some l =>
        let vSize := zlen ks * 2 + 4 in
        do old <- (if idx <? l_vlen l
                   then do p <- list_at k l idx;
                        match p with
                        | Some p => do s <- elem_info k (l_io l) p;
                                    Ok (option_map (fun s => (p, s)) s)
                        | None => Panic
                        end
                   else Ok (Some (0, 0)));
        do es <- (if esize <=? 0 then elem_info k src srcPos else Ok (Some esize));
        match old, es with
        | Some (oPos, oSize), Some es =>
            let ptr := l_pos l + idx * 4 in
            let append := l_vlen l =? idx in
            let body := Z.max 0 (if append then es + vSize else es - oSize) in
            let vlen := if append then l_vlen l + 1 else l_vlen l in
            do st <- (if append
                      then do l' <- list_insert_space l ptr 4 true;
                           match l' with
                           | None => Ok None
                           | Some l' =>
                               do (b, toData) <- update_offsets l' idx (l_vlen l) (l_size l) 4 vSize;
                               Ok (Some (set_io l' b, toData))
                           end
                      else Ok (Some (l, oPos - vSize)));
            match st with
            | None => Ok LUnmodelled
            | Some (l, toData) =>
                do l <- (if 0 <? body
                         then do l' <- list_insert_space l toData body false;
                              match l' with
                              | None => Ok None
                              | Some l' =>
                                  if append then Ok (Some l')
                                  else do b <- bump_offsets (l_io l') (l_pos l') body
                                                 (map (fun i => idx + 1 + i) (zseq (vlen - idx - 1)));
                                       Ok (Some (set_io l' b))
                              end
                         else Ok (Some l));
                match l with
                | None => Ok LUnmodelled
                | Some l =>
                    do b <- base_u (l_io l) (l_pos l - 4) 4 (le_encode 4 (u32 vlen));
                    do b <- base_copy b src (srcPos - vSize) (es + vSize) toData 0;
                    refresh k (set_io l b)
                end
            end
        | _, _ => Ok LUnmodelled
        end
    end.

(** list.go:886-904 [SetAt]; the group of the element's own type decides. *)
Definition set_at (k : ekind) (l : lnode) (idx : Z) (src : base) (srcPos esize : Z)
  : res list_res :=
  match k with
  | EBasic n | EStruct n =>
      set_struct_at k l idx src srcPos (if esize <=? 0 then n else esize)
  | ETable ks => set_table_at ks l idx src srcPos esize
  end.

(** list.go:908-914 [InitList] *)
Definition init_list : lnode := mkL (new_base (gs_of (zeros 4))) 4 4 0 0.

(** list.go:957-1002 [SwapAt]; the flag is whether an error was returned.  On
    inline elements the two slices returned by [U] are fresh, so what is copied
    between them are their zero bytes. *)
Definition swap_at (k : ekind) (l : lnode) (i j : Z) : res (lnode * bool) :=
  do n <- list_vlen l;
  if (n <=? i) || (n <=? j) then Ok (l, false)
  else if i =? j then Ok (l, true)
  else
    match fixed_size k with
    | Some size =>
        do b <- base_flatten (l_io l);
        let iPtr := l_pos l + i * size in
        let jPtr := l_pos l + j * size in
        let fresh := zeros size in
        let tmp := fresh in
        do b <- base_u b iPtr size fresh;
        do b <- base_u b jPtr size tmp;
        Ok (set_io l b, true)
    | None =>
        let iPtr := l_pos l + i * 4 in
        let jPtr := l_pos l + j * 4 in
        do iOff <- rd 4 (l_io l) iPtr;
        do jOff <- rd 4 (l_io l) jPtr;
        let iOff := iOff - (jPtr - iPtr) in
        let jOff := jOff - (iPtr - jPtr) in
        do b <- base_u (l_io l) iPtr 4 (le_encode 4 (u32 jOff));
        do b <- base_u b jPtr 4 (le_encode 4 (u32 iOff));
        Ok (set_io l b, true)
    end.

(** list.go:1009-1020 [SortBy] calls [sort.Sort], which only uses [Len], [Less]
    and [Swap].  An algorithm of that kind is a strategy: it asks for
    comparisons and swaps positions. *)
Inductive strategy :=
| Done
| Less (i j : Z) (k : bool -> strategy)
| Swap (i j : Z) (k : strategy).

(** Running a strategy on a list; the comparison function given to [SortBy]
    looks at the list through [less]. *)
Fixpoint run_sort (k : ekind) (less : lnode -> Z -> Z -> res bool) (l : lnode) (s : strategy)
  : res lnode :=
  match s with
  | Done => Ok l
  | Less i j c => do r <- less l i j; run_sort k less l (c r)
  | Swap i j c => do (l', _) <- swap_at k l i j; run_sort k less l' c
  end.

(** The insertion sort that [sort.Sort] uses for short lists (sort.go,
    [insertionSort(data, 0, n)]): element [i] is moved down while it is smaller
    than its predecessor. *)
Fixpoint sift (j : nat) (k : strategy) : strategy :=
  match j with
  | O => k
  | S j' => Less (Z.of_nat j) (Z.of_nat j')
              (fun r => if r then Swap (Z.of_nat j) (Z.of_nat j') (sift j' k) else k)
  end.

Fixpoint insertion_from (fuel i : nat) : strategy :=
  match fuel with
  | O => Done
  | S f => sift i (insertion_from f (S i))
  end.

(** for i := 1; i < n; i++ *)
Definition insertion_sort (n : Z) : strategy :=
  insertion_from (Z.to_nat n - 1) 1.

(** list.go:1038-1051 [SearchIndex]; the result also records the positions the
    predicate was called on.  [fuel] bounds the iterations. *)
Fixpoint search_loop (fuel : nat) (k : ekind) (l : lnode) (f : Z -> bool) (i j : Z)
    (asked : list Z) : res (Z * list Z) :=
  if i <? j then
    match fuel with
    | O => OutOfFuel
    | S fu =>
        let h := (i + j) / 2 in
        do m <- list_at k l h;
        match m with
        | Some p => if f p then search_loop fu k l f i h (h :: asked)
                    else search_loop fu k l f (h + 1) j (h :: asked)
        | None => search_loop fu k l f i h asked
        end
    end
  else Ok (i, asked).

Definition search_index (k : ekind) (l : lnode) (n : Z) (f : Z -> bool) : res (Z * list Z) :=
  search_loop (Z.to_nat n) k l f 0 n nil.

(** list.go:1072-1087 [FromByteList] *)
Definition from_byte_list (bs : list byte) : lnode :=
  mkL (new_base (gs_of (le_encode 4 (u32 (zlen bs)) ++ bs))) 4 4 (u32 (zlen bs)) (zlen bs).
