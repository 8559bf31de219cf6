(** Model of [SwapAt], [SortBy] and [IsSorted] on a vector inside a root buffer
    (query/base/list.go:940-1035), for [BaseImpl] buffers.  The node [c] is the
    vector; it does not change.  ListModel.v has the same functions for a list in
    a buffer of its own. *)
From Coq Require Import ZArith List Bool String.
From Verif Require Import GoLib BaseModel TableModel NameModel StreamModel WalkModel.
From Verif Require ListModel.
Import ListNotations.
Open Scope list_scope.
Open Scope Z_scope.

Section Sort.
Variable n : names.

(** list.go:957-1002 [SwapAt]; the flag is false if an error was returned.  On
    inline elements (list.go:915-955 for their size) the two slices returned by
    [U] are fresh, so what is copied between them are their zero bytes. *)
Definition swap_elem (b : base) (c : cnode) (i j : Z) : res (base * bool) :=
  do l <- is_list_name (c_name c) (v_len (c_info c));
  if negb l then Ok (b, false)
  else
    do k <- vec_len b c;
    if (k <=? i) || (k <=? j) then Ok (b, false)
    else if i =? j then Ok (b, true)
    else
      do t <- str_from2 (c_name c);
      do g <- get_type_group n t;
      if is_field_basic g || is_field_struct g
      then
        do size <- inline_elem_size n (new_node n None no_vinfo t);
        do b1 <- base_flatten b;
        do b2 <- base_u b1 (v_pos (c_info c) + i * size) size (zeros size);
        do b3 <- base_u b2 (v_pos (c_info c) + j * size) size (zeros size);
        Ok (b3, true)
      else
        let iPtr := v_pos (c_info c) + i * 4 in
        let jPtr := v_pos (c_info c) + j * 4 in
        do iOff <- rd 4 b iPtr;
        do jOff <- rd 4 b jPtr;
        let iOff := iOff - (jPtr - iPtr) in
        let jOff := jOff - (iPtr - jPtr) in
        do b1 <- base_u b iPtr 4 (le_encode 4 (u32 jOff));
        do b2 <- base_u b1 jPtr 4 (le_encode 4 (u32 iOff));
        Ok (b2, true).

(** list.go:1004-1020 [SortBy]: [sort.Sort] with [SwapAt]; the comparison given
    to it looks at the buffer. *)
Fixpoint sort_with (less : base -> Z -> Z -> res bool) (b : base) (c : cnode) (s : ListModel.strategy) : res base :=
  match s with
  | ListModel.Done => Ok b
  | ListModel.Less i j k => do r <- less b i j; sort_with less b c (k r)
  | ListModel.Swap i j k => do (b', _) <- swap_elem b c i j; sort_with less b' c k
  end.

Definition sort_elems (less : base -> Z -> Z -> res bool) (b : base) (c : cnode) (s : ListModel.strategy) : res (base * bool) :=
  do l <- is_list_name (c_name c) (v_len (c_info c));
  if negb l then Ok (b, false) else do b' <- sort_with less b c s; Ok (b', true).

(** [sort.IsSorted] (sort.go): from the last pair to the first *)
Fixpoint pairs_sorted (less : base -> Z -> Z -> res bool) (b : base) (i : nat) : res bool :=
  match i with
  | O => Ok true
  | S i' => do r <- less b (Z.of_nat i) (Z.of_nat i'); if (r : bool) then Ok false else pairs_sorted less b i'
  end.

(** list.go:1022-1035 [IsSorted] *)
Definition is_sorted (less : base -> Z -> Z -> res bool) (b : base) (c : cnode) : res bool :=
  do l <- is_list_name (c_name c) (v_len (c_info c));
  if negb l then Ok false
  else do k <- vec_len b c; pairs_sorted less b (Z.to_nat (k - 1)).

End Sort.
