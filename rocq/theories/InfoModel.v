(** Model of info/info.go: lengths and contents of a FlatBuffers buffer read
    with a tree of field descriptions.

    Simplified: descriptions are finite trees (in Go a description could
    contain itself), so the nested calls are bounded by fuel; log output is
    left out.  Go visits the map Nest in an unspecified order; the order is the
    parameter [ord], one per table, which theorems take to be any
    rearrangement. *)
From Coq Require Import ZArith List Bool.
From Coq Require Import Strings.Byte.
From Verif Require Import GoLib.
Import ListNotations.
Open Scope Z_scope.

(** info.go:52-61 [OptionType], [Option]; the key is not used. *)
Inductive option_t := OptT (size : Z) (is_vector : bool) (nest : list option_t).
Definition o_nest (o : option_t) : list option_t := match o with OptT _ _ n => n end.

(** info.go:23-31; [KScalar n] is FIELD_ONE, _TWO, _FOUR and _EIGHT *)
Inductive ftype := KScalar (n : nat) | KString | KNest | KVector.

(** info.go:63-82 [GetFieldType] *)
Definition field_type (o : option_t) : ftype :=
  match o with
  | OptT size v nest =>
      if size =? 1 then KScalar 1
      else if size =? 2 then KScalar 2
      else if size =? 4 then KScalar 4
      else if size =? 8 then KScalar 8
      else if v then KVector
      else match nest with [] => KString | _ => KNest end
  end.

(** info.go:33-50 [Fbs], the part FetchVtable fills *)
Record vinfo := mkV {
  v_top : Z; v_voff : Z; v_pos : Z; v_soff : Z; v_spos : Z; v_slen : Z;
  v_vlen : Z; v_tlen : Z; v_table : list Z }.

(** [Fbs]: what FetchVtable fills, Length, Table, Nest and Childs.  The maps
    are lists of their entries. *)
Inductive finfo :=
  FI (v : vinfo) (len : Z) (table : list Z) (nest : list (nat * Z)) (childs : list (nat * finfo)).
Definition i_v (i : finfo) := match i with FI v _ _ _ _ => v end.
Definition i_len (i : finfo) := match i with FI _ l _ _ _ => l end.
Definition i_table (i : finfo) := match i with FI _ _ t _ _ => t end.
Definition i_nest (i : finfo) := match i with FI _ _ _ n _ => n end.
Definition i_childs (i : finfo) := match i with FI _ _ _ _ c => c end.

(** GetX(buf[pos:]) *)
Definition get_at (n : nat) (buf : gslice) (pos : Z) : res Z :=
  do s <- gs_from buf pos; get_le n (sl_data s).

(** info.go:100-105 [MaxLen] *)
Definition max_len (x y : Z) : Z := if x <? y then y else x.

(** info.go:129-132: the entries from position [cur] to [hi] *)
Fixpoint vtable_loop (fuel : nat) (buf : gslice) (cur hi : Z) (acc : list Z) : res (list Z) :=
  match fuel with
  | O => OutOfFuel
  | S f =>
      if cur <? hi then
        do e <- get_at 2 buf cur;
        vtable_loop f buf (u32 (cur + 2)) hi (acc ++ [e])
      else Ok acc
  end.

(** info.go:107-135 [FetchVtable] on a fresh Fbs.  Every call in the package
    is on one whose VTable is empty. *)
Definition fetch_vtable (buf : gslice) (top : Z) : res vinfo :=
  do voff <- get_at 4 buf top;
  let vpos := u32 (top - voff) in
  do soff <- get_at 4 buf (u32 (top + 4));
  do ss <- (if soff <? gs_len buf
            then do slen <- get_at 4 buf soff; Ok (soff, u32 (u32 (top + 4) + soff), slen)
            else Ok (0, 0, 0));
  do vlen <- get_at 2 buf vpos;
  do tlen <- get_at 2 buf (u32 (vpos + 2));
  do t <- vtable_loop (S (Z.to_nat vlen)) buf (u32 (vpos + 4)) (u32 (vpos + vlen)) [];
  let '(so, sp, sl) := ss in
  Ok (mkV top voff vpos so sp sl vlen tlen t).

(** Nest[idx] = pos *)
Fixpoint set_nest (idx : nat) (pos : Z) (l : list (nat * Z)) : list (nat * Z) :=
  match l with
  | [] => [(idx, pos)]
  | (i, p) :: l' => if Nat.eqb i idx then (idx, pos) :: l' else (i, p) :: set_nest idx pos l'
  end.

(** State of the loop over the fields. *)
Definition fstate := (Z * list Z * list (nat * Z))%type.

(** info.go:144-190 [FetchTable] ([all] false) and 225-278 [FetchAll] ([all]
    true), one field.  A vtable entry of 0, an absent field, is not treated
    separately.  FetchAll passes slices of the buffer to Debugf, which are
    evaluated whether or not logging is on. *)
Definition fetch_field (all : bool) (buf : gslice) (top : Z) (opts : list option_t)
    (idx : nat) (entry : Z) (st : fstate) : res fstate :=
  let '(len, table, nest) := st in
  let pos := u32 (top + entry) in
  match nth_error opts idx with
  | None => Panic
  | Some o =>
      match field_type o with
      | KScalar n =>
          do v <- (if all then
                     do v <- get_at n buf pos;
                     do _ <- gs_range buf pos (u32 (pos + Z.of_nat n));
                     Ok [if Nat.eqb n 4 then to_signed 4 v mod 2 ^ 64 else v]
                   else Ok []);
          Ok (max_len len (u32 (pos + Z.of_nat n)), table ++ v, nest)
      | KVector =>
          do off <- get_at 4 buf pos;
          do cnt <- get_at 4 buf (u32 (pos + off));
          let start := u32 (u32 (pos + off) + 4) in
          let last := u32 (start + u32 (u32 (cnt - 1) * 4)) in
          (* FetchTable:166: buf[start : start+64] *)
          do _ <- (if all then Ok tt else do _ <- gs_range buf start (u32 (start + 64)); Ok tt);
          do rel <- get_at 4 buf last;
          Ok (len, table, set_nest idx (u32 (last + rel)) nest)
      | KNest =>
          do rel <- get_at 4 buf pos;
          Ok (len, table ++ (if all then [0] else []), set_nest idx (u32 (rel + pos)) nest)
      | KString =>
          do off <- get_at 4 buf pos;
          do cnt <- get_at 4 buf (u32 (pos + off));
          let start := u32 (u32 (pos + off) + 4) in
          do _ <- (if all then do _ <- gs_range buf start (u32 (start + cnt)); Ok tt else Ok tt);
          Ok (max_len len (u32 (start + cnt)), table ++ [cnt], nest)
      end
  end.

Fixpoint fetch_fields (all : bool) (buf : gslice) (top : Z) (opts : list option_t)
    (idx : nat) (entries : list Z) (st : fstate) : res fstate :=
  match entries with
  | [] => Ok st
  | e :: es =>
      do st' <- fetch_field all buf top opts idx e st;
      fetch_fields all buf top opts (S idx) es st'
  end.

(** info.go:192-205, 283-300: the nested tables, in the order given *)
Fixpoint fetch_nested (rec : nat -> Z -> Z -> res finfo) (l : list (nat * Z))
    (len : Z) (childs : list (nat * finfo)) : res (Z * list (nat * finfo)) :=
  match l with
  | [] => Ok (len, childs)
  | (i, pos) :: l' =>
      do c <- rec i pos len;
      fetch_nested rec l' (max_len len (i_len c)) (childs ++ [(i, c)])
  end.

(** The order in which the map of the table reached by a path of field indices
    is visited. *)
Definition order := list nat -> list (nat * Z) -> list (nat * Z).

(** FetchTable or FetchAll after FetchVtable, from given Length, Table and
    Nest. *)
Fixpoint fetch_body (fuel : nat) (all : bool) (ord : order) (path : list nat) (buf : gslice)
    (opts : list option_t) (v : vinfo) (st : fstate) : res finfo :=
  match fuel with
  | O => OutOfFuel
  | S f =>
      do st' <- fetch_fields all buf (v_top v) opts 0 (v_table v) st;
      let '(len, table, nest) := st' in
      (* FetchAll:280-281 *)
      do _ <- (if all then
                 do _ <- gs_range buf (v_pos v) (u32 (v_pos v + v_vlen v));
                 do _ <- gs_range buf (v_top v) (u32 (v_top v + v_tlen v));
                 Ok tt
               else Ok tt);
      do (len', childs) <-
        fetch_nested
          (fun i pos l =>
             match nth_error opts i with
             | None => Panic
             | Some o => do w <- fetch_vtable buf pos;
                         fetch_body f all ord (path ++ [i]) buf (o_nest o) w (l, [], [])
             end)
          (ord path nest) len [];
      Ok (FI v len' table nest childs)
  end.

(** info.go:88-98 [GetFbsInfo] *)
Definition get_info (fuel : nat) (ord : order) (buf : gslice) (top : Z) (opts : list option_t)
  : res finfo :=
  do v <- fetch_vtable buf top;
  fetch_body fuel false ord [] buf opts v (top, [], []).

(** info.go:84-86 [GetFbsRootInfo] *)
Definition get_root_info (fuel : nat) (ord : order) (buf : gslice) (opts : list option_t)
  : res finfo :=
  do top <- get_at 4 buf 0; get_info fuel ord buf top opts.

(** info.go:218-304 [FetchAll] on an Fbs filled before *)
Definition fetch_all (fuel : nat) (ord : order) (buf : gslice) (i : finfo) (opts : list option_t)
  : res finfo :=
  match i_table i with
  | [] => fetch_body fuel true ord [] buf opts (i_v i) (i_len i, i_table i, i_nest i)
  | _ => Ok i
  end.
