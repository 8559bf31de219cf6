(** Model of moving the offsets of a list one by one, which is done when the
    option [OptUseMovOff] is off (query/base/list.go:574-593, option.go:44-56). *)
From Coq Require Import ZArith List Bool.
From Coq Require Import Strings.Byte.
From Verif Require Import GoLib BaseModel TableModel ListModel AddModel.
Import ListNotations.
Open Scope Z_scope.

(** list.go:588-592: [off] is a [uint32] and wraps *)
Fixpoint move_slots (b : base) (pos d : Z) (is : list Z) : res base :=
  match is with
  | nil => Ok b
  | i :: is' =>
      do off <- rd 4 b (pos + i * 4);
      do b' <- base_u b (pos + i * 4) 4 (le_encode 4 (u32 (off + d)));
      move_slots b' pos d is'
  end.

(** list.go:583-593 [oldMovOffToTable] *)
Definition old_move (l : lnode) (d : Z) : res lnode :=
  do cnt <- list_vlen l;
  do b <- move_slots (l_io l) (l_pos l) d (zseq cnt);
  Ok (set_io l b).

(** list.go:574-581 [moveOffsetToTable] *)
Definition move_offset_to_table (use_new : bool) (l : lnode) (d : Z) : res lnode :=
  if use_new then move_offsets l d else old_move l d.
