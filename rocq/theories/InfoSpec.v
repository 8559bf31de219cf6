(** What C47 is about: the ends of the things reached from a table by a tree of
    field descriptions.  Positions are computed with [wrap]: the identity for
    exact positions, [u32] for positions as the code computes them. *)
From Coq Require Import ZArith List Bool Permutation.
From Coq Require Import Strings.Byte.
From Verif Require Import GoLib InfoModel.
Import ListNotations.
Open Scope Z_scope.

(** The [n] bytes at position [p] are those of the number [v]. *)
Definition word (n : nat) (l : list byte) (p v : Z) : Prop :=
  0 <= p /\ p + Z.of_nat n <= zlen l /\ v = le_decode (firstn n (zskip p l)).

(** Kinds of fields. *)
Definition scalar_field (o : option_t) (n : Z) : Prop :=
  exists v ns, o = OptT n v ns /\ In n [1; 2; 4; 8].
Definition vector_field (o : option_t) : Prop :=
  exists n ns, o = OptT n true ns /\ ~ In n [1; 2; 4; 8].
Definition table_field (o : option_t) : Prop :=
  exists n ns, o = OptT n false ns /\ ~ In n [1; 2; 4; 8] /\ ns <> [].
Definition string_field (o : option_t) : Prop :=
  exists n, o = OptT n false [] /\ ~ In n [1; 2; 4; 8].

Section Positions.
Context (wrap : Z -> Z) (l : list byte).

(** Entry [i] of the vtable of the table at [top]. *)
Definition has_entry (top : Z) (i : nat) (entry : Z) : Prop :=
  exists voff vpos vlen tlen, word 4 l top voff /\ vpos = wrap (top - to_signed 4 voff) /\
    word 2 l vpos vlen /\ word 2 l (vpos + 2) tlen /\
    vpos + 4 + 2 * Z.of_nat i < wrap (vpos + vlen) /\ word 2 l (vpos + 4 + 2 * Z.of_nat i) entry.

(** The table at [top] has, for field [i], the description [o] and a value at
    [pos].  Like the code this takes absent fields (entry 0) to be present. *)
Definition has_field (opts : list option_t) (top : Z) (i : nat) (o : option_t) (pos : Z) : Prop :=
  exists entry, has_entry top i entry /\ nth_error opts i = Some o /\ pos = wrap (top + entry).

(** The table field [i] refers to: the table itself or the last element of a
    vector of tables. *)
Inductive refers (o : option_t) (pos : Z) : Z -> Prop :=
| r_table rel : table_field o -> word 4 l pos rel -> refers o pos (wrap (pos + rel))
| r_last off cnt rel : vector_field o -> word 4 l pos off -> word 4 l (wrap (pos + off)) cnt ->
    word 4 l (wrap (pos + off + 4 * cnt)) rel ->
    refers o pos (wrap (wrap (pos + off + 4 * cnt) + rel)).

(** [visits opts top e]: a scalar or string reached from the table at [top]
    ends at [e]. *)
Inductive visits : list option_t -> Z -> Z -> Prop :=
| v_scalar opts top i o pos n : has_field opts top i o pos -> scalar_field o n ->
    visits opts top (wrap (pos + n))
| v_string opts top i o pos off cnt : has_field opts top i o pos -> string_field o ->
    word 4 l pos off -> word 4 l (wrap (pos + off)) cnt ->
    visits opts top (wrap (pos + off + 4 + cnt))
| v_under opts top i o pos t e : has_field opts top i o pos -> refers o pos t ->
    visits (o_nest o) t e -> visits opts top e.
End Positions.

(** The exact relation. *)
Definition reaches := visits (fun z => z).

(** An iteration order visits every entry of the map once. *)
Definition rearranges (ord : order) : Prop := forall path l, Permutation (ord path l) l.

(** Depth of a tree of descriptions. *)
Fixpoint height (o : option_t) : nat :=
  match o with OptT _ _ ns => S (list_max (map height ns)) end.
Definition depth (opts : list option_t) : nat := S (list_max (map height opts)).
