(** What joining vectors and taking a part of one should give, stated on element
    lists. *)
From Coq Require Import ZArith List Bool.
From Coq Require Import Strings.Byte.
From Verif Require Import GoLib BaseModel BaseSpec TableModel TableSpec ListModel ListSpec AddModel.
Import ListNotations.
Open Scope Z_scope.

(** [i] is the first index at which [f] is smallest (largest) among [es]. *)
Definition first_least {A} (f : A -> Z) (es : list A) (i : Z) : Prop :=
  exists e, zget es i = Some e /\
    (forall j x, zget es j = Some x -> f e <= f x) /\
    (forall j x, zget es j = Some x -> j < i -> f e < f x).
Definition first_greatest {A} (f : A -> Z) (es : list A) (i : Z) : Prop :=
  first_least (fun x => - f x) es i.

(** The elements with indexes from [i] to [j]. *)
Definition part {A} (es : list A) (i j : Z) : list A := zfirst (j - i + 1) (zskip i es).

(** Every cell from the vtable to the end of the table is there. *)
Definition gapless (ks : list fkind) (src : base) (sp s : Z) : Prop :=
  forall j, sp - vtable_size ks <= j < sp + s -> readable src j.

(** Vectors of tables put together by the calls for it: every element is a table
    of some buffer, given with its position and size. *)
Inductive built (ks : list fkind) : lnode -> list (base * Z * Z) -> Prop :=
| B_new : built ks new_list nil
| B_append : forall l es src sp s l', built ks l es -> self_contained ks src sp s -> gapless ks src sp s ->
    appended_size ks (es ++ [(src, sp, s)]) < 2 ^ 32 - 4 ->
    set_at (ETable ks) l (zlen es) src sp (-1) = Ok (LOk l') -> built ks l' (es ++ [(src, sp, s)])
| B_add : forall l es a fs l' a', built ks l es -> built ks a fs ->
    appended_size ks (es ++ fs) < 2 ^ 32 - 4 ->
    list_add (ETable ks) false l a = Ok (AOk l' a') -> built ks l' (es ++ fs)
| B_part : forall l es i j l', built ks l es -> 0 <= i <= j -> j < zlen es ->
    new_range (ETable ks) l i j = Ok (LOk l') -> built ks l' (part es i j).

(** A list node shows the tables [es], each as it is in its own buffer. *)
Definition shows_tables (ks : list fkind) (l : lnode) (es : list (base * Z * Z)) : Prop :=
  list_vlen l = Ok (zlen es) /\
  forall i src sp s, zget es i = Some (src, sp, s) ->
    exists t, list_at (ETable ks) l i = Ok (Some t) /\
      same_reads src sp (l_io l) t (- vtable_size ks) s /\
      forall j, 0 <= j < zlen ks -> exists e,
        virtual_table src sp j = Ok (sp + e) /\ virtual_table (l_io l) t j = Ok (t + e).

(** Vectors of elements of [size] bytes stored inline, put together by [SetAt]
    and [Add]. *)
Inductive built_fixed (k : ekind) (size : Z) : lnode -> list (list byte) -> Prop :=
| F_new : built_fixed k size new_list nil
| F_set : forall l vals i src sp p l', built_fixed k size l vals -> 0 <= i <= zlen vals ->
    delivers src sp p -> zlen p = size -> zlen vals < 2 ^ 32 - 1 ->
    set_at k l i src sp (-1) = Ok (LOk l') -> built_fixed k size l' (store vals i p)
| F_add : forall l vals a ws l' a', built_fixed k size l vals -> built_fixed k size a ws ->
    zlen vals + zlen ws < 2 ^ 32 ->
    list_add k false l a = Ok (AOk l' a') -> built_fixed k size l' (vals ++ ws).

(** A table made by [Init] and the assignments [h]; every scalar field wider
    than four bytes is among them. *)
Definition made_by (ks : list fkind) (h : list (assign * list byte)) (e : base * Z * Z) : Prop :=
  let '(src, sp, s) := e in
  h <> nil /\ Forall (fun ap => assign_ok ks (fst ap) (snd ap)) h /\
  (forall f n, zget ks f = Some (KBasic n) -> n <= 4 \/ final_map h f <> None) /\
  (exists b0, init_table ks = Ok (b0, 4 + 2 * zlen ks) /\
     run_assigns ks (mkT b0 (4 + 2 * zlen ks)) (map fst h) = Ok (Some (mkT src sp))) /\
  elem_info (ETable ks) src sp = Ok (Some s).

(** A vector of tables in a buffer without journal, in any order behind the
    slots: element number [x] is at [p] and has size [s] when [es] lists
    [(p, s)] there. *)
Definition lies_flat (ks : list fkind) (l : lnode) (es : list (Z * Z)) : Prop :=
  flat (l_io l) /\ 4 <= l_pos l /\ list_vlen l = Ok (zlen es) /\
  gs_len (b_bytes (l_io l)) < 2 ^ 32 - 4 /\
  forall x p s, zget es x = Some (p, s) ->
    rd 4 (l_io l) (l_pos l + x * 4) = Ok (p - (l_pos l + x * 4)) /\
    self_contained ks (l_io l) p s /\
    l_pos l + 4 * zlen es <= p - vtable_size ks /\ p + s <= gs_len (b_bytes (l_io l)).
