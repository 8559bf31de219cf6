(** Concrete vectors on which joining and taking a part go wrong. *)
From Coq Require Import ZArith List Bool Lia.
From Coq Require Import Strings.Byte.
From Verif Require Import GoLib BaseModel TableModel TableSpec ListModel ListSpec AddModel AddSpec.
Import ListNotations.
Open Scope Z_scope.

(** A table of the type [ks] with only its first field set, to [v] and zeros;
    [n] is the width of that field. *)
Definition sample (ks : list fkind) (n : Z) (v : byte) : res (base * Z * Z) :=
  do bp <- init_table ks;
  do t <- run_assigns ks (mkT (fst bp) (snd bp)) [(0, new_base (gs_of (v :: zeros (n - 1))), 0)];
  match t with
  | None => Panic
  | Some t =>
      do s <- elem_info (ETable ks) (t_io t) (t_pos t);
      match s with Some s => Ok (t_io t, t_pos t, s) | None => Panic end
  end.

Fixpoint samples (ks : list fkind) (n : Z) (vs : list byte) : res (list (base * Z * Z)) :=
  match vs with
  | nil => Ok nil
  | v :: vs' => do e <- sample ks n v; do es <- samples ks n vs'; Ok (e :: es)
  end.

(** The samples appended to an empty list. *)
Definition sample_list (ks : list fkind) (n : Z) (vs : list byte) : res list_res :=
  do es <- samples ks n vs; run_sets (ETable ks) init_list (append_ops 0 es).

(** First field of element [i]; [Ok None] when the element is not there. *)
Definition first_of (ks : list fkind) (n : Z) (l : lnode) (i : Z) : res (option (list byte)) :=
  do e <- list_at (ETable ks) l i;
  match e with
  | None => Ok None
  | Some p => read_field (mkT (l_io l) p) 0 n
  end.

Definition slim : list fkind := [KBasic 4; KBasic 1].
Definition wide : list fkind := [KBasic 1; KBasic 8].

Definition bytes_of (r : res (option (list byte))) : option (list byte) :=
  match r with Ok o => o | _ => None end.

(** Elements of [A], then of [B], then of [B] again. *)
Lemma add_twice : exists a b b1 b2 l1 l2,
  sample_list slim 4 [x01; x02] = Ok (LOk a) /\ sample_list slim 4 [x03; x04; x05] = Ok (LOk b) /\
  list_add (ETable slim) false a b = Ok (AOk l1 b1) /\
  list_add (ETable slim) false l1 b1 = Ok (AOk l2 b2) /\
  list_vlen l2 = Ok 8 /\
  first_of slim 4 b 0 = Ok (Some [x03; x00; x00; x00]) /\
  bytes_of (first_of slim 4 l2 5) <> Some [x03; x00; x00; x00].
Proof.
  match eval vm_compute in (sample_list slim 4 [x01; x02]) with Ok (LOk ?v) => exists v end.
  match eval vm_compute in (sample_list slim 4 [x03; x04; x05]) with Ok (LOk ?v) => exists v end.
  match goal with |- exists b1 b2 l1 l2, _ /\ _ = Ok (LOk ?b) /\ list_add _ _ ?a _ = _ /\ _ =>
    match eval vm_compute in (list_add (ETable slim) false a b) with Ok (AOk ?l ?c) =>
      exists c;
      match eval vm_compute in (list_add (ETable slim) false l c) with Ok (AOk ?l2 ?d) => exists d, l, l2 end end end.
  split; [vm_compute; reflexivity|]. split; [vm_compute; reflexivity|]. split; [vm_compute; reflexivity|].
  split; [vm_compute; reflexivity|]. split; [vm_compute; reflexivity|]. split; [vm_compute; reflexivity|].
  vm_compute. discriminate.
Qed.

(** A list added to itself. *)
Lemma add_self : exists a l,
  sample_list slim 4 [x01; x02] = Ok (LOk a) /\
  list_add (ETable slim) true a a = Ok (AOk l l) /\ list_vlen l = Ok 4 /\
  first_of slim 4 a 0 = Ok (Some [x01; x00; x00; x00]) /\
  bytes_of (first_of slim 4 l 2) <> Some [x01; x00; x00; x00].
Proof.
  match eval vm_compute in (sample_list slim 4 [x01; x02]) with Ok (LOk ?v) => exists v;
    match eval vm_compute in (list_add (ETable slim) true v v) with Ok (AOk ?l _) => exists l end end.
  split; [vm_compute; reflexivity|]. split; [vm_compute; reflexivity|]. split; [vm_compute; reflexivity|].
  split; [vm_compute; reflexivity|]. vm_compute. discriminate.
Qed.

(** An absent scalar field wider than the table leaves a gap, and what is behind
    it is lost. *)
Lemma add_gap : exists a b b' l,
  sample_list wide 1 [x01; x02] = Ok (LOk a) /\ sample_list wide 1 [x03; x04; x05] = Ok (LOk b) /\
  list_add (ETable wide) false a b = Ok (AOk l b') /\ list_vlen l = Ok 5 /\
  first_of wide 1 b 1 = Ok (Some [x04]) /\ bytes_of (first_of wide 1 l 3) <> Some [x04].
Proof.
  match eval vm_compute in (sample_list wide 1 [x01; x02]) with Ok (LOk ?v) => exists v;
    match eval vm_compute in (sample_list wide 1 [x03; x04; x05]) with Ok (LOk ?w) => exists w;
    match eval vm_compute in (list_add (ETable wide) false v w) with Ok (AOk ?l ?c) => exists c, l end end end.
  split; [vm_compute; reflexivity|]. split; [vm_compute; reflexivity|]. split; [vm_compute; reflexivity|].
  split; [vm_compute; reflexivity|]. split; [vm_compute; reflexivity|]. vm_compute. discriminate.
Qed.

Lemma part_gap : exists b l,
  sample_list wide 1 [x03; x04; x05] = Ok (LOk b) /\
  new_range (ETable wide) b 0 1 = Ok (LOk l) /\ list_vlen l = Ok 2 /\
  first_of wide 1 b 1 = Ok (Some [x04]) /\ bytes_of (first_of wide 1 l 1) <> Some [x04].
Proof.
  match eval vm_compute in (sample_list wide 1 [x03; x04; x05]) with Ok (LOk ?w) => exists w;
    match eval vm_compute in (new_range (ETable wide) w 0 1) with Ok (LOk ?l) => exists l end end.
  split; [vm_compute; reflexivity|]. split; [vm_compute; reflexivity|]. split; [vm_compute; reflexivity|].
  split; [vm_compute; reflexivity|]. vm_compute. discriminate.
Qed.

(** A part that ends behind the last element, and a part of a byte vector. *)
Lemma part_beyond : exists b,
  sample_list slim 4 [x03; x04; x05] = Ok (LOk b) /\ new_range (ETable slim) b 1 5 = Panic.
Proof.
  match eval vm_compute in (sample_list slim 4 [x03; x04; x05]) with Ok (LOk ?w) => exists w end.
  split; [vm_compute; reflexivity|vm_compute; reflexivity].
Qed.

Lemma part_bytes : new_range (EBasic 1) (from_byte_list [x01; x02; x03; x04; x05]) 1 2 = Panic.
Proof. vm_compute. reflexivity. Qed.
