(** What a vector with a separated data area should be: its header and its file,
    put one after the other, are the vector. *)
From Coq Require Import ZArith List Bool.
From Coq Require Import Strings.Byte.
From Verif Require Import GoLib BaseModel BaseSpec TableModel TableSpec ListModel ListSpec AddModel AddSpec SepModel.
Import ListNotations.
Open Scope Z_scope.

(** What was written to the data writer. *)
Definition data_of (s : sep) : list byte :=
  match s_w s with NoWriter => nil | Plain f | File f => f_data f end.

(** The vector made of the header and the data behind it. *)
Definition whole (s : sep) : res lnode :=
  do b <- base_flatten (l_io (s_list s));
  Ok (mkL (new_base (gs_of (sl_data (b_bytes b) ++ data_of s))) 4 4 (l_vlen (s_list s)) 0).

(** The header holds the count and the slots only, [DataLen] is the length of
    the data, and both together show [es]. *)
Definition separated (ks : list fkind) (s : sep) (es : list (base * Z * Z)) : Prop :=
  s_len s = zlen (data_of s) /\ l_vlen (s_list s) = zlen es /\
  (exists b, base_flatten (l_io (s_list s)) = Ok b /\ gs_len (b_bytes b) = 4 + 4 * zlen es) /\
  exists l, whole s = Ok l /\ shows_tables ks l es.

(** A table that fills its buffer, as a merged one made by setters does. *)
Definition fills_buffer (ks : list fkind) (src : base) (sp s : Z) : Prop :=
  self_contained ks src sp s /\ flat src /\ sp = vtable_size ks /\
  gs_len (b_bytes src) = vtable_size ks + s.

Definition empty_file : writer := File (mkFile nil 0).

(** [Seek(0, io.SeekStart)] on the file. *)
Definition rewound (s : sep) : sep :=
  match s_w s with
  | File f => mkSep (s_list s) (File (mkFile (f_data f) 0)) (s_len s)
  | _ => s
  end.

(** Separated vectors put together by the calls for it.  The flag says whether
    elements can be added; they cannot once two vectors were joined. *)
Inductive sep_built (ks : list fkind) : bool -> sep -> list (base * Z * Z) -> Prop :=
| S_start : forall l es s, built ks l es ->
    write_data_all ks (set_writer l empty_file) = Ok (SOk s) -> sep_built ks true s es
| S_set : forall s es src sp e s', sep_built ks true s es -> fills_buffer ks src sp e ->
    appended_size ks (es ++ [(src, sp, e)]) < 2 ^ 32 - 4 ->
    sep_set_at ks s (zlen es) src sp = Ok (SOk s') -> sep_built ks true s' (es ++ [(src, sp, e)])
| S_merge : forall f s es s', sep_built ks f s es -> sep_merge s = Ok s' -> sep_built ks f s' es
| S_rewind : forall f s es, sep_built ks f s es -> sep_built ks f (rewound s) es
| S_add : forall f g d es s fs n s', sep_built ks f d es -> sep_built ks g s fs ->
    appended_size ks (es ++ fs) < 2 ^ 32 - 4 ->
    sep_add d s = Ok (Added n s') -> sep_built ks false n (es ++ fs).

(** A table made by assignments, as it is or merged. *)
Definition made_or_merged (ks : list fkind) (h : list (assign * list byte)) (e : base * Z * Z) : Prop :=
  let '(b, sp, s) := e in
  made_by ks h e \/ exists src, made_by ks h (src, sp, s) /\ base_flatten src = Ok b.
