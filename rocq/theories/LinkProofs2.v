(** From the text of a schema to reading and building buffers of it. *)
From Coq Require Import ZArith List Bool String Ascii Lia Permutation.
From Verif Require Import GoLib BaseModel BaseSpec TableModel TableSpec NameModel NameSpec ParserModel ParserSpec
  ParserProofs5 GenModel GenSpec WalkModel WalkSpec WalkProofs4 WalkProofs5 WalkProofs7
  BuildModel BuildSpec BuildProofs8 LinkSpec LinkProofs.
Import ListNotations.
Open Scope list_scope.
Open Scope Z_scope.

Lemma schema_reads : forall ds s, let b0 := schema_fbs (map erase ds) in
  ds <> [] -> forallb decl_ok ds = true -> forallb adecl_fits (map erase ds) = true ->
  distinct_names b0 -> separate b0 -> schema_of b0 s ->
  exists n b dirs, (forall f, (n <= f)%nat -> main_schema f (schema_text ds) = Ok (true, b)) /\
    make_gen "" b = Ok dirs /\
    forall files, Permutation (written dirs) files -> exists r, package_names files r /\
      forall buf name p v sz, flat buf -> stored_table (img_bytes (sl_data (b_bytes buf))) s name p v ->
        let c := new_node r (Some (p, sz)) no_vinfo name in
        (forall fs i w, v = Tab name p fs -> zget fs i = Some w ->
           exists f, field_at r buf c i = Ok f /\ stands_for f w) /\
        (measured v -> holds_uint (img_bytes (sl_data (b_bytes buf))) 0 4 p ->
           exists root k len, root_node r buf name = Ok root /\
             (forall f, (k <= f)%nat -> node_len r buf f root = Ok len) /\
             len mod 8 = 0 /\ reach v <= len < reach v + 8) /\
        (traversable v -> exists k, forall f, (k <= f)%nat -> exists xs, traverse r buf f c = Ok xs /\
           map (fun x => (x_parent x, x_idx x, x_child x, x_size x)) xs = sightings v).
Proof.
  intros ds s b0 N D F DN SEP SO.
  destruct (schema_describes ds s N D F DN SEP SO) as (n & b & dirs & M & G & H).
  exists n, b, dirs. split; [exact M|]. split; [exact G|]. intros files P. destruct (H files P) as (r & R & DE).
  exists r. split; [exact R|]. intros buf name p v sz FL ST c. split; [|split].
  - intros fs i w -> Z. exact (field_found r buf s FL DE name p fs i w sz ST Z).
  - intros ME HU. exact (measured_len r buf s FL DE name p v ST ME HU).
  - intros TR. exact (traversal r buf s FL DE name p v sz ST TR).
Qed.

Lemma schema_builds : forall ds s, let b0 := schema_fbs (map erase ds) in
  ds <> [] -> forallb decl_ok ds = true -> forallb adecl_fits (map erase ds) = true ->
  distinct_names b0 -> separate b0 -> schema_of b0 s ->
  exists n b dirs, (forall f, (n <= f)%nat -> main_schema f (schema_text ds) = Ok (true, b)) /\
    make_gen "" b = Ok dirs /\
    forall files, Permutation (written dirs) files -> exists r, package_names files r /\
      forall name tys l st, s name = Some tys -> buildable tys ->
        history r s name tys start l st -> typed_unions tys st ->
        exists k buf buf' fs, let p := 4 + 2 * zlen tys in let m := img_bytes (sl_data (b_bytes buf')) in
          (forall fuel, (k <= fuel)%nat ->
             build_table r fuel name l = Ok (Some (buf, new_node r (Some (p, -1)) no_vinfo name))) /\
          base_flatten buf = Ok buf' /\
          stored_table (window m 0 (reach (Tab name p fs))) s name p (Tab name p fs) /\
          forall i t w, zget tys i = Some t -> zget fs i = Some w -> as_assigned m t (st i) w.
Proof.
  intros ds s b0 N D F DN SEP SO.
  destruct (schema_describes ds s N D F DN SEP SO) as (n & b & dirs & M & G & H).
  exists n, b, dirs. split; [exact M|]. split; [exact G|]. intros files P. destruct (H files P) as (r & R & DE).
  exists r. split; [exact R|]. intros name tys l st HS HB HH HT.
  destruct (table_built r s name tys DE HS HB l st HH HT) as (k & buf & buf' & fs & X1 & X2 & _ & _ & _ & X3 & X4).
  exists k, buf, buf', fs. split; [exact X1|]. split; [exact X2|]. split; [exact X3|exact X4].
Qed.
