(** Proofs about the files the generator writes. *)
From Coq Require Import ZArith List Bool String Ascii Lia FinFun.
From Verif Require Import GoLib TableModel NameModel NameSpec ParserModel ParserSpec GenModel GenSpec
  GenProofs GenProofs2.
Import ListNotations.
Open Scope string_scope.
Open Scope list_scope.

Lemma NoDup_app_intro : forall A (l l' : list A), NoDup l -> NoDup l' ->
  (forall x, In x l -> In x l' -> False) -> NoDup (l ++ l').
Proof.
  induction l as [|a l IH]; intros l' N N' D; [exact N'|]. inversion N; subst. cbn. constructor.
  - rewrite in_app_iff. intros [H|H]; [contradiction|]. apply (D a); cbn; auto.
  - apply IH; auto. intros x X X'. apply (D x); cbn; auto.
Qed.

Lemma NoDup_app_parts : forall A (l l' : list A), NoDup (l ++ l') ->
  NoDup l /\ NoDup l' /\ forall x, In x l -> In x l' -> False.
Proof.
  induction l as [|a l IH]; intros l' N; cbn in N; [repeat split; auto; constructor|].
  inversion N; subst. destruct (IH l' H2) as (N1 & N2 & D). repeat split; auto.
  - constructor; auto. intros H. apply H1, in_or_app. auto.
  - intros x [->|X] X'; [apply H1, in_or_app; auto|eapply D; eauto].
Qed.

Lemma NoDup_flat_map : forall A B (f : A -> list B) l, NoDup l ->
  (forall x, In x l -> NoDup (f x)) ->
  (forall x y z, In x l -> In y l -> In z (f x) -> In z (f y) -> x = y) ->
  NoDup (flat_map f l).
Proof.
  induction l as [|a l IH]; intros N B0 D; [constructor|]. inversion N; subst. cbn [flat_map].
  apply NoDup_app_intro.
  - apply B0. left; reflexivity.
  - apply IH; auto.
    + intros x X. apply B0. right; exact X.
    + intros x y z X Y. apply D; right; assumption.
  - intros z Z Z'. apply in_flat_map in Z'. destruct Z' as (y & Y & Z').
    apply H1. rewrite (D a y z); auto; [left; reflexivity|right; exact Y].
Qed.

Lemma map_inj_in : forall A B (f : A -> B) l x y, NoDup (map f l) -> In x l -> In y l ->
  f x = f y -> x = y.
Proof.
  induction l as [|a l IH]; cbn; intros x y N X Y E; [contradiction|]. inversion N; subst.
  destruct X as [->|X], Y as [->|Y]; auto.
  - exfalso. apply H1. rewrite E. apply in_map, Y.
  - exfalso. apply H1. rewrite <- E. apply in_map, X.
Qed.

Lemma NoDup_map_filter : forall A B (f : A -> B) p l, NoDup (map f l) -> NoDup (map f (List.filter p l)).
Proof.
  induction l as [|a l IH]; cbn; intros N; [constructor|]. inversion N; subst.
  destruct (p a); auto. cbn. constructor; auto. intros I. apply H1.
  apply in_map_iff in I. destruct I as (x & E & X). apply filter_In in X. rewrite <- E. apply in_map, X.
Qed.

(** ** File names taken apart at their dots *)

Definition parts (d : directive) : list string := split_on "." (substring 3 (String.length (g_out d)) (g_out d)).

Lemma sub_over : forall s n, (String.length s <= n)%nat -> substring 0 n s = s.
Proof. induction s; intros [|n] H; cbn in *; try lia; auto. rewrite IHs by lia. reflexivity. Qed.

Lemma parts_of : forall d s, g_out d = ("../" ++ s)%string -> parts d = split_on "." s.
Proof.
  intros d s E. unfold parts. rewrite E. cbn [append String.length substring].
  rewrite sub_over by lia. reflexivity.
Qed.

Lemma name_no_dot : forall s, name_ok s = true -> all_chars (other ".") s = true.
Proof.
  intros s H. assert (N : all_chars name_char s = true).
  { destruct s; [discriminate|]. cbn in *. apply andb_prop in H. destruct H as [H1 H2].
    unfold name_char at 1. rewrite H1. exact H2. }
  eapply all_chars_imp; [|exact N]. intros c C. unfold other.
  destruct (Ascii.eqb_spec c "."); [subst; discriminate|reflexivity].
Qed.

Lemma node_parts : forall ss root n, name_ok n = true -> parts (node_dir ss root n) = [n; "gen"; "go"].
Proof.
  intros. erewrite parts_of by reflexivity. cbn [append].
  rewrite split_next by (apply name_no_dot; auto). reflexivity.
Qed.

Lemma list_parts : forall n, name_ok n = true -> parts (list_dir n) = [(n ++ "List")%string; "gen"; "go"].
Proof.
  intros. erewrite parts_of by reflexivity.
  replace (n ++ "List.gen.go")%string with ((n ++ "List") ++ String "." "gen.go")%string
    by (rewrite str_app_assoc; reflexivity).
  rewrite split_next; [reflexivity|]. rewrite all_chars_app, name_no_dot by auto. reflexivity.
Qed.

Lemma field_parts : forall ss n fs k ds, name_ok n = true -> Forall field_ok fs ->
  field_dirs ss n k fs = Ok ds -> map parts ds = map (fun f => [n; fst f; "gen"; "go"]) fs.
Proof.
  intros ss n. induction fs as [|f fs IH]; intros k ds N F E; cbn [field_dirs] in E.
  - injection E as <-. reflexivity.
  - inversion F; subst.
    destruct (field_init ss n k f N H1) as (d & r & D & I & O & _). rewrite D in E. cbn [bind] in E.
    destruct (field_dirs ss n (S k) fs) as [l| |] eqn:E2; try discriminate. cbn [bind] in E.
    injection E as <-. cbn [map]. rewrite (IH _ _ N H2 E2). f_equal.
    erewrite parts_of by exact O. cbn [append]. destruct H1 as (NF & _).
    rewrite split_next by (apply name_no_dot; auto).
    rewrite split_next by (apply name_no_dot; auto). reflexivity.
Qed.

Definition struct_parts (i : struct_info) : list (list string) :=
  [si_name i; "gen"; "go"] :: [(si_name i ++ "List")%string; "gen"; "go"] ::
  map (fun f : field => [si_name i; fst f; "gen"; "go"]) (si_fields i).

Definition union_parts (u : union_info) : list (list string) :=
  [[ui_name u; "union"; "gen"; "go"]; [ui_name u; "union-alias"; "gen"; "go"]].

Lemma block_parts : forall ss root i ds, struct_ok i -> block ss root i ds ->
  map parts ds = struct_parts i.
Proof.
  intros ss root i ds [N F] [fs E]. cbn [map]. rewrite node_parts, list_parts by auto.
  rewrite (field_parts _ _ _ _ _ N F E). reflexivity.
Qed.

Lemma blocks_parts : forall ss root l bs, Forall struct_ok l -> Forall2 (block ss root) l bs ->
  map parts (List.concat bs) = flat_map struct_parts l.
Proof.
  induction l as [|i l IH]; intros bs F B; inversion B; subst; [reflexivity|].
  inversion F; subst. cbn [List.concat flat_map]. rewrite map_app, (IH _ H4 H3).
  rewrite (block_parts _ _ _ _ H2 H1). reflexivity.
Qed.

Lemma unions_parts : forall filter us, Forall (fun u => name_ok (ui_name u) = true) us ->
  map parts (union_dirs filter us) =
  flat_map union_parts (List.filter (fun u => wanted filter (ui_name u)) us).
Proof.
  induction us as [|u us IH]; intros F; [reflexivity|]. inversion F; subst.
  unfold union_dirs. cbn [flat_map List.filter]. fold (union_dirs filter us).
  rewrite map_app, (IH H2), passes_wanted. destruct (wanted filter (ui_name u)); [|reflexivity].
  cbn [flat_map]. f_equal. cbn [map].
  erewrite parts_of by reflexivity. erewrite (parts_of _ (ui_name u ++ ".union-alias.gen.go")) by reflexivity.
  cbn [append]. rewrite !split_next by (apply name_no_dot; auto). reflexivity.
Qed.

Lemma suffix_differs : forall s, s <> (s ++ "List")%string.
Proof. induction s; cbn; [discriminate|congruence]. Qed.

Lemma append_length : forall a b, String.length (a ++ b)%string = (String.length a + String.length b)%nat.
Proof. induction a; cbn; intros; [reflexivity|]. rewrite IHa. reflexivity. Qed.

Lemma append_cancel : forall a b t, (a ++ t)%string = (b ++ t)%string -> a = b.
Proof.
  intros a b t E. assert (L : String.length a = String.length b).
  { assert (Q : String.length (a ++ t) = String.length (b ++ t)) by (rewrite E; reflexivity).
    rewrite !append_length in Q. lia. }
  revert b L E. induction a as [|c a IH]; intros [|d b] L E; cbn in *; try lia; auto.
  injection E as -> E. f_equal. apply IH; auto.
Qed.

Lemma structs_parts_nodup : forall l, Forall struct_ok l -> NoDup (map si_name l) ->
  (forall x y, In x (map si_name l) -> In y (map si_name l) -> x <> (y ++ "List")%string) ->
  Forall (fun i => NoDup (map fst (si_fields i))) l ->
  NoDup (flat_map struct_parts l).
Proof.
  intros l OK ND NL NF. apply NoDup_flat_map.
  - eapply NoDup_map_inv, ND.
  - intros i I. rewrite Forall_forall in NF. specialize (NF i I). cbv beta in NF.
    unfold struct_parts. constructor; [|constructor].
    + intros [H|H].
      * injection H as H. symmetry in H. exact (suffix_differs _ H).
      * apply in_map_iff in H. destruct H as (f & E & _). discriminate E.
    + intros H. apply in_map_iff in H. destruct H as (f & E & _). discriminate E.
    + replace (map (fun f : field => [si_name i; fst f; "gen"; "go"]) (si_fields i))
        with (map (fun s => [si_name i; s; "gen"; "go"]) (map fst (si_fields i)))
        by (rewrite map_map; reflexivity).
      apply FinFun.Injective_map_NoDup; [|exact NF]. intros x y E. injection E. auto.
  - intros i j z I J Z1 Z2.
    assert (IN : In (si_name i) (map si_name l)) by (apply in_map; exact I).
    assert (JN : In (si_name j) (map si_name l)) by (apply in_map; exact J).
    assert (K : si_name i = si_name j); [|exact (map_inj_in _ _ _ _ _ _ ND I J K)].
    unfold struct_parts in Z1, Z2. cbn [In] in Z1, Z2. rewrite in_map_iff in Z1, Z2.
    destruct Z1 as [<-|[<-|(f & <- & _)]], Z2 as [E|[E|(g & E & _)]]; try discriminate E.
    + injection E; auto.
    + injection E as E. exfalso. apply (NL (si_name i) (si_name j) IN JN). auto.
    + injection E as E. exfalso. apply (NL (si_name j) (si_name i) JN IN). auto.
    + injection E as E. apply append_cancel in E. auto.
    + injection E; auto.
Qed.

Lemma unions_parts_nodup : forall l, NoDup (map ui_name l) -> NoDup (flat_map union_parts l).
Proof.
  intros l ND. apply NoDup_flat_map.
  - eapply NoDup_map_inv, ND.
  - intros u _. repeat constructor; cbn; intuition discriminate.
  - intros u v z U V Z1 Z2. apply (map_inj_in _ _ ui_name l); auto.
    unfold union_parts in Z1, Z2. cbn in Z1, Z2.
    destruct Z1 as [<-|[<-|[]]], Z2 as [E|[E|[]]]; injection E; auto; discriminate.
Qed.

Lemma forall_filter : forall A (P : A -> Prop) p l, Forall P l -> Forall P (List.filter p l).
Proof.
  intros A P p l F. rewrite Forall_forall in *. intros x X. apply filter_In in X. apply F, X.
Qed.

Lemma outs_nodup : forall filter b ds, named_ok b -> types_long b -> separate b ->
  make_gen filter b = Ok ds -> NoDup (map g_out ds).
Proof.
  intros filter b ds NM T (ND & NL & NF) E. pose proof (fbs_ok_of b NM T) as OK.
  destruct (make_gen_blocks filter b OK) as (bs & B & E'). rewrite E in E'. injection E' as ->.
  destruct OK as (R & S & U). destruct (NoDup_app_parts _ _ _ ND) as (N1 & N2 & N3).
  unfold struct_names, union_names in *.
  assert (UN : Forall (fun u => name_ok (ui_name u) = true) (f_unions b)).
  { rewrite Forall_forall in *. intros u HU. apply (U u HU). }
  apply NoDup_map_inv with (f := fun s => split_on "." (substring 3 (String.length s) s)).
  rewrite map_map. change (NoDup (map parts (root_dir (f_root b) :: List.concat bs ++ union_dirs filter (f_unions b)))).
  cbn [map]. rewrite map_app.
  rewrite (blocks_parts (f_structs b) (f_root b) (List.filter (fun i => wanted filter (si_name i)) (f_structs b)));
    [|apply forall_filter, S|exact B].
  rewrite unions_parts by exact UN.
  assert (SI : forall x, In x (map si_name (List.filter (fun i => wanted filter (si_name i)) (f_structs b))) ->
               In x (map si_name (f_structs b))).
  { intros x X. apply in_map_iff in X. destruct X as (i & <- & I). apply filter_In in I. apply in_map, I. }
  constructor.
  - rewrite in_app_iff, !in_flat_map. intros [(i & _ & H)|(u & _ & H)].
    + unfold struct_parts in H. cbn [In] in H. rewrite in_map_iff in H.
      destruct H as [H|[H|(f & H & _)]]; discriminate H.
    + destruct H as [H|[H|[]]]; discriminate H.
  - apply NoDup_app_intro.
    + apply structs_parts_nodup; [apply forall_filter, S|apply NoDup_map_filter, N1| |apply forall_filter, NF].
      intros x y X Y. apply NL; auto.
    + apply unions_parts_nodup, NoDup_map_filter, N2.
    + intros z Z1 Z2. apply in_flat_map in Z1, Z2.
      destruct Z1 as (i & I & Z1), Z2 as (u & HU & Z2).
      apply filter_In in I, HU. destruct I as [I _], HU as [HU _].
      unfold struct_parts in Z1. cbn [In] in Z1. rewrite in_map_iff in Z1.
      apply (N3 (si_name i)); [apply in_map, I|].
      assert (K : si_name i = ui_name u); [|rewrite K; apply in_map, HU].
      unfold union_parts in Z2. cbn in Z2.
      destruct Z1 as [<-|[<-|(f & <- & _)]], Z2 as [E2|[E2|[]]]; injection E2; auto; discriminate.
Qed.

Lemma written_all : forall ds, NoDup (map g_out ds) -> written ds = ds.
Proof.
  induction ds as [|d ds IH]; cbn; intros N; [reflexivity|]. inversion N; subst.
  destruct (existsb _ ds) eqn:E; [|f_equal; auto].
  exfalso. apply existsb_exists in E. destruct E as (e & I & E). apply String.eqb_eq in E.
  apply H1. rewrite <- E. apply in_map, I.
Qed.

Lemma files_separate : forall filter b ds, named_ok b -> types_long b -> separate b ->
  make_gen filter b = Ok ds -> NoDup (map g_out ds) /\ written ds = ds.
Proof.
  intros. assert (N : NoDup (map g_out ds)) by (eapply outs_nodup; eauto).
  split; [exact N|apply written_all, N].
Qed.
