(** Replacing a number or struct of a vector. *)
From Coq Require Import ZArith List Bool Lia String.
From Coq Require Import Strings.Byte.
From Verif Require Import GoLib BaseModel GoLemmas BaseSpec BaseProofs BaseProofs2 BaseProofs3 TableModel TableSpec TableProofs.
From Verif Require Import TableProofs2 NameModel NameSpec StreamModel WalkModel WalkSpec WalkProofs WalkProofs2 WalkProofs3 WalkProofs5.
From Verif Require Import EqualSpec BuildModel InsModel InsSpec InsProofs InsProofs7 PutModel PutSpec PutProofs PutProofs2 PutProofs7.
From Verif Require Import JourModel JourSpec JourProofs JourProofs2 JourProofs3 JourProofs4 JourProofs8 JourProofs9 ElemModel ElemSpec.
Import ListNotations.
Open Scope list_scope.
Open Scope Z_scope.

(** ** Single writes *)

Lemma copied_to : forall b m fb fp x dst, in_memory b -> shows b m -> delivers fb fp x -> 1 <= zlen x -> 0 <= dst ->
  exists b', base_copy b fb fp (zlen x) dst 0 = Ok b' /\ in_memory b' /\ shows b' (img_write m dst x) /\ held b' dst (zlen x) /\
    forall a k, held b a k -> disjoint a k dst (zlen x) -> held b' a k.
Proof.
  intros b m fb fp x dst HB HM DV ZX H0.
  destruct (copy_any b fb fp x dst DV ZX H0) as (sl & pre & CP1 & CP2 & CP3).
  assert (ZSL : gs_len sl = zlen x) by (unfold gs_len; rewrite CP2; reflexivity).
  set (b' := set_diffs b ((pre ++ b_diffs b) ++ [mkDiff dst sl])) in *.
  assert (CT : forall i, content b' i = img_write (content b) dst x i).
  { intros i. unfold content at 1, b'. cbn [set_diffs b_diffs b_bytes]. rewrite over_app, over_one. cbn [d_off]. unfold d_data. cbn [d_sl]. rewrite CP2.
    apply img_write_ext. destruct CP3 as [->|(D1 & tt & -> & D2)]; [reflexivity|]. cbn [app]. rewrite over_front by (auto; lia). reflexivity. }
  assert (MB' : in_memory b').
  { destruct HB as [HB1 HB2]. split; [exact HB1|]. unfold b'. cbn [set_diffs b_diffs]. apply Forall_app. split; [|repeat constructor; cbn [d_off]; lia].
    apply Forall_app. split; [|exact HB2]. destruct CP3 as [->|(D1 & tt & -> & D2)]; repeat constructor; cbn [d_off]; lia. }
  exists b'. split; [exact CP1|]. split; [exact MB'|]. split; [|split].
  - intros i Hi. rewrite (peek_content b' i MB' Hi), CT. f_equal. apply img_write_ext. apply shown; auto.
  - left. exists (pre ++ b_diffs b), (mkDiff dst sl), nil. unfold b'. cbn [set_diffs b_diffs d_off]. split; [reflexivity|].
    unfold d_len. cbn [d_sl]. rewrite ZSL. split; [lia|]. split; [lia|constructor].
  - intros a k HH HDJ. apply held_after; auto; try lia. rewrite ZSL. exact HDJ.
Qed.

(** ** Where the numbers are *)

Section Frames.
Variable m : image.
Variable s : schema.
Variables (tp idx : Z) (t : ty) (w : val).
Hypothesis HI : 0 <= idx.
Local Notation clear := (fill tp idx (Absent t)).

Lemma frame_parts_or : forall u, somewhere m s u ->
  (forall nm gs, In (Tab nm tp gs) (tables u) -> zget gs idx = Some w) ->
  forall a k, In (a, k) (frame m u) -> In (a, k) (frame m w) \/
    exists c0 k0, In (c0, k0) (parts m (clear u)) /\ c0 <= a /\ a + k <= c0 + k0.
Proof.
  intros u. induction u as [ty|q w'|q ms|q k' w'|q k' ms|nm p gs go|nm p vs go] using val_deep; intros HW HU a0 k0 H; cbn [frame] in H; try (destruct H; fail).
  - right. destruct H as [E|[]]. injection E as <- <-. exists (q - 4), (4 + k' * w'). cbn [fill parts]. split; [left; reflexivity|].
    destruct HW as [(? & ? & HW)|(p' & pv & ty & e & HW)]; [inversion HW|].
    inversion HW; subst; try (match goal with X : stored_table _ _ _ _ (Scalars _ _ _) |- _ => inversion X end; fail).
    match goal with V : vector_from _ _ _ _ |- _ => pose proof (proj1 (proj2 V)) end. match goal with |- context [zwidth ?x] => pose proof (zwidth_pos x) end. nia.
  - right. destruct H as [E|[]]. injection E as <- <-. exists (q - 4), (4 + k' * struct_size ms). cbn [fill parts]. split; [left; reflexivity|].
    destruct HW as [(? & ? & HW)|(p' & pv & ty & e & HW)]; [inversion HW|].
    inversion HW; subst; try (match goal with X : stored_table _ _ _ _ (Structs _ _ _) |- _ => inversion X end; fail).
    match goal with V : vector_from _ _ _ _ |- _ => pose proof (proj1 (proj2 V)) end. pose proof (struct_size_nonneg ms). nia.
  - assert (LN : forall l : list val, zlen (if p =? tp then set_nth idx (Absent t) l else l) = zlen l) by (intros; destruct (p =? tp); rewrite ?zlen_set_nth; reflexivity).
    cbn [fill parts]. rewrite LN, zlen_map. pose proof (zlen_nonneg gs).
    destruct H as [E|[E|[E|H]]].
    + right. injection E as <- <-. exists p, 4. split; [left; reflexivity|]. lia.
    + right. injection E as <- <-. exists (vtable_of m p), (4 + 2 * zlen gs). split; [right; left; reflexivity|]. lia.
    + right. injection E as <- <-. exists (vtable_of m p), (4 + 2 * zlen gs). split; [right; left; reflexivity|]. lia.
    + apply in_app_or in H. destruct H as [H|H].
      * right. apply in_map_iff in H. destruct H as (i & E & Hi). pose proof (f_equal fst E) as Ea. pose proof (f_equal snd E) as Ek. cbn [fst snd] in Ea, Ek. apply in_seq in Hi. exists (vtable_of m p), (4 + 2 * zlen gs).
        split; [right; left; reflexivity|]. unfold zlen. lia.
      * apply in_flat_map in H. destruct H as (f & F1 & F2). pose proof F1 as FI. apply zget_of_in in FI. destruct FI as (i & FI).
        destruct (go f F1 (somewhere_field m s _ _ _ _ _ HW FI)) with (a := a0) (k := k0) as [C0|(c1 & k1 & C1 & C2)]; [|exact F2|left; exact C0|].
        { intros nm' gs' H'. apply (HU nm' gs'). right. apply in_flat_map. eauto. }
        destruct (Z.eqb_spec p tp) as [->|NE].
        -- destruct (Z.eq_dec i idx) as [->|NI].
           { specialize (HU nm gs (or_introl eq_refl)). assert (f = w) by congruence. subst w. left. exact F2. }
           right. exists c1, k1. split; [|exact C2]. right. right. apply in_flat_map. exists (clear f). split; [|exact C1].
           eapply zget_in with (i := i). rewrite zget_set_nth by exact HI. replace (i =? idx) with false by lia. apply zget_map_some. exact FI.
        -- right. exists c1, k1. split; [|exact C2]. right. right. apply in_flat_map. exists (clear f). split; [apply in_map; exact F1|exact C1].
  - cbn [fill parts]. destruct H as [E|H]; [right; injection E as <- <-; exists (p - 4), 4; split; [left; reflexivity|lia]|].
    apply in_flat_map in H. destruct H as (f & F1 & F2). pose proof F1 as FI. apply zget_of_in in FI. destruct FI as (i & FI).
    destruct (go f F1 (somewhere_elem m s _ _ _ _ _ HW FI)) with (a := a0) (k := k0) as [C0|(c1 & k1 & C1 & C2)]; [|exact F2|left; exact C0|].
    { intros nm' gs' H'. apply (HU nm' gs'). apply in_flat_map. eauto. }
    right. exists c1, k1. split; [|exact C2]. right. apply in_flat_map. exists (clear f). split; [apply in_map; exact F1|exact C1].
Qed.

End Frames.

Lemma links_inside : forall m v w, In w (tables v) -> incl (links m w) (links m v).
Proof.
  intros m v w. induction v as [ty|q w'|q ms|q k' w'|q k' ms|nm p gs go|nm p vs go] using val_deep; intros Hw; cbn [tables] in Hw; try (destruct Hw; fail).
  - destruct Hw as [<-|Hw]; [apply incl_refl|]. apply in_flat_map in Hw. destruct Hw as (g & G1 & G2). pose proof G1 as GI. apply zget_of_in in GI. destruct GI as (i & GI).
    intros x Hx. rewrite links_tab. eapply in_concat_numbered; [exact GI|]. apply in_or_app. right. exact (go g G1 G2 x Hx).
  - apply in_flat_map in Hw. destruct Hw as (g & G1 & G2). pose proof G1 as GI. apply zget_of_in in GI. destruct GI as (i & GI).
    intros x Hx. rewrite links_tabs. eapply in_concat_numbered; [exact GI|]. right. exact (go g G1 G2 x Hx).
Qed.

Section Elem.
Variable n : names.
Variable s : schema.
Hypothesis HD : describes n s.

(** What is known about the element. *)
Lemma elem_given : forall name i t typ g eb e x, field_described n name i t typ g -> gives_elem n t eb e x -> exists pos g', c_node e = Some (pos, snd (match c_node e with Some y => y | None => (0, 0) end)) /\
  delivers eb pos x /\ get_type_group n (c_name e) = Ok g' /\ is_field_basic g' || is_field_struct g' = true /\
  (forall fuel, (1 <= fuel)%nat -> elem_size n fuel eb e = Ok (pos, zlen x)) /\ 
  exists en, typ = ("[]" ++ en)%string /\
  match t with
  | TyScalars u => lookup name_to_type en = Some u /\ zlen x = zwidth u
  | TyStructs sn ms => en = sn /\ struct_described n sn ms /\ zlen x = struct_size ms
  | _ => False
  end.
Proof.
  intros name i t typ g eb e x HF (pos & z & CN & HZ & DV & HT).
  destruct t as [u|sn ms|tn|us|u|sn ms|tn]; try contradiction; cbn [field_described] in HF.
  - destruct HT as [HT1 HT2]. destruct HF as (_ & en & E1 & E2 & _). destruct (scalar_name_group n (c_name e) u HT1) as (G1 & G2 & G3).
    exists pos, (type_to_group u). rewrite CN. cbn [snd]. split; [reflexivity|]. split; [exact DV|]. split; [exact G1|]. rewrite G2. split; [reflexivity|].
    split; [|exists en; auto]. intros fuel Hfu. unfold elem_size. rewrite CN. destruct (z <=? 0) eqn:E; [|destruct HZ; [lia|subst z; reflexivity]].
    destruct fuel as [|f]; [lia|]. cbn [node_info]. unfold info_step. rewrite CN, G1. cbn [bind]. rewrite G2. cbn [bind v_size]. unfold name_size. rewrite HT1. fold (zwidth u). rewrite HT2. reflexivity.
  - destruct HT as [HT1 HT2]. destruct HF as (_ & E1 & E2). pose proof E2 as (_ & (g' & G1 & G2) & _).
    destruct (says_tests _ _ G2) as (_ & _ & _ & _ & _ & T6).
    assert (NM : c_name e = sn) by (rewrite HT1; apply new_node_name).
    exists pos, g'. rewrite CN, NM. cbn [snd]. split; [reflexivity|]. split; [exact DV|]. split; [exact G1|]. cbn in T6. rewrite T6. destruct (says_tests _ _ G2) as (T1 & _). rewrite T1. split; [reflexivity|].
    split; [|exists sn; auto]. intros fuel Hfu. unfold elem_size. rewrite CN. destruct (z <=? 0) eqn:E; [|destruct HZ; [lia|subst z; reflexivity]].
    destruct fuel as [|f]; [lia|]. rewrite HT1. rewrite (proj2 (node_info_good n eb f) sn ms pos z E2). cbn [bind v_size]. rewrite HT2. reflexivity.
Qed.

Lemma with_new : forall nd v v' nm, with_info (new_node n nd v nm) v' = new_node n nd v' nm.
Proof.
  intros nd v v' nm. unfold new_node, fetch_index, with_info. cbn [c_name c_node c_info c_types c_groups].
  repeat match goal with |- context [match ?x with _ => _ end] => destruct x end; reflexivity.
Qed.

Lemma elem_replaced : forall b m name p v z tn tp fs tys idx t w q k j eb e x, in_memory b -> shows b m ->
  stored_table m s name p v -> intact b m v ->
  only_table v (Tab tn tp fs) -> s tn = Some tys -> zget tys idx = Some t -> types_no_union tys idx ->
  zget fs idx = Some w -> inline_vector w q k -> 0 <= j < k ->
  gives_elem n t eb e x -> x <> [] ->
  let dst := q + j * zlen x in let m' := img_write m dst x in
  (forall a l, In (a, l) (parts m (fill tp idx (Absent t) v)) -> disjoint a l dst (zlen x)) ->
  (forall a u, In (a, u) (links m v) -> disjoint a 4 dst (zlen x)) ->
  exists f b' c', field_at n b (new_node n (Some (tp, z)) no_vinfo tn) idx = Ok f /\
    (forall fuel, (1 <= fuel)%nat -> set_elem n fuel b f j eb e = Ok (Put_ok b' c')) /\
    c_node c' = c_node f /\ c_name c' = c_name f /\ c_info c' = mkV q (k * zlen x) k /\
    in_memory b' /\ shows b' m' /\ stored_table m' s name p v /\ intact b' m' v /\ delivers b' dst x /\
    held b' dst (zlen x) /\ forall a l, held b a l -> disjoint a l dst (zlen x) -> held b' a l.
Proof.
  intros b m name p v z tn tp fs tys idx t w q k j eb e x HB HM H HI OT HS Ht HNU Hw HV Hj Hg Hx dst m' DP DL.
  pose proof (zget_some_range _ _ _ Ht) as RI. pose proof OT as [OT1 OT2].
  destruct (proj1 (tables_stored m s v) name p H _ OT1) as (nm & q0 & gs & E & HT). injection E as <- <- <-.
  assert (INV : exists so es l, table_at m tp so es l /\ 0 <= so /\ stored_fields m s tp None tys es fs).
  { inversion HT as [? ? so es l tys' ? Hs' T Hso SF]; subst. rewrite HS in Hs'. injection Hs' as <-. exists so, es, l. auto. }
  destruct INV as (so & es & l & T & Hso & SF).
  destruct (fields_of m s tp None tys es fs SF) as (L1 & L2 & N). destruct (N idx w Hw) as (t' & e0 & pv & N1 & N2 & N3 & _).
  assert (t' = t) by congruence. subst t'.
  assert (UN : forall nm gs, In (Tab nm tp gs) (tables v) -> nm = tn /\ gs = fs).
  { intros nm gs HG. specialize (OT2 _ HG eq_refl). split; congruence. }
  assert (CLR : forall nm q gs, In (Tab nm q gs) (tables v) ->
    In (q, 4) (parts m (fill tp idx (Absent t) v)) /\ In (vtable_of m q, 4 + 2 * zlen gs) (parts m (fill tp idx (Absent t) v))).
  { apply (clear_tables m tp idx ltac:(lia) t v). intros nm gs HG. destruct (UN nm gs HG) as [-> ->]. exists w. split; [exact Hw|].
    destruct w; try contradiction; reflexivity. }
  destruct (table_node n s HD tn tys (Some (tp, z)) no_vinfo HS) as (SN & _ & ML & TN).
  destruct (TN idx t Ht) as (typ & g & G1 & G2 & G3 & G4).
  destruct (elem_given tn idx t typ g eb e x G3 Hg) as (epos & g' & _ & DV & GG & GB & ES & en & TY & TT).
  assert (ZX : 1 <= zlen x) by (destruct x as [|y x]; [contradiction|]; rewrite zlen_cons; pose proof (zlen_nonneg x); lia).
  (* the vector *)
  assert (FW : start w = Some (q - 4) /\ tables w = [] /\ 4 <= e0 /\ vector_from m (tp + e0) q k /\ frame m w = [(q - 4, 4)] /\ occupied m q (k * zlen x) /\
    forall m1 pv', vector_from m1 (tp + e0) q k -> occupied m1 q (k * zlen x) -> stored_field m1 s tp pv' t e0 w).
  { destruct t; try contradiction; inversion N3; subst; cbn [inline_vector] in HV; try contradiction; destruct HV as [-> ->].
    - destruct TT as [_ ->]. split; [reflexivity|]. split; [reflexivity|]. split; [auto|]. split; [auto|]. split; [reflexivity|]. split; [auto|]. intros; constructor; auto.
    - destruct TT as (_ & _ & ->). split; [reflexivity|]. split; [reflexivity|]. split; [auto|]. split; [auto|]. split; [reflexivity|]. split; [auto|]. intros; constructor; auto. }
  destruct FW as (W7 & W1 & W2 & W3 & W4 & W5 & W6). pose proof W3 as [W3a W3b].
  pose proof (ta_vpos _ _ _ _ _ T) as TV.
  assert (Q4 : 4 <= q) by (destruct W3a; lia).
  assert (D0 : q <= dst) by (unfold dst; nia).
  assert (DE : dst + zlen x <= q + k * zlen x) by (unfold dst; nia).
  (* through the journal *)
  assert (SI : intact b m (Tab tn tp fs)) by exact (intact_inside b m v _ HI OT1).
  destruct (copied_to b m eb epos x dst HB HM DV ZX ltac:(lia)) as (b' & CP & MB' & SH & HH & KEEP). fold m' in SH.
  assert (OUT : forall i, i < dst \/ dst + zlen x <= i -> m' i = m i).
  { intros i Hi. unfold m', img_write. replace ((dst <=? i) && (i <? dst + zlen x)) with false by lia. reflexivity. }
  assert (INS : forall i, 0 <= i < zlen x -> m' (dst + i) = zget x i).
  { intros i Hi. unfold m', img_write. replace ((dst <=? dst + i) && (dst + i <? dst + zlen x)) with true by lia. f_equal. lia. }
  assert (ST : same_tables m m' v).
  { intros nm q1 gs Hin. destruct (CLR nm q1 gs Hin) as [P1 P2]. apply DP in P1. apply DP in P2. unfold disjoint in P1, P2.
    assert (EV : vtable_of m' q1 = vtable_of m q1).
    { unfold vtable_of. f_equal. apply num_ext. intros i Hi. apply OUT. lia. }
    split; [exact EV|]. intros i Hi. unfold slot_of. rewrite EV. f_equal. apply num_ext. intros j' Hj'. apply OUT. lia. }
  assert (I' : intact b' m' v).
  { destruct HI as [I1 I2]. split.
    + rewrite (same_frame m m' v ST). intros a l0 Hak. apply KEEP; [apply I1, Hak|].
      destruct (frame_parts_or m s tp idx t w ltac:(lia) v) with (a := a) (k := l0) as [F|(c0 & k0 & F1 & F2 & F3)]; auto; [left; eauto| | |].
      * intros nm gs HG. destruct (UN nm gs HG) as [-> ->]. exact Hw.
      * rewrite W4 in F. destruct F as [F|[]]. injection F as <- <-. unfold disjoint. lia.
      * specialize (DP c0 k0 F1). unfold disjoint in *. lia.
    + rewrite (same_links m m' v ST). intros a u Hau. apply KEEP; [apply (I2 a u), Hau|]. apply (DL a u). exact Hau. }
  assert (ES' : slot_of m tp idx = tp + e0).
  { unfold slot_of. rewrite (table_vtable m tp so es l T Hso). rewrite (num_holds m 2 _ e0 (ta_entry _ _ _ _ _ T idx e0 N2)). reflexivity. }
  assert (S' : stored_table m' s name p v).
  { destruct (in_place m s name p v tn tp fs tys idx t so es l e0 w m' dst (zlen x) H OT HS Ht HNU T Hso N2) as [I1 _]; auto.
    + intros a u Hau. apply (DL a u). eapply clear_links; [|exact Hau]. lia.
    + intros pv'. apply W6.
      * assert (DS : disjoint (tp + e0) 4 dst (zlen x)).
        { apply (DL (tp + e0) (q - 4)). apply (links_inside m v _ OT1). rewrite links_tab. eapply in_concat_numbered; [exact Hw|]. rewrite ES', W7. left. reflexivity. }
        unfold disjoint in DS. split; [split; [apply W3a|]|].
        -- eapply holds_uint_ext; [|apply W3a]. intros i Hi. apply OUT. lia.
        -- eapply holds_uint_ext; [|exact W3b]. intros i Hi. apply OUT. lia.
      * intros i Hi. destruct (Z_lt_ge_dec (q + i) dst); [rewrite OUT by lia; apply W5; lia|].
        destruct (Z_lt_ge_dec (q + i) (dst + zlen x)); [|rewrite OUT by lia; apply W5; lia].
        replace (q + i) with (dst + (q + i - dst)) by lia. rewrite INS by lia. destruct (zget_some x (q + i - dst) ltac:(lia)) as (y & Y). eauto.
    + rewrite fill_same in I1; [exact I1|lia|]. intros nm gs HG. destruct (UN nm gs HG) as [-> ->]. exact Hw. }
  (* the node *)
  pose proof (proj1 (stored_seen b m s HB HM) tn tp _ HT SI) as SE.
  assert (INV : exists so2 es2 l2, seen_at b tp so2 es2 l2 /\ 0 <= so2 /\ seen_fields b s tp None tys es2 fs).
  { clear - SE HS. inversion SE as [? ? so2 es2 l2 tys2 ? Hs2 T2 Hso2 SF2]; subst. rewrite HS in Hs2. injection Hs2 as <-. exists so2, es2, l2. auto. }
  destruct INV as (so2 & es2 & l2 & T2 & Hso2 & SF2).
  destruct (fields_nth_j b s tp None tys es2 fs SF2) as (_ & _ & N'). destruct (N' idx w Hw) as (t2 & e2 & pv2 & M1 & M2 & M3 & _).
  pose proof (field_at_stored_j n b s HD tn tp z so2 es2 l2 tys idx t2 e2 pv2 w HS T2 Hso2 M1 M2 M3) as FA.
  unfold WalkProofs.tnode_at in FA. rewrite G2 in FA.
  assert (R : reads b (q - 4) 4 k).
  { apply (holds_reads b m HB HM); [lia|lia|exact W3b|]. apply (proj1 (intact_inside b m v _ HI OT1)). cbn [frame]. do 3 right. apply in_or_app. right. apply in_flat_map.
    exists w. split; [eapply zget_in; eauto|]. rewrite W4. left. reflexivity. }
  assert (R' : reads b' (q - 4) 4 k).
  { apply (holds_reads b' m' MB' SH); [lia|lia| |].
    - eapply holds_uint_ext; [|exact W3b]. intros i Hi. apply OUT. lia.
    - apply (proj1 (intact_inside b' m' v _ I' OT1)). cbn [frame]. do 3 right. apply in_or_app. right. apply in_flat_map.
      exists w. split; [eapply zget_in; eauto|]. destruct w; try contradiction; cbn [inline_vector] in HV; destruct HV as [-> ->]; left; reflexivity. }
  assert (FN : exists nd z0, field_node n typ tp w = new_node n (Some nd) (mkV q z0 k) typ /\ (z0 = 0 \/ z0 = k * zlen x)).
  { destruct t; try contradiction; inversion N3; subst; cbn [inline_vector] in HV; try contradiction; destruct HV as [-> ->]; cbn [field_node].
    - destruct TT as [_ ->]. destruct (Z.eqb_spec (zwidth t) 1) as [->|]; eexists _, _; (split; [reflexivity|]); [right|left]; lia.
    - eexists _, _. split; [reflexivity|]. left. lia. }
  destruct FN as (nd & z0 & FN & HZ). rewrite FN in FA.
  assert (SL : forall fuel, (1 <= fuel)%nat -> forall b1 z1, reads b1 (q - 4) 4 k -> info_slice n b1 (node_info n b1 fuel) (new_node n (Some nd) (mkV q z1 k) typ) = Ok (mkV q (k * zlen x) k)).
  { intros fuel Hfu b1 z1 RR. rewrite TY. destruct t; try contradiction.
    - destruct TT as [TT1 ->]. apply slice_scalars_j; auto.
    - destruct TT as (-> & TT1 & ->). apply slice_structs_j; auto. destruct fuel as [|fu]; [lia|]. apply node_info_good. }
  assert (VT : forall fuel, (1 <= fuel)%nat -> vlen_total n fuel b (new_node n (Some nd) (mkV q z0 k) typ) = Ok (new_node n (Some nd) (mkV q (k * zlen x) k) typ)).
  { intros fuel Hfu. unfold vlen_total. rewrite new_node_info. cbn [v_pos v_len v_size]. replace (q =? 0) with false by lia. replace (k =? 0) with false by lia. cbn [orb].
    destruct (z0 =? 0) eqn:EZ; [rewrite (SL fuel Hfu b z0 R)|]; cbn [bind v_len]; replace (k =? 0) with false by lia; rewrite with_new; [reflexivity|].
    destruct HZ as [->|HZ]; [discriminate|]. rewrite HZ. reflexivity. }
  exists (new_node n (Some nd) (mkV q z0 k) typ), b', (new_node n (Some nd) (mkV q (k * zlen x) k) typ).
  split; [exact FA|]. split; [|rewrite !new_node_node, !new_node_name, !new_node_info; split; [reflexivity|split; [reflexivity|split; [reflexivity|]]]].
  - intros fuel Hfu. unfold set_elem. rewrite new_node_info. cbn [v_len]. replace (k <? j) with false by lia. rewrite GG. cbn [bind]. rewrite GB.
    unfold set_inline_elem. rewrite (VT fuel Hfu). cbn [bind]. rewrite (ES fuel Hfu). cbn [bind]. rewrite new_node_info. cbn [v_pos v_len].
    replace (k =? j) with false by lia. fold dst. rewrite CP. cbn [bind]. unfold refreshed. rewrite (SL fuel Hfu b' _ R'). cbn [bind]. rewrite with_new. reflexivity.
  - split; [exact MB'|]. split; [exact SH|]. split; [exact S'|]. split; [exact I'|]. split; [|split; [exact HH|exact KEEP]].
    apply (held_delivers b' m'); auto; lia.
Qed.
End Elem.
