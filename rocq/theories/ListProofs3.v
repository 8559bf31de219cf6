(** Vectors of inline elements built with SetAt. *)
From Coq Require Import ZArith List Bool Lia.
From Coq Require Import Strings.Byte.
From Verif Require Import GoLib BaseModel GoLemmas BaseSpec BaseProofs BaseProofs2 BaseProofs3.
From Verif Require Import TableModel TableSpec TableProofs TableProofs2 ListModel ListSpec ListProofs ListProofs2.
Import ListNotations.
Open Scope Z_scope.

Lemma at_total : forall k l n s i, list_vlen l = Ok n -> fixed_size k = Some s ->
  exists r, list_at k l i = Ok r.
Proof.
  intros k l n s i HV HS. destruct (Z_lt_dec i 0).
  { rewrite (at_outside k l n i HV) by lia. eauto. }
  destruct (Z_le_dec n i).
  { rewrite (at_outside k l n i HV) by lia. eauto. }
  rewrite (at_fixed k l n s i HV HS) by lia. eauto.
Qed.

Lemma select_total : forall k l n s f is, list_vlen l = Ok n -> fixed_size k = Some s ->
  exists r, select_loop k l f is = Ok r.
Proof.
  intros k l n s f is HV HS. induction is as [|i is IH]; cbn [select_loop]; [eauto|].
  destruct (at_total k l n s i HV HS) as [r ->]. cbn [bind]. destruct IH as [rest ->]. cbn [bind].
  destruct r; eauto.
Qed.

Lemma max_pos_total : forall k b s ps i best pos, fixed_size k = Some s ->
  exists r, max_pos_loop k b ps i best pos = Ok (Some r).
Proof.
  intros k b s. induction ps as [|p ps IH]; intros i best pos HS; cbn [max_pos_loop]; [eauto|].
  assert (E : elem_info k b p = Ok (Some s)) by (destruct k; cbn in *; congruence).
  rewrite E. cbn [bind]. destruct (_ || _); apply IH; auto.
Qed.

Lemma info_slice_fixed : forall k l n s, fixed_size k = Some s -> list_vlen l = Ok n ->
  exists z, info_slice k l = Ok (Some (l_pos l, n, z)).
Proof.
  intros k l n s HS HV. unfold info_slice.
  assert (E : exists v, match k with
          | EBasic n => Ok (Some (l_pos l, l_vlen l * n))
          | _ =>
              do e <- list_last k l;
              do v <- match e with
                      | Some p => do s <- elem_info k (l_io l) p;
                                  Ok (option_map (fun s => (p, s)) s)
                      | None => Ok (Some (0, 0))
                      end;
              do m <- index_on_max_pos k l;
              match m with
              | None => Ok None
              | Some i =>
                  do e2 <- list_at k l i;
                  do _ <- match e2 with
                          | Some p => elem_info k (l_io l) p
                          | None => Ok None
                          end;
                  Ok v
              end
          end = Ok (Some v)).
  { destruct k as [m|m|ks]; [eauto| |discriminate].
    unfold list_last, index_on_max_pos, list_all, list_select. rewrite HV. cbn [bind].
    destruct (at_total (EStruct m) l n s (n - 1) HV HS) as [r ->]. cbn [bind].
    destruct (select_total (EStruct m) l n s (fun _ => true) (zseq (l_vlen l)) HV HS) as [ps ->].
    cbn [bind].
    destruct (max_pos_total (EStruct m) (l_io l) s ps 0 (-1) 0 HS) as [i Ei].
    destruct (at_total (EStruct m) l n s i HV HS) as [r2 E2].
    destruct r; cbn [bind elem_info option_map]; rewrite Ei; cbn [bind]; rewrite E2; cbn [bind];
      destruct r2; cbn [bind]; eauto. }
  destruct E as [[vp vs] ->]. cbn [bind]. rewrite HV. cbn [bind]. eauto.
Qed.

Lemma vlen_total_fixed : forall k l n s, fixed_size k = Some s -> list_vlen l = Ok n -> l_vlen l = n ->
  exists l1, vlen_total k l = Ok (Some l1) /\ l_io l1 = l_io l /\ l_pos l1 = l_pos l /\ l_vlen l1 = n.
Proof.
  intros k l n s HS HV HN. unfold vlen_total.
  destruct (_ || _).
  - destruct (info_slice_fixed k l n s HS HV) as [z ->]. cbn [bind option_map set_info l_vlen l_io l_npos l_pos].
    eexists; split; [reflexivity|]. destruct (n =? 0) eqn:E; cbn; repeat split; lia.
  - cbn [bind]. eexists; split; [reflexivity|]. destruct (l_vlen l =? 0) eqn:E; cbn; repeat split; auto; lia.
Qed.

Lemma copy_append : forall b src sp p dst ext, delivers src sp p -> 1 <= zlen p ->
  gs_len (b_bytes b) <= dst -> (ext = 0 \/ Forall (fun d => d_off d < dst) (b_diffs b)) ->
  exists s, base_copy b src sp (zlen p) dst ext = Ok (set_diffs b (b_diffs b ++ [mkDiff dst s])) /\
    sl_data s = p.
Proof.
  intros b src sp p dst ext HD Hp Hdst HX. destruct HX as [->|HX]; [apply copy_beyond; auto|].
  unfold base_copy.
  destruct (dst <? gs_len (b_bytes b)) eqn:E; [lia|]. cbn [bind].
  assert (EM : map (fun d => if dst <=? d_off d then mkDiff (d_off d + ext) (d_sl d) else d) (b_diffs b) = b_diffs b).
  { rewrite <- (map_id (b_diffs b)) at 2. apply map_ext_in. intros d Hd. rewrite Forall_forall in HX.
    specialize (HX d Hd). replace (dst <=? d_off d) with false by lia. reflexivity. }
  rewrite EM.
  destruct (copy_loop_one src sp p dst (b_diffs b) HD Hp) as (s & -> & HS). cbn [bind].
  exists s. auto.
Qed.

Section Fixed.
Variables (k : ekind) (size : Z).
Hypothesis HS : fixed_size k = Some size.
Hypothesis Hsize : 1 <= size.

Record finv (l : lnode) (vals : list (list byte)) : Prop := {
  fi_mem : in_memory (l_io l);
  fi_bytes : gs_len (b_bytes (l_io l)) = 4;
  fi_pos : l_pos l = 4;
  fi_vlen : l_vlen l = zlen vals;
  fi_max : zlen vals < 4294967296;
  fi_count : delivers (l_io l) 0 (le_encode 4 (zlen vals));
  fi_shape : Forall (fun d => (d_off d = 0 /\ d_len d = 4) \/ 4 <= d_off d < 4 + zlen vals * size)
               (b_diffs (l_io l));
  fi_cells : forall i p, zget vals i = Some p -> zlen p = size /\ delivers (l_io l) (4 + i * size) p
}.

Lemma finv_init : finv init_list nil.
Proof.
  constructor; try reflexivity.
  - split; [reflexivity|constructor].
  - exists (gs_of (zeros 4)). vm_compute. repeat split; congruence.
  - constructor.
  - intros i p H. rewrite zget_nil in H. discriminate.
Qed.

Lemma finv_count : forall l vals, finv l vals -> list_vlen l = Ok (zlen vals).
Proof.
  intros l vals I. unfold list_vlen. rewrite (fi_pos _ _ I). replace (4 - 4) with 0 by lia.
  rewrite (rd_delivers 4 (l_io l) 0 (zlen vals) ltac:(lia) (fi_count _ _ I)).
  f_equal. pose proof (fi_max _ _ I). pose proof (zlen_nonneg vals).
  change (256 ^ Z.of_nat 4) with 4294967296. apply Z.mod_small. lia.
Qed.

Lemma finv_read : forall l vals i, finv l vals -> read_elem k l i size = Ok (zget vals i).
Proof.
  intros l vals i I. unfold read_elem. pose proof (finv_count l vals I) as HV.
  destruct (zget vals i) as [p|] eqn:E.
  - pose proof (zget_some_range _ _ _ E) as R.
    rewrite (at_fixed k l _ size i HV HS R). cbn [bind]. rewrite (fi_pos _ _ I).
    destruct (fi_cells _ _ I i p E) as [HL (s & ER & _ & HF)]. rewrite HL in ER, HF.
    rewrite ER. cbn [bind opt_data]. rewrite HF. reflexivity.
  - apply zget_none_range in E. rewrite (at_outside k l _ i HV) by lia. reflexivity.
Qed.

Lemma zget_store : forall A (vals : list A) i p q, 0 <= i <= zlen vals ->
  zget (store vals i p) q = if q =? i then Some p else zget vals q.
Proof.
  intros A vals i p q H. unfold store. destruct (i =? zlen vals) eqn:E.
  - rewrite zget_app, zget_cons. destruct (q <? zlen vals) eqn:Q1.
    + replace (q =? i) with false by lia. reflexivity.
    + destruct (q =? i) eqn:Q2.
      * replace (q - zlen vals =? 0) with true by lia. reflexivity.
      * replace (q - zlen vals =? 0) with false by lia. rewrite zget_nil. rewrite zget_ge by lia. reflexivity.
  - apply zget_put. lia.
Qed.

Lemma zlen_store : forall A (vals : list A) i p, 0 <= i <= zlen vals ->
  zlen (store vals i p) = if i =? zlen vals then zlen vals + 1 else zlen vals.
Proof.
  intros A vals i p H. unfold store. destruct (i =? zlen vals) eqn:E.
  - rewrite zlen_app. change (zlen [p]) with 1. reflexivity.
  - apply zlen_put. lia.
Qed.

Lemma refresh_fixed : forall l n, list_vlen l = Ok n ->
  exists z, refresh k l = Ok (LOk (mkL (l_io l) (l_npos l) (l_pos l) n z)).
Proof.
  intros l n HV. unfold refresh. destruct (info_slice_fixed k l n size HS HV) as [z ->]. cbn [bind].
  exists z. reflexivity.
Qed.

Lemma finv_step : forall l vals i src sp p, finv l vals -> 0 <= i <= zlen vals ->
  delivers src sp p -> zlen p = size -> zlen vals < 4294967295 ->
  exists l', set_struct_at k l i src sp size = Ok (LOk l') /\ finv l' (store vals i p).
Proof.
  intros l vals i src sp p I Hi HD HL HM. pose proof I as [I1 I2 I3 I4 I5 I6 I7 I8].
  pose proof (zlen_nonneg vals) as HN.
  unfold set_struct_at. replace (l_vlen l <? i) with false by lia.
  destruct (vlen_total_fixed k l (zlen vals) size HS (finv_count l vals I) I4) as (l1 & -> & E1 & E2 & E3).
  cbn [bind]. rewrite E2, E3, I3.
  rewrite E1. set (b := l_io l) in *.
  destruct (copy_append b src sp p (4 + i * size) (if zlen vals =? i then size else 0) HD ltac:(lia) ltac:(nia))
    as (s & EC & ES).
  { destruct (zlen vals =? i) eqn:X; [right|left; reflexivity].
    eapply Forall_impl; [|exact I7]. cbv beta. intros d Hd. nia. }
  rewrite HL in EC. rewrite EC. cbn [bind].
  set (b1 := set_diffs b (b_diffs b ++ [mkDiff (4 + i * size) s])).
  assert (M1 : in_memory b1).
  { destruct I1 as [X Y]. split; [exact X|]. unfold b1; cbn [set_diffs b_diffs].
    apply Forall_app; split; [exact Y|]. constructor; [|constructor]. cbn [d_off]. nia. }
  assert (D1 : delivers b1 (4 + i * size) p).
  { apply delivers_served; auto; [nia|lia|]. apply served_last; auto; lia. }
  assert (F1 : forall c q, 0 <= c -> 1 <= zlen q -> (c + zlen q <= 4 + i * size \/ 4 + i * size + size <= c) ->
            delivers b c q -> delivers b1 c q).
  { intros c q Hc Hq HC H. apply delivers_served; auto. apply delivers_served in H; auto.
    unfold b1; cbn [set_diffs b_diffs b_bytes]. apply served_app; auto. unfold misses.
    unfold d_len, gs_len; cbn [d_off d_sl]. rewrite ES. lia. }
  assert (CELL : forall b' , in_memory b' -> b_bytes b' = b_bytes b ->
     (forall c q, 0 <= c -> 1 <= zlen q -> 4 <= c -> delivers b1 c q -> delivers b' c q) ->
     forall q v, zget (store vals i p) q = Some v -> zlen v = size /\ delivers b' (4 + q * size) v).
  { intros b' _ _ HF q v Hq. rewrite zget_store in Hq by auto. destruct (q =? i) eqn:Q.
    - injection Hq as <-. split; [exact HL|]. replace q with i by lia. apply HF; auto; nia.
    - pose proof (zget_some_range _ _ _ Hq) as R. destruct (I8 q v Hq) as [L8 D8]. split; [exact L8|].
      apply HF; try nia. apply F1; try nia. exact D8. }
  assert (SH1 : Forall (fun d => (d_off d = 0 /\ d_len d = 4) \/ 4 <= d_off d < 4 + zlen (store vals i p) * size)
               (b_diffs b1)).
  { unfold b1; cbn [set_diffs b_diffs]. rewrite zlen_store by auto. apply Forall_app; split.
    - eapply Forall_impl; [|exact I7]. cbv beta. intros d Hd. destruct (i =? zlen vals); nia.
    - constructor; [|constructor]. cbn [d_off]. destruct (i =? zlen vals) eqn:X; nia. }
  destruct (zlen vals =? i) eqn:X.
  - assert (HST : zlen (store vals i p) = zlen vals + 1) by (rewrite zlen_store by auto; replace (i =? zlen vals) with true by lia; reflexivity).
    replace (4 - 4) with 0 by lia.
    assert (HU : u32 (zlen vals + 1) = zlen vals + 1).
    { unfold u32. change (2 ^ 32) with 4294967296. apply Z.mod_small. lia. }
    rewrite HU.
    assert (Z4 : zlen (le_encode 4 (zlen vals + 1)) = 4) by apply zlen_le_encode.
    destruct (base_u_cell b1 0 (le_encode 4 (zlen vals + 1)) ltac:(lia) ltac:(lia)) as (ex & EU & HEX).
    { intros d Hd HC. rewrite Forall_forall in SH1. specialize (SH1 d Hd). unfold covers in HC. lia. }
    destruct (u_delivers b1 0 (le_encode 4 (zlen vals + 1)) M1 ltac:(lia) ltac:(lia))
      as (b2 & EU2 & M2 & B2 & _ & D2 & F2).
    rewrite Z4 in *. rewrite EU2 in EU |- *. cbn [bind]. injection EU as EU.
    assert (B2' : b_bytes b2 = b_bytes b) by (rewrite B2; reflexivity).
    assert (HV2 : list_vlen (set_io l1 b2) = Ok (zlen vals + 1)).
    { unfold list_vlen. cbn [set_io l_io l_pos]. rewrite E2, I3. replace (4 - 4) with 0 by lia.
      rewrite (rd_delivers 4 b2 0 (zlen vals + 1) ltac:(lia) D2). f_equal.
      change (256 ^ Z.of_nat 4) with 4294967296. apply Z.mod_small. lia. }
    destruct (refresh_fixed _ _ HV2) as [z ->]. eexists; split; [reflexivity|].
    constructor; cbn [l_io l_pos l_vlen set_io]; auto; try lia.
    + rewrite B2'. exact I2.
    + rewrite HST. exact D2.
    + rewrite EU. cbn [set_diffs b_diffs]. apply Forall_app; split; [exact SH1|].
      apply Forall_app; split; [|constructor; [|constructor]].
      * eapply Forall_impl; [|exact HEX]. cbv beta. intros d Hd. left; lia.
      * left. cbn [d_off]. split; [reflexivity|]. exact Z4.
  - cbn [bind].
    assert (HST : zlen (store vals i p) = zlen vals) by (rewrite zlen_store by auto; replace (i =? zlen vals) with false by lia; reflexivity).
    assert (D0 : delivers b1 0 (le_encode 4 (zlen vals))).
    { apply F1; auto; rewrite ?zlen_le_encode; try lia. }
    assert (HV2 : list_vlen (set_io l1 b1) = Ok (zlen vals)).
    { unfold list_vlen. cbn [set_io l_io l_pos]. rewrite E2, I3. replace (4 - 4) with 0 by lia.
      rewrite (rd_delivers 4 b1 0 (zlen vals) ltac:(lia) D0). f_equal.
      change (256 ^ Z.of_nat 4) with 4294967296. apply Z.mod_small. lia. }
    destruct (refresh_fixed _ _ HV2) as [z ->]. eexists; split; [reflexivity|].
    constructor; cbn [l_io l_pos l_vlen set_io]; auto; try lia.
    + rewrite HST. exact D0.
Qed.

Lemma finv_run : forall ops l vals, finv l vals -> sets_ok size (zlen vals) ops ->
  zlen vals + zlen ops < 4294967296 ->
  exists l', run_sets k l (map fst ops) = Ok (LOk l') /\
    finv l' (fold_left (fun vals '(i, _, _, p) => store vals i p) ops vals).
Proof.
  induction ops as [|[[[i src] sp] p] ops IH]; intros l vals I HO HM; cbn [map fst run_sets fold_left].
  - exists l. auto.
  - cbn [sets_ok] in HO. destruct HO as (Hi & HD & HL & HO).
    rewrite zlen_cons in HM. pose proof (zlen_nonneg ops).
    destruct (finv_step l vals i src sp p I Hi HD HL ltac:(lia)) as (l' & E & I').
    assert (ES : set_at k l i src sp (-1) = Ok (LOk l')).
    { unfold set_at. change (-1 <=? 0) with true. destruct k as [m|m|ks]; cbn in HS; try discriminate;
        injection HS as ->; exact E. }
    rewrite ES. cbn [bind]. apply IH; auto.
    + rewrite zlen_store by auto. exact HO.
    + rewrite zlen_store by auto. destruct (i =? zlen vals); lia.
Qed.

End Fixed.

Lemma built_list : forall k size ops, fixed_size k = Some size -> 1 <= size ->
  sets_ok size 0 ops -> zlen ops < 2 ^ 32 ->
  exists l, run_sets k init_list (map fst ops) = Ok (LOk l) /\
    list_vlen l = Ok (zlen (final_list ops)) /\ l_vlen l = zlen (final_list ops) /\
    forall i, read_elem k l i size = Ok (zget (final_list ops) i).
Proof.
  intros k size ops HS Hz HO HM. change (2 ^ 32) with 4294967296 in HM.
  destruct (finv_run k size HS Hz ops init_list nil (finv_init size) HO ltac:(rewrite zlen_nil; lia))
    as (l & E & I).
  exists l. split; [exact E|]. split; [apply (finv_count size); exact I|].
  split; [apply (fi_vlen _ _ _ I)|]. intros i. apply finv_read; auto.
Qed.
