(** Reads inside the stream return its bytes. *)
From Coq Require Import ZArith List Bool Lia Permutation.
From Coq Require Import Strings.Byte.
From Verif Require Import GoLib GoLemmas BaseModel BaseSpec BaseProofs VariantModel StreamModel StreamSpec.
From Verif Require Import StreamProofs.
Import ListNotations.
Open Scope Z_scope.

Lemma gs_upto_fuel : forall s b, gs_upto s b <> OutOfFuel.
Proof. intros s b. unfold gs_upto, gs_range. destruct (_ && _); discriminate. Qed.
Lemma gs_upto3_fuel : forall s b c, gs_upto3 s b c <> OutOfFuel.
Proof. intros s b c. unfold gs_upto3. destruct (_ && _); discriminate. Qed.
Lemma gs_from_fuel : forall s b, gs_from s b <> OutOfFuel.
Proof. intros s b. unfold gs_from. destruct (_ && _); discriminate. Qed.

Lemma slice_grow : forall m off s t p a n, gs_upto s n = Ok t -> slice_of_image m off (sl_data s) ->
  0 <= a <= gs_len s -> a <= n -> slice_of_image m (off + a) p -> a + zlen p = n ->
  slice_of_image m off (sl_data (gs_put t a p)).
Proof.
  intros m off s t p a n U S Ha Hn P L. apply gs_upto_inv in U. destruct U as (U1 & U2 & U3 & U4).
  cbn [gs_put sl_data]. unfold gs_len in *. apply slice_put; try lia; [|exact P].
  intros k Hk. rewrite zlen_zfirst in Hk. rewrite zget_zfirst, U3, zget_app.
  replace (k <? a) with true by lia. replace (k <? n) with true by lia.
  replace (k <? zlen (sl_data s)) with true by lia. apply S. lia.
Qed.

Lemma load_buf_agrees : forall f srt s eof b offset size, keeps srt -> agrees s b ->
  0 <= offset -> 0 <= size -> offset + size <= zlen s ->
  loaded s b (load_buf (S (S f)) srt (Random s eof) b offset size) (Random s eof).
Proof.
  intros f srt s eof b offset size K A Ho Hs L. pose proof A as [A1 A2]. cbn [load_buf].
  pose proof (gs_len_nonneg (b_bytes b)) as BN.
  destruct ((offset + size <=? gs_cap (b_bytes b)) && (gs_len (b_bytes b) <? offset + size)) eqn:C.
  - destruct (gs_upto (b_bytes b) (offset + size)) as [e| |] eqn:U; cbn [bind];
      [|exact I|destruct (gs_upto_fuel _ _ U)].
    destruct (read_full s eof (offset + size - gs_len (b_bytes b)) (gs_len (b_bytes b))
      ltac:(lia) ltac:(lia) ltac:(lia)) as (d & err & R & Ld & Sd & Ee & _).
    rewrite R.
    assert (G : slice_of_image (img_bytes s) 0 (sl_data (gs_put e (gs_len (b_bytes b)) d))).
    { eapply slice_grow; [exact U|exact A1|lia|lia|exact Sd|lia]. }
    destruct (0 <? zlen d).
    + destruct (gs_upto (gs_put e _ d) _) as [t| |] eqn:U2; cbn [bind]; [|exact I|destruct (gs_upto_fuel _ _ U2)].
      cbn [loaded]. split; [reflexivity|]. split; [|split; [reflexivity|exact Ee]]. split; [|exact A2].
      cbn [set_bytes b_bytes]. pose proof (gs_upto_inv _ _ _ U) as (V1 & V2 & V3 & V4).
      apply gs_upto_inv in U2. destruct U2 as (W1 & W2 & W3 & W4).
      intros k Hk. unfold gs_len in W2. rewrite W3. rewrite zget_app.
      cbn [gs_put sl_data sl_spare] in *. unfold gs_len in *. rewrite zlen_copy_at in * by lia.
      replace (k <? zlen (sl_data (b_bytes b)) + zlen d) with true by lia.
      replace (k <? zlen (sl_data e)) with true by lia. apply G. rewrite zlen_copy_at by lia. lia.
    + cbn [bind loaded]. split; [reflexivity|]. split; [|split; [reflexivity|exact Ee]]. split; [exact G|exact A2].
  - destruct (gs_upto3 (b_bytes b) (gs_len (b_bytes b)) (gs_len (b_bytes b))) as [sb| |] eqn:U; cbn [bind];
      [|exact I|destruct (gs_upto3_fuel _ _ _ U)].
    apply gs_upto3_inv in U. destruct U as (U1 & U2 & U3 & U4 & U5).
    assert (Ab : agrees s (set_bytes b sb)).
    { split; [|exact A2]. cbn [set_bytes b_bytes]. rewrite U5. apply slice_first; [exact A1|unfold gs_len; lia]. }
    change (b_rdiffs (set_bytes b sb)) with (b_rdiffs b).
    set (sm := match last_index (fun d : diff => d_off d <=? offset) (b_rdiffs b) with
               | Some n => match nth_error (b_rdiffs b) n with Some d => Some (n, d) | None => None end
               | None => None end).
    assert (SM : match sm with Some (n, d) => nth_error (b_rdiffs b) n = Some d | None => True end).
    { unfold sm. destruct (last_index _ _) as [n|]; [|exact I]. destruct (nth_error (b_rdiffs b) n) eqn:N; auto. }
    set (rc := match sm with
       | Some (_, d) => match match sm with Some (n, _) => nth_error (b_rdiffs b) (S n) | None => nth_error (b_rdiffs b) 0 end with
                        | Some x => (Z.min size (d_off x - d_off d), d_off x - offset)
                        | None => (size, 0) end
       | None => match match sm with Some (n, _) => nth_error (b_rdiffs b) (S n) | None => nth_error (b_rdiffs b) 0 end with
                        | Some x => (Z.min size (d_off x - offset), 0)
                        | None => (size, 0) end
       end).
    assert (RC : fst rc <= size).
    { unfold rc. clear. destruct sm as [[n d]|].
      - destruct (nth_error _ _); cbn [fst]; lia.
      - destruct (nth_error _ _); cbn [fst]; lia. }
    destruct rc as [rq cl] eqn:RCE. cbn [fst] in RC.
    destruct sm as [[n d]|].
    2:{ apply (load_new_agrees f srt s eof (set_bytes b sb)); auto. }
    assert (Cd : cached s d).
    { rewrite Forall_forall in A2. apply A2. eapply nth_error_In; eauto. }
    destruct Cd as [D1 D2].
    destruct (Z.leb_spec (offset + rq) (d_off d + gs_cap (d_sl d))) as [E|E].
    + destruct (gs_upto (d_sl d) _) as [sl| |] eqn:V; cbn [bind]; [|exact I|destruct (gs_upto_fuel _ _ V)].
      destruct (gs_from sl _) as [t| |] eqn:T; cbn [bind]; [|exact I|destruct (gs_from_fuel _ _ T)].
      pose proof (gs_upto_inv _ _ _ V) as (V1 & V2 & V3 & V4).
      pose proof (gs_from_inv _ _ _ T) as (T1 & T2 & T3).
      replace (d_len d + (offset + rq - (d_len d + d_off d))) with (offset + rq - d_off d) in * by lia.
      replace (d_len d + d_off d - d_off d) with (d_len d) in * by lia.
      pose proof (d_len_nonneg d) as DN.
      destruct (read_full s eof (gs_len t) (d_len d + d_off d)) as (p & err & R & Lp & Sp & Ee & _); [lia|lia|lia|].
      rewrite R.
      assert (G : slice_of_image (img_bytes s) (d_off d) (sl_data (gs_put sl (d_len d) p))).
      { eapply slice_grow; [exact V|exact D2|unfold d_len; unfold d_len in DN; lia|lia| |lia].
        replace (d_off d + d_len d) with (d_len d + d_off d) by lia. exact Sp. }
      replace ((zlen p <? gs_len t) && (0 <? zlen p)) with false by lia. cbn [bind].
      assert (AG : agrees s (set_rdiffs (set_bytes b sb)
        (set_nth (b_rdiffs b) n (mkDiff (d_off d) (gs_put sl (d_len d) p))))).
      { split; [exact (proj1 Ab)|]. cbn [set_rdiffs b_rdiffs]. apply Forall_set_nth; [exact A2|]. split; auto. }
      destruct err as [| | |o z|]; try (destruct Ee; discriminate); cbn [bind loaded];
        (split; [reflexivity|split; [exact AG|split; [reflexivity|auto]]]).
    + destruct ((offset <=? d_off d + gs_cap (d_sl d)) && (d_off d + d_len d <=? offset)) eqn:E2.
      * destruct (gs_upto3 (d_sl d) _ _) as [sl| |] eqn:V; cbn [bind]; [|exact I|destruct (gs_upto3_fuel _ _ _ V)].
        apply gs_upto3_inv in V. destruct V as (V1 & V2 & V3 & V4 & V5).
        match goal with |- loaded s b (load_new _ _ ?bb _ _ _ _ _) _ =>
          pose proof (load_new_agrees f srt s eof bb offset size rq cl K) as LN end.
        unfold loaded in *. destruct (load_new _ _ _ _ _ _ _ _) as [[[b' src'] e]| |];
          apply LN; auto; (split; [exact (proj1 Ab)|]); cbn [set_rdiffs b_rdiffs]; apply Forall_set_nth; auto;
          (split; [exact D1|]); unfold d_data; cbn [d_sl d_off]; rewrite V5;
          (apply slice_first; [exact D2|unfold d_len, gs_len; lia]).
      * cbn [bind]. apply (load_new_agrees f srt s eof (set_bytes b sb)); auto.
Qed.

(** The slice a read returns, without a journal. *)
Lemma reader_agrees : forall f srt s eof b off req, keeps srt -> agrees s b ->
  0 <= off -> 0 <= req -> off + req <= zlen s ->
  match reader_r (S (S f)) srt (b, Random s eof) off req with
  | Ok (x, r) => snd x = Random s eof /\ agrees s (fst x) /\ b_diffs (fst x) = b_diffs b /\
      slice_of_image (img_bytes s) off (opt_data r)
  | Panic => True
  | OutOfFuel => False
  end.
Proof.
  intros f srt s eof b off req K A Ho Hr L. unfold reader_r.
  assert (RD : forall b' n d sl, agrees s b' -> nth_error (b_rdiffs b') n = Some d ->
    gs_from (d_sl d) (off - d_off d) = Ok sl -> slice_of_image (img_bytes s) off (sl_data sl)).
  { intros b' n d sl [_ A2] N G. apply gs_from_inv in G. destruct G as (G1 & _ & G3). rewrite G3.
    rewrite Forall_forall in A2. destruct (A2 d (nth_error_In _ _ N)) as [D1 D2].
    pose proof (slice_skip _ _ _ (off - d_off d) ltac:(lia) D2) as Q.
    replace (d_off d + (off - d_off d)) with off in Q by lia. exact Q. }
  assert (BY : forall b' sl, agrees s b' -> gs_from (b_bytes b') off = Ok sl ->
    slice_of_image (img_bytes s) off (sl_data sl)).
  { intros b' sl [A1 _] G. apply gs_from_inv in G. destruct G as (G1 & _ & G3). rewrite G3.
    exact (slice_skip _ 0 _ off ltac:(lia) A1). }
  destruct (last_index (rcovers off req) (b_rdiffs b)) as [n|] eqn:LI.
  - destruct (nth_error (b_rdiffs b) n) as [d|] eqn:N; [|exact I].
    destruct (gs_from (d_sl d) (off - d_off d)) as [sl| |] eqn:G; cbn [bind];
      [|exact I|destruct (gs_from_fuel _ _ G)].
    cbn [fst snd opt_data]. split; [reflexivity|]. split; [exact A|]. split; [reflexivity|].
    eapply RD; eauto.
  - destruct (Z.ltb_spec (gs_len (b_bytes b)) (off + req)).
    + pose proof (load_buf_agrees f srt s eof b off req K A Ho Hr L) as LB. unfold loaded in LB.
      destruct (load_buf (S (S f)) srt (Random s eof) b off req) as [[[b' src'] e]| |]; cbn [bind]; [|exact I|exact LB].
      destruct LB as (-> & A' & Df & _). cbn [fst].
      destruct (off + Z.max 1 req <=? gs_len (b_bytes b')).
      * destruct (gs_from (b_bytes b') off) as [sl| |] eqn:G; cbn [bind]; [|exact I|destruct (gs_from_fuel _ _ G)].
        cbn [fst snd opt_data]. split; [reflexivity|]. split; [exact A'|]. split; [exact Df|]. eapply BY; eauto.
      * destruct (is_none e).
        -- destruct (last_index (covers off) (b_rdiffs b')) as [n|]; [|exact I].
           destruct (nth_error (b_rdiffs b') n) as [d|] eqn:N; [|exact I].
           destruct (gs_from (d_sl d) (off - d_off d)) as [sl| |] eqn:G; cbn [bind];
             [|exact I|destruct (gs_from_fuel _ _ G)].
           cbn [fst snd opt_data]. split; [reflexivity|]. split; [exact A'|]. split; [exact Df|]. eapply RD; eauto.
        -- cbn [fst snd opt_data]. split; [reflexivity|]. split; [exact A'|]. split; [exact Df|].
           intros k Hk. unfold zlen in Hk. cbn in Hk. lia.
    + destruct (gs_from (b_bytes b) off) as [sl| |] eqn:G; cbn [bind]; [|exact I|destruct (gs_from_fuel _ _ G)].
      cbn [fst snd opt_data]. split; [reflexivity|]. split; [exact A|]. split; [reflexivity|]. eapply BY; eauto.
Qed.
