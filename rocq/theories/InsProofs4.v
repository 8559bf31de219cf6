(** Owners and numbers of visits: every visit comes after that of its owner, and
    its number counts the earlier visits of the same owner. *)
From Coq Require Import ZArith List Bool Lia String.
From Verif Require Import GoLib BaseModel GoLemmas BaseSpec TableModel TableSpec NameModel NameSpec.
From Verif Require Import WalkModel WalkSpec WalkProofs WalkProofs2 WalkProofs3 WalkProofs5 WalkProofs9.
From Verif Require Import InsModel InsSpec InsProofs InsProofs2.
Import ListNotations.
Open Scope list_scope.
Open Scope Z_scope.

(** ** Values whose parts come after their owners *)

Inductive spread : val -> Prop :=
| Sp_absent : forall t, spread (Absent t)
| Sp_scalar : forall p w, spread (Scalar p w)
| Sp_scalars : forall p k w, 0 < p -> spread (Scalars p k w)
| Sp_tab : forall name p fs, 0 <= p ->
    (forall f, In f fs -> is_absent f = true \/ p < val_pos f) ->
    (forall f, In f fs -> spread f) -> spread (Tab name p fs)
| Sp_tabs : forall name q es, 0 < q -> (forall e, In e es -> q < val_pos e /\ exists tn p fs, e = Tab tn p fs) ->
    (forall e, In e es -> spread e) -> spread (Tabs name q es).

Lemma stored_spread : forall b s,
  let m := img_bytes (sl_data (b_bytes b)) in
  (forall name p v, stored_table m s name p v -> insertable v -> spread v) /\
  (forall p prev tys es fs, stored_fields m s p prev tys es fs -> 0 <= p -> Forall insertable fs ->
     forall f, In f fs -> spread f /\ (is_absent f = true \/ p < val_pos f)) /\
  (forall p prev t e v, stored_field m s p prev t e v -> 0 <= p -> insertable v ->
     spread v /\ (is_absent v = true \/ p < val_pos v)) /\
  (forall slot tn vs, stored_elems m s slot tn vs -> 0 <= slot -> Forall insertable vs ->
     forall v, In v vs -> spread v /\ slot < val_pos v /\ exists tn p fs, v = Tab tn p fs).
Proof.
  intros b s m.
  assert (TAB : forall tn q v slot, stored_table m s tn q v -> points_to m slot q -> slot < val_pos v /\ exists tn p fs, v = Tab tn p fs).
  { intros tn q v slot H (H1 & _). destruct (stored_pos b s _ _ _ H) as (_ & E & tys & fs & -> & _). cbn [val_pos]. split; [lia|eauto]. }
  apply stored_mind; try (intros; split; [constructor|left; reflexivity]).
  - intros name p soff es tl tys fs _ T _ _ IH HT. inversion HT; subst.
    pose proof (pos_entry b _ _ _ _ T) as P. constructor; auto; intros f Hf; apply IH; auto.
  - intros p prev _ _ f [].
  - intros p prev t tys e es v vs _ IH1 _ IH2 P HT f Hf. inversion HT; subst.
    destruct Hf as [<-|Hf]; [apply IH1; auto|apply IH2; auto].
  - intros. split; [constructor|]. right. cbn [val_pos]. lia.
  - intros p prev sn ms e _ _ _ HT. inversion HT.
  - intros p prev t e q k He ((H1 & _) & _) _ P _. split; [constructor; lia|]. right. cbn [val_pos]. lia.
  - intros p prev sn ms e q k _ _ _ _ HT. inversion HT.
  - intros p prev tn e q v He HP HS IH P HT. split; [auto|]. right. destruct (TAB _ _ _ _ HS HP). lia.
  - intros p prev tn e q vs He ((H1 & H2) & _) HS IH P HT. inversion HT as [| | | | | | |? ? ? M]; subst.
    split; [|right; cbn [val_pos]; lia].
    constructor; [lia| |]; intros x Hx; destruct (IH ltac:(lia) M x Hx) as (A & B & C); auto.
  - intros p us e x k tn q v He _ _ HP HS IH P HT. split; [auto|]. right. destruct (TAB _ _ _ _ HS HP). lia.
  - intros slot tn _ _ v [].
  - intros slot tn q v vs HP HS IH1 _ IH2 P HT w Hw. inversion HT; subst. destruct Hw as [<-|Hw].
    + split; [auto|]. exact (TAB _ _ _ _ HS HP).
    + destruct (IH2 ltac:(lia) ltac:(assumption) w Hw) as (A & B & C). repeat split; auto; lia.
Qed.

(** ** Starts *)

Definition nonself (x : sighting) : bool := negb (place_of x =? owner_of x).

Lemma map_filter_concat : forall A B (f : A -> B) (g : A -> bool) (l : list (list A)),
  map f (filter g (List.concat l)) = List.concat (map (fun x => map f (filter g x)) l).
Proof.
  intros A B f g l. induction l as [|x l IH]; [reflexivity|]. cbn [List.concat map]. rewrite filter_app, map_app, IH. reflexivity.
Qed.

Lemma sight_cons : forall p i q z l, p < q ->
  map place_of (filter (fun x => negb (place_of x =? owner_of x)) ((p, i, q, z) :: l)) =
  q :: map place_of (filter (fun x => negb (place_of x =? owner_of x)) l).
Proof.
  intros p i q z l H. cbn [filter].
  replace (place_of (p, i, q, z) =? owner_of (p, i, q, z)) with false by (unfold place_of, owner_of; cbn [fst snd]; lia).
  reflexivity.
Qed.

Lemma starts_tab : forall name p fs, (forall f, In f fs -> is_absent f = true \/ p < val_pos f) ->
  (forall f, In f fs -> spread f) ->
  starts (Tab name p fs) = p :: flat_map (fun f => if is_absent f then [] else starts f) fs.
Proof.
  intros name p fs H HS. unfold starts at 1. cbn [val_pos]. f_equal. rewrite sightings_tab, map_filter_concat.
  unfold numbered. rewrite map_map, flat_map_concat_map. f_equal. generalize 0 as i.
  induction fs as [|f fs IH]; intros i; [reflexivity|]. cbn [number map fst snd]. f_equal.
  - pose proof (H f (or_introl eq_refl)) as Hf. specialize (HS f (or_introl eq_refl)).
    destruct f; cbn [is_absent] in *; try (exfalso; inversion HS; fail); [reflexivity| | | |];
      destruct Hf as [Hf|Hf]; try discriminate; cbn [field_sights val_pos] in *;
      rewrite sight_cons by exact Hf; reflexivity.
  - apply IH; intros g Hg; [apply H|apply HS]; right; exact Hg.
Qed.

Lemma starts_tabs : forall name q es, (forall e, In e es -> q < val_pos e) ->
  starts (Tabs name q es) = q :: flat_map starts es.
Proof.
  intros name q es H. unfold starts at 1. cbn [val_pos]. f_equal. rewrite sightings_tabs, map_filter_concat.
  unfold numbered. rewrite map_map, flat_map_concat_map. f_equal. generalize 0 as i.
  induction es as [|f fs IH]; intros i; [reflexivity|]. cbn [number map fst snd]. f_equal.
  - specialize (H f (or_introl eq_refl)). rewrite sight_cons by exact H. reflexivity.
  - apply IH. intros g Hg. apply H. right; exact Hg.
Qed.

Lemma starts_pos : forall v, In (val_pos v) (starts v).
Proof. intros. left. reflexivity. Qed.

(** ** Owners of visits *)

Section Grown.
Variable n : names.
Variable m : image.

Definition real (w : bond) : bool := negb (w_place w =? w_owner w).

Definition grown (S : list (cnode * Z)) (bs : list bond) : Prop :=
  forall l1 w l2, bs = l1 ++ w :: l2 ->
    In (w_tree w, w_owner w) (S ++ map (fun x => (w_child x, w_place x)) (filter real l1)).

Lemma grown_nil : forall S, grown S [].
Proof. intros S l1 w l2 H. destruct l1; discriminate. Qed.

Lemma grown_incl : forall S S' bs, incl S S' -> grown S bs -> grown S' bs.
Proof.
  intros S S' bs HI H l1 w l2 E. specialize (H l1 w l2 E). apply in_app_or in H. apply in_or_app.
  destruct H as [H|H]; [left; apply HI; exact H|right; exact H].
Qed.

Lemma grown_app : forall S a b, grown S a -> grown S b -> grown S (a ++ b).
Proof.
  intros S a b HA HB l1 w l2 E.
  revert a HA E. revert S HB. induction l1 as [|x l1 IH]; intros S HB a HA E.
  - destruct a as [|y a].
    + cbn in E. exact (HB [] w l2 E).
    + cbn in E. injection E as -> E. exact (HA [] w a eq_refl).
  - destruct a as [|y a].
    + cbn in E. exact (HB (x :: l1) w l2 E).
    + cbn in E. injection E as -> E.
      assert (HA' : grown (S ++ (if real x then [(w_child x, w_place x)] else [])) a).
      { intros k1 u k2 EU. specialize (HA (x :: k1) u k2). cbn [filter] in HA. rewrite <- app_assoc.
        destruct (real x); cbn [map app] in *; apply HA; rewrite EU; reflexivity. }
      specialize (IH (S ++ (if real x then [(w_child x, w_place x)] else []))
        (grown_incl _ _ _ (incl_appl _ (incl_refl _)) HB) a HA' E).
      cbn [filter]. rewrite <- app_assoc in IH. destruct (real x); exact IH.
Qed.

Lemma grown_cons : forall S w bs, In (w_tree w, w_owner w) S -> real w = true ->
  grown ((w_child w, w_place w) :: S) bs -> grown S (w :: bs).
Proof.
  intros S w bs HI HR H l1 u l2 E. destruct l1 as [|x l1].
  - injection E as <- _. apply in_or_app. left. exact HI.
  - injection E as <- E. specialize (H l1 u l2 E). cbn [filter]. rewrite HR. cbn [map].
    cbn [app] in H. apply in_or_app. destruct H as [H|H]; [right; left; exact H|].
    apply in_app_or in H. destruct H; [left|right; right]; assumption.
Qed.

Lemma grown_all : forall S bs, (forall w, In w bs -> In (w_tree w, w_owner w) S) -> grown S bs.
Proof.
  intros S bs H l1 w l2 E. apply in_or_app. left. apply H. rewrite E. apply in_elt.
Qed.

Lemma grown_ranked : forall (g : Z -> Z -> val -> list bond) S fs i r,
  (forall f i r, In f fs -> grown S (g i r f)) -> grown S (List.concat (ranked g i r fs)).
Proof.
  intros g S fs. induction fs as [|f fs IH]; intros i r H; [apply grown_nil|].
  cbn [ranked List.concat]. apply grown_app; [apply H; left; reflexivity|].
  apply IH. intros. apply H. right. assumption.
Qed.

Lemma grown_numbered : forall (g : Z -> val -> list bond) S fs,
  (forall f i, In f fs -> grown S (g i f)) -> grown S (List.concat (numbered g fs)).
Proof.
  intros g S fs. unfold numbered. generalize 0 as i. induction fs as [|f fs IH]; intros i H; [apply grown_nil|].
  cbn [number map fst snd List.concat]. apply grown_app; [apply H; left; reflexivity|].
  apply IH. intros. apply H. right. assumption.
Qed.

Lemma bonds_grown : forall v, spread v -> forall tc c S, In (tc, val_pos v) S -> grown S (bonds n m tc c v).
Proof.
  intros v H. induction H as [t|p w|p k w P|name p fs P HP HS IH|name q es P HP HS IH]; intros tc c S HI;
    try apply grown_nil.
  - rewrite bonds_tab. apply grown_ranked. intros f i r Hf. cbn [val_pos] in HI.
    specialize (IH f Hf). pose proof (HP f Hf) as HA. specialize (HS f Hf). unfold field_bonds.
    assert (RE : forall cn z l, is_absent f = false -> real (mkB tc c i cn p (val_pos f) z r l) = true).
    { intros cn z l E. destruct HA as [HA|HA]; [congruence|]. unfold real. cbn [w_place w_owner].
      replace (val_pos f =? p) with false by lia. reflexivity. }
    destruct f as [t|q w|q ms|q k w|q k ms|tn q gs|tn q gs]; try (apply grown_nil);
      [destruct t; try apply grown_nil; apply grown_all; intros w' [<-|[]]; exact HI|..];
      (apply grown_cons; [exact HI|apply RE; reflexivity|]).
    + apply grown_nil.
    + destruct (w =? 1); [apply grown_nil|]. apply grown_all. unfold elem_bonds. intros w' Hw.
      apply in_map_iff in Hw. destruct Hw as (iq & <- & _). left. reflexivity.
    + apply IH. left. reflexivity.
    + apply IH. left. reflexivity.
  - rewrite bonds_tabs. apply grown_numbered. intros e i He. cbn [val_pos] in HI. unfold elem_bond.
    apply grown_cons; [exact HI| |].
    + unfold real. cbn [w_place w_owner]. destruct (HP e He) as [HE _]. replace (val_pos e =? q) with false by lia. reflexivity.
    + apply IH; [exact He|]. left. reflexivity.
Qed.

(** The sightings and the visits agree; an absent number is visited at its
    owner's place. *)
Definition apart (x : Z * Z) : bool := negb (snd x =? fst x).
Definition ends (w : bond) : Z * Z := (w_owner w, w_place w).
Definition sight_ends (x : sighting) : Z * Z := (owner_of x, place_of x).

Lemma bonds_places : forall v, spread v -> forall tc c,
  filter apart (map ends (bonds n m tc c v)) =
  filter apart (map sight_ends (match v with Scalars _ _ _ => [] | _ => sightings v end)).
Proof.
  intros v H. induction H as [t|p w|p k w P|name p fs P HP HS IH|name q es P HP HS IH]; intros tc c; try reflexivity.
  - rewrite bonds_tab, sightings_tab. unfold numbered. clear HP P. revert IH HS. generalize 0 at 1 3 as i. generalize 0 as r.
    induction fs as [|f fs IHf]; intros r i IH HS; [reflexivity|]. cbn [ranked number map List.concat fst snd].
    rewrite !map_app, !filter_app, IHf; [|intros; apply IH; right; assumption|intros; apply HS; right; assumption]. f_equal.
    specialize (IH f (or_introl eq_refl)). specialize (HS f (or_introl eq_refl)). unfold field_bonds.
    destruct f as [t|q w|q ms|q k w|q k ms|tn q gs|tn q gs]; try reflexivity; try (exfalso; inversion HS; fail).
    + destruct t; try reflexivity. cbn [map ends w_owner w_place filter]. unfold apart, ends. cbn [fst snd w_owner w_place].
      rewrite Z.eqb_refl. reflexivity.
    + cbn [map field_sights val_pos]. change (ends (mkB ?a ?b ?c ?d p q ?e ?f ?g)) with (p, q).
      change (sight_ends (p, i, q, if w =? 1 then k else -1)) with (p, q).
      replace (map ends (if w =? 1 then [] else elem_bonds n (field_node n (field_type_name n c i) p (Scalars q k w)) q k w))
        with (map sight_ends (sightings (Scalars q k w))); [reflexivity|].
      cbn [sightings]. destruct (w =? 1); [reflexivity|]. unfold elem_bonds. rewrite !map_map. apply map_ext. reflexivity.
    + cbn [map field_sights val_pos filter]. rewrite IH. reflexivity.
    + cbn [map field_sights val_pos filter]. rewrite IH. reflexivity.
  - rewrite bonds_tabs, sightings_tabs. unfold numbered. clear P. revert IH HP. generalize 0 as i.
    induction es as [|f fs IHf]; intros i IH HP; [reflexivity|]. cbn [number map List.concat fst snd].
    rewrite !map_app, !filter_app, IHf; [|intros; apply HS; right; assumption|intros; apply IH; right; assumption|intros; apply HP; right; assumption].
    f_equal. unfold elem_bond. cbn [map filter].
    rewrite IH by (left; reflexivity). destruct (HP f (or_introl eq_refl)) as (_ & tn & p & gs & ->). reflexivity.
Qed.

Lemma bonds_starts : forall v, spread v -> (forall p k w, v <> Scalars p k w) -> forall tc c,
  starts v = val_pos v :: map w_place (filter real (bonds n m tc c v)).
Proof.
  intros v H HN tc c. unfold starts. f_equal. pose proof (bonds_places v H tc c) as E.
  assert (A : forall l, map w_place (filter real l) = map snd (filter apart (map ends l))).
  { induction l as [|w l IH]; [reflexivity|]. cbn [map filter]. change (apart (ends w)) with (real w).
    destruct (real w); cbn [map]; rewrite IH; reflexivity. }
  assert (B : forall l, map place_of (filter (fun x => negb (place_of x =? owner_of x)) l) = map snd (filter apart (map sight_ends l))).
  { induction l as [|w l IH]; [reflexivity|]. cbn [map filter]. change (apart (sight_ends w)) with (negb (place_of w =? owner_of w)).
    destruct (negb (place_of w =? owner_of w)); cbn [map]; rewrite IH; reflexivity. }
  rewrite A, B, E. destruct v; try reflexivity. exfalso. eapply HN; reflexivity.
Qed.

End Grown.
