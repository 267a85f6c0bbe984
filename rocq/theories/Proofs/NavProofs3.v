(** C33 (versions) and C34 (options). *)
From Coq Require Import Lia.
From Verif.Model Require Import Base Num Geo Curve PropMap Types TypesSnap Track Route Navigator.
From Verif.Spec Require Import ListSpec TrackSpec RouteSpec NavSpec NumLaws.
From Verif.Proofs Require Import BaseLemmas RouteLemmas NavLemmas NavSteps NavProofs NavProofs2.
Open Scope num_scope.

Definition zs (l : list Z) : Z := fold_right Z.add 0%Z l.
Lemma zs_cons x l : zs (x :: l) = (x + zs l)%Z. Proof. reflexivity. Qed.
Lemma zs_nil : zs [] = 0%Z. Proof. reflexivity. Qed.
Local Arguments zs : simpl never.

Section L.
Context {T : Type} {N : Num T} {J : JsonLib T}.
Implicit Types n : navigator T.

Definition tsum (r : route T) : Z := zs (map tk_version (rt_tracks r)).

Lemma fold_zs {A} (f : A -> Z) l : forall a, fold_left (fun a x => a + f x)%Z l a = (a + zs (map f l))%Z.
Proof. induction l as [|x l IH]; intros a; cbn; [rewrite zs_nil; lia|]. rewrite IH, zs_cons. lia. Qed.

Lemma fold_zs2 (l : list (route T)) : forall b,
  fold_left (fun b r => fold_left (fun b t => b + tk_version t)%Z (rt_tracks r) b) l b =
  (b + zs (map tsum l))%Z.
Proof.
  induction l as [|r l IH]; intros b; cbn; [rewrite zs_nil; lia|]. rewrite IH, fold_zs, zs_cons. unfold tsum. lia.
Qed.

Lemma Sum_eq n : nav_Sum n = (n_ver n, zs (map rt_version (n_routes n)), zs (map tsum (n_routes n))).
Proof. unfold nav_Sum. rewrite fold_zs, fold_zs2. reflexivity. Qed.

Lemma zs_set_nth {A} (f : A -> Z) i x y l : nth_error l i = Some x ->
  zs (map f (set_nth i y l)) = (zs (map f l) - f x + f y)%Z.
Proof.
  revert i. induction l as [|z l IH]; intros [|i] H; cbn in *; try discriminate.
  - injection H as ->. rewrite !zs_cons. lia.
  - rewrite !zs_cons, IH by assumption. lia.
Qed.

Lemma route_op_version (r : route T) o :
  (rt_version (run_route r o) = rt_version r /\ tsum (run_route r o) = tsum r /\
   route_struct (run_route r o) = route_struct r) \/
  (rt_version r < rt_version (run_route r o))%Z \/
  (rt_version (run_route r o) = rt_version r /\ tsum r < tsum (run_route r o))%Z.
Proof.
  assert (Up : forall i f, (forall t, tk_version (f t) = tk_version t /\ track_struct (f t) = track_struct t) \/
      (forall t, tk_version t < tk_version (f t))%Z ->
    let r' := upd_track r i f in
    (rt_version r' = rt_version r /\ tsum r' = tsum r /\ route_struct r' = route_struct r) \/
    (rt_version r < rt_version r')%Z \/ (rt_version r' = rt_version r /\ tsum r < tsum r')%Z).
  { intros i f Hf. cbn zeta. unfold upd_track. destruct (nth_error (rt_tracks r) i) as [t|] eqn:E; [|auto].
    unfold tsum. cbn. rewrite (zs_set_nth tk_version i t) by assumption.
    destruct Hf as [Hf|Hf].
    - left. destruct (Hf t) as [H1 H2]. split; [reflexivity|]. split; [lia|].
      unfold route_struct. cbn. now rewrite (map_set_nth_same track_struct i t).
    - right. right. split; [reflexivity|]. specialize (Hf t). lia. }
  destruct o; cbn [run_route].
  - destruct t; cbn; [right; left; lia|auto].
  - unfold route_RemoveTrack. destruct (_ || _)%bool; [auto|].
    destruct (find_index _ _); cbn; [right; left; lia|auto].
  - unfold TrackByID. destruct (_ || _)%bool; [auto|].
    destruct (find _ _); cbn; [right; left; lia|auto].
  - unfold route_ChangeName. destruct (ParseName _); cbn; [right; left; lia|auto].
  - unfold route_ChangeColor. destruct hex; cbn; [right; left; lia|auto].
  - left. unfold route_Props. destruct (rt_props r); cbn; auto.
  - unfold track_ChangeName. destruct (ParseName name); apply Up; cbn; [right; intros; lia|left; auto].
  - unfold track_ChangeColor. destruct parsed; apply Up; cbn; [right; intros; lia|left; auto].
  - apply Up. left. intros t. unfold track_Props. destruct (tk_props t); auto.
Qed.

Lemma C33_step_proof n o n' : run_nav n o = Ret n' ->
  (nav_Sum n' = nav_Sum n /\ nav_struct n' = nav_struct n) \/ lex_lt (nav_Sum n) (nav_Sum n').
Proof.
  intros E. assert (Q : travels o \/ ~ travels o) by (destruct o; cbn; auto).
  rewrite !Sum_eq. destruct Q as [Q|Q].
  { left. unfold nav_struct.
    now rewrite (run_nav_stable _ stable_routes _ _ _ Q E), (run_nav_stable _ stable_ver _ _ _ Q E). }
  destruct o; cbn in Q; try tauto; cbn [run_nav] in E; injection E as <-.
  - destruct rs as [|x rs]; [now left|].
    destruct (C17_proof n (x :: rs)) as [_ G]. destruct G as (n' & G1 & G2 & G3 & G4); [discriminate|].
    rewrite G1. cbn [snd]. cbn zeta in *.
    destruct (fresh_routes (map rt_id (n_routes n)) (x :: rs)) eqn:F.
    + left. now rewrite G3.
    + right. destruct G4 as (_ & _ & _ & ->); [discriminate|]. left. lia.
  - unfold nav_ResetRoutes. destruct (n_routes n) eqn:F; [left; cbn; now rewrite F|right; left; cbn; lia].
  - destruct (C18_proof n id) as [(r & rest & _ & _ & _ & _ & n' & -> & _ & _ & _ & _ & G)|(_ & -> & _)].
    + right. left. cbn [snd]. lia.
    + now left.
  - unfold nav_RemoveTrack. destruct (_ || _)%bool; [now left|].
    destruct (find_index _ _) as [i|]; [|now left].
    destruct (nth_error _ i) as [x|]; [|now left].
    destruct (route_RemoveTrack x tid) as [[] x']; [|now left]. right. left. cbn. lia.
  - left. auto.
  - unfold nav_mutateRoute. destruct (nth_error _ i) as [x|] eqn:F; [|now left].
    cbn. rewrite (zs_set_nth rt_version i x), (zs_set_nth tsum i x) by assumption.
    destruct (route_op_version x o) as [(H1 & H2 & H3)|[H|[H1 H2]]].
    + left. rewrite H1, H2. split; [f_equal; [f_equal|]; lia|].
      unfold nav_struct. cbn. now rewrite (map_set_nth_same route_struct i x).
    + right. right. split; [reflexivity|]. left. lia.
    + right. right. split; [reflexivity|]. right. split; lia.
Qed.

Lemma lex_trans a b c : lex_lt a b -> lex_lt b c -> lex_lt a c.
Proof.
  destruct a as [[a1 a2] a3], b as [[b1 b2] b3], c as [[c1 c2] c3]. unfold lex_lt. lia.
Qed.
Lemma lex_irrefl a : ~ lex_lt a a.
Proof. destruct a as [[a1 a2] a3]. unfold lex_lt. lia. Qed.

Lemma C33_mono_proof ops : forall n n', run_navs n ops = Ret n' ->
  (nav_Sum n' = nav_Sum n /\ nav_struct n' = nav_struct n) \/ lex_lt (nav_Sum n) (nav_Sum n').
Proof.
  induction ops as [|o ops IH]; intros n n' E; cbn in E.
  - injection E as <-. auto.
  - destruct (run_nav n o) as [n1| |] eqn:F; cbn in E; try discriminate.
    apply IH in E. apply C33_step_proof in F.
    destruct E as [[E1 E2]|E], F as [[F1 F2]|F].
    + left. split; congruence.
    + right. congruence.
    + right. congruence.
    + right. eapply lex_trans; eauto.
Qed.

Lemma run_navs_app ops1 : forall ops2 n n', run_navs n (ops1 ++ ops2) = Ret n' ->
  exists m, run_navs n ops1 = Ret m /\ run_navs m ops2 = Ret n'.
Proof.
  induction ops1 as [|o ops1 IH]; intros ops2 n n' E; cbn in *.
  - eauto.
  - destruct (run_nav n o) as [n1| |]; cbn in *; try discriminate. eauto.
Qed.

Lemma C33_equal_proof ops1 ops2 n m n' :
  run_navs n ops1 = Ret m -> run_navs m ops2 = Ret n' -> nav_Sum n' = nav_Sum n ->
  nav_struct m = nav_struct n /\ nav_struct n' = nav_struct n.
Proof.
  intros E1 E2 H. apply C33_mono_proof in E1, E2.
  destruct E1 as [[E1 F1]|E1], E2 as [[E2 F2]|E2].
  - split; congruence.
  - rewrite H, E1 in E2. now apply lex_irrefl in E2.
  - rewrite <- H, E2 in E1. now apply lex_irrefl in E1.
  - exfalso. rewrite H in E2. eapply lex_irrefl, lex_trans; eauto.
Qed.

(** ** C34 *)

Lemma eff_options (opts : list (nav_option T)) : forall o,
  let o' := fold_left apply_option opts o in
  (o_minOff o', o_maxOff o') = eff_offline opts (o_minOff o, o_maxOff o) /\
  (o_elevMin o', o_elevMax o', o_elevAmp o') =
    eff_elevation opts (o_elevMin o, o_elevMax o, o_elevAmp o) /\
  o_skip o' = (o_skip o || existsb (fun x => match x with SkipOfflineMode => true | _ => false end) opts)%bool.
Proof.
  induction opts as [|[] opts IH]; intros o; cbn zeta; cbn [fold_left eff_offline eff_elevation existsb].
  - rewrite Bool.orb_false_r. auto.
  - specialize (IH (apply_option o SkipOfflineMode)). cbn zeta in IH. destruct IH as (-> & -> & ->).
    cbn. rewrite Bool.orb_true_r. auto.
  - apply (IH (apply_option o (WithElevation min max amplitude mode))).
  - apply (IH (apply_option o (WithOffline min max))).
Qed.

Lemma C34_proof (opts : list (nav_option T)) uuid draws :
  let '(mino, maxo) := eff_offline opts (1%Z, 10%Z) in
  let '(mine, maxe, amp) := eff_elevation opts (f1, fofZ 500, 4%Z) in
  ((exists e, navigator_New opts uuid draws = GErr e) <->
   ((mino < 0)%Z \/ (3600 < maxo)%Z \/ (mine <? f0) = true \/ (maxe >? fofZ 50000) = true \/
    (amp < 4)%Z \/ (512 < amp)%Z)) /\
  (forall n, navigator_New opts uuid draws = GOk n ->
     n_routes n = [] /\ rewound n /\ n_dist n = f0 /\ n_off n = 0%Z /\ n_ver n = 0%Z /\
     (n_skip n = true <-> In SkipOfflineMode opts)).
Proof.
  destruct (eff_offline opts (1%Z, 10%Z)) as [mino maxo] eqn:Eo.
  destruct (eff_elevation opts (f1, fofZ 500, 4%Z)) as [[mine maxe] amp] eqn:Ee.
  pose proof (eff_options opts defaultNavOptions) as H. cbn zeta in H.
  change (o_minOff defaultNavOptions, o_maxOff defaultNavOptions) with (1%Z, 10%Z) in H.
  change (o_elevMin defaultNavOptions, o_elevMax defaultNavOptions, o_elevAmp defaultNavOptions)
    with (f1, fofZ 500, 4%Z) in H.
  rewrite Eo, Ee in H. destruct H as (H1 & H2 & H3).
  split.
  - unfold navigator_New. set (o := fold_left _ _ _) in *.
    injection H1 as -> ->. injection H2 as -> -> ->.
    unfold validateOffline, validateElevation, NewSensor, validateAmplitude.
    destruct (Z.ltb_spec mino 0). { split; [auto|eauto]. }
    destruct (Z.ltb_spec 3600 maxo). { split; [auto|eauto]. }
    cbv zeta.
    match goal with |- context [if ?b then GOk ?x else GOk ?y] =>
      destruct (if b then GOk x else GOk y) as [[a b0]|] eqn:Q;
        [|destruct b; discriminate] end.
    clear Q.
    destruct (mine <? f0) eqn:M1. { split; [auto|eauto]. }
    destruct (maxe >? fofZ 50000) eqn:M2. { split; [auto 6|eauto]. }
    match goal with |- context [if ?b then GOk ?x else GOk ?y] =>
      destruct (if b then GOk x else GOk y) as [[a' b0']|] eqn:Q;
        [|destruct b; discriminate] end.
    clear Q.
    destruct (Z.ltb_spec amp 4). { split; [auto 8|eauto]. }
    destruct (Z.ltb_spec 512 amp). { split; [auto 8|eauto]. }
    cbn. split; [intros (e & He); discriminate|].
    intros [?|[?|[?|[?|[?|?]]]]]; try lia; discriminate.
  - intros n Hn. destruct (New_start _ _ _ _ Hn) as (A1 & A2 & A3 & A4 & A5 & _ & A6).
    repeat (split; [assumption|]). rewrite A6, H3. cbn. rewrite existsb_exists. split.
    + intros (x & Hx & Hb). now destruct x.
    + intros Hx. now exists SkipOfflineMode.
Qed.

End L.
