(** The simulation step of a device in relational form, and the navigator calls behind each call
    on a device. *)
From Coq Require Import Lia.
From Verif.Model Require Import Base Num Geo Curve PropMap Types Pb TypesSnap Track Route Navigator Device.
From Verif.Spec Require Import ListSpec TrackSpec RouteSpec NavSpec NumLaws TypesSpec DeviceSpec.
From Verif.Proofs Require Import BaseLemmas NavLemmas NavSteps NavProofs NavProofs2 NavProofs3 NavReal6.
Open Scope num_scope.

Section D.
Context {T : Type} {N : Num T} {J : JsonLib T} {U : UtmLib T}.
Implicit Types (d : device T) (n : navigator T).

(** ** touching properties *)


Lemma set_routes_id n : set_routes n (n_routes n) = n. Proof. now destruct n. Qed.
Lemma set_routes_twice n a b : set_routes (set_routes n a) b = set_routes n b. Proof. reflexivity. Qed.
Lemma setTracks_id (r : route T) : route_setTracks r (rt_tracks r) = r. Proof. now destruct r. Qed.
Lemma set_nth_id {A} i (x : A) l : nth_error l i = Some x -> set_nth i x l = l.
Proof. revert i. induction l; intros [|i]; cbn; auto; [congruence|]. intros H. now rewrite IHl. Qed.
Lemma set_nth_twice {A} i (x y : A) l : set_nth i x (set_nth i y l) = set_nth i x l.
Proof. revert i. induction l; intros [|i]; cbn; auto. now rewrite IHl. Qed.
Lemma nth_set_nth {A} i (x y : A) l : nth_error l i = Some y -> nth_error (set_nth i x l) i = Some x.
Proof. revert i. induction l; intros [|i]; cbn; auto; discriminate. Qed.
Lemma nth_app_here {A} (pre : list A) x post : nth_error (pre ++ x :: post) (List.length pre) = Some x.
Proof. induction pre; auto. Qed.

Lemma run_navs_cat l1 : forall l2 n m n', run_navs n l1 = Ret m -> run_navs m l2 = Ret n' ->
  run_navs n (l1 ++ l2) = Ret n'.
Proof.
  induction l1 as [|o l1 IH]; intros l2 n m n' H1 H2; cbn in *; [congruence|].
  destruct (run_nav n o) as [k| |]; cbn in *; try discriminate. eauto.
Qed.

Definition ttouch (t : track T) : track T := snd (track_Props t).

Lemma touch_tracks i post : forall pre n r, nth_error (n_routes n) i = Some r -> rt_tracks r = pre ++ post ->
  exists los, Forall quiet los /\
    run_navs n los = Ret (set_routes n (set_nth i (route_setTracks r (pre ++ map ttouch post)) (n_routes n))).
Proof.
  induction post as [|t post IH]; intros pre n r H1 H2; cbn [map].
  - exists []. split; [constructor|]. cbn. rewrite <- H2, setTracks_id, set_nth_id by assumption.
    now rewrite set_routes_id.
  - pose (r1 := route_setTracks r (pre ++ ttouch t :: post)).
    pose (n1 := set_routes n (set_nth i r1 (n_routes n))).
    destruct (IH (pre ++ [ttouch t]) n1 r1) as (los & L1 & L2).
    { apply nth_set_nth with (y := r). exact H1. }
    { cbn. now rewrite <- app_assoc. }
    exists (NRouteOp i (RTrackSetProps (List.length pre) (fst (track_Props t))) :: los).
    split; [constructor; [exact I|exact L1]|]. cbn [run_navs run_nav].
    assert (E : nav_mutateRoute n i (fun r => run_route r (RTrackSetProps (List.length pre) (fst (track_Props t)))) = n1).
    { unfold nav_mutateRoute. rewrite H1. unfold n1. do 2 f_equal. cbn [run_route]. unfold upd_track.
      rewrite H2, nth_app_here. unfold r1. f_equal. rewrite set_nth_app. do 2 f_equal.
      unfold ttouch, track_Props. now destruct t as [a b c e [p|] f g h]. }
    rewrite E. cbn [bind]. rewrite L2. f_equal. unfold n1, r1. cbn. rewrite set_nth_twice.
    unfold set_routes, route_setTracks. cbn. do 3 f_equal. now rewrite <- app_assoc.
Qed.

Lemma touch_route i n r : nth_error (n_routes n) i = Some r ->
  exists los, Forall quiet los /\
    run_navs n los = Ret (set_routes n (set_nth i (touch_props r) (n_routes n))).
Proof.
  intros H. pose (r1 := snd (route_Props r)). pose (n1 := set_routes n (set_nth i r1 (n_routes n))).
  destruct (touch_tracks i (rt_tracks r1) [] n1 r1) as (los & L1 & L2).
  { apply nth_set_nth with (y := r). exact H. }
  { reflexivity. }
  exists (NRouteOp i (RSetProps (fst (route_Props r))) :: los). split; [constructor; [exact I|exact L1]|].
  cbn [run_navs run_nav].
  assert (E : nav_mutateRoute n i (fun r0 => run_route r0 (RSetProps (fst (route_Props r)))) = n1).
  { unfold nav_mutateRoute. rewrite H. unfold n1. do 2 f_equal. unfold r1. cbn [run_route].
    unfold route_Props. now destruct r as [a b c e f [p|] g]. }
  rewrite E. cbn [bind]. rewrite L2. f_equal. unfold n1. cbn. now rewrite set_nth_twice.
Qed.

Lemma touch_all post : forall pre n, n_routes n = pre ++ post ->
  exists los, Forall quiet los /\ run_navs n los = Ret (set_routes n (pre ++ map touch_props post)).
Proof.
  induction post as [|r post IH]; intros pre n H; cbn [map].
  - exists []. split; [constructor|]. cbn. now rewrite <- H, set_routes_id.
  - destruct (touch_route (List.length pre) n r) as (l1 & A1 & A2).
    { rewrite H. apply nth_app_here. }
    rewrite H, set_nth_app in A2.
    destruct (IH (pre ++ [touch_props r]) (set_routes n (pre ++ touch_props r :: post))) as (l2 & B1 & B2).
    { cbn. now rewrite <- app_assoc. }
    exists (l1 ++ l2). split; [now apply Forall_app|].
    rewrite (run_navs_cat _ _ _ _ _ A2 B2). now rewrite set_routes_twice, <- app_assoc.
Qed.

Lemma updateRoutes_nav d d' : updateRoutes d = Ret d' ->
  exists los, Forall quiet los /\ run_navs (d_nav d) los = Ret (d_nav d').
Proof.
  unfold updateRoutes. destruct (pde_routes (d_state d)); [|discriminate]. cbn [deref bind].
  intros [= <-]. apply (touch_all (n_routes (d_nav d)) []). reflexivity.
Qed.

(** ** one simulation step *)

Lemma ns_eqb_spec a b : ns_eqb a b = true <-> a = b.
Proof.
  destruct a as [[a1 a2] a3], b as [[b1 b2] b3]. unfold ns_eqb.
  rewrite !andb_true_iff, !Z.eqb_eq. split; [intros [[-> ->] ->]; auto|intros [= -> -> ->]; auto].
Qed.

(** what a device is apart from navigator, speed, battery and state *)
Definition frame d : Z * list (sensor T) * T * (Z * Z * Z) := (d_status d, d_sensors d, d_avgT d, d_ns d).

(** the situation [d3] in which NextLocation is called, [t] being the curve parameter *)
Record next_begin d (seconds : T) (x : nextDraws T) (d3 : device T) (t : T) : Prop := {
  nb_frame : frame d3 = frame d;
  nb_tick : d_tick d3 = 0%Z;
  nb_bat : let b1 := battery_Next (d_battery d) seconds in
           d_battery d3 = if battery_IsLow b1 then battery_Reset b1 else b1;
  nb_nav : (if battery_IsLow (battery_Next (d_battery d) seconds)
            then ToOffline (d_nav d) (xd_low x) else Ret (d_nav d)) = Ret (d_nav d3);
  nb_t : t = fmin ((pde_duration (d_state d) + seconds + seconds) / d_avgT d) f1;
  nb_speed : speed_Next (d_speed d) t = Ret (d_speed d3);
  nb_state : d_state d3 = st_speed (st_time (d_state d) seconds (pde_duration (d_state d) + seconds))
                                   (speed_Value (d_speed d3)) }.

Inductive next_step d tick x (d3 : device T) (t : T) : bool -> device T -> Prop :=
| ns_wait n2 n3 :
    NextLocation (d_nav d3) (fofZ (d_tick d) + tick) (speed_Value (d_speed d3)) (xd_loc x) = Ret (false, n2) ->
    IsFinish n2 = (false, n3) ->
    next_step d tick x d3 t false (dset_nav (updateOfflineState (dset_nav d3 n2)) n3)
| ns_finish n2 n3 n4 d4 d' :
    NextLocation (d_nav d3) (fofZ (d_tick d) + tick) (speed_Value (d_speed d3)) (xd_loc x) = Ret (false, n2) ->
    IsFinish n2 = (true, n3) -> ShuffleElevation n3 (xd_elev x) = Ret n4 ->
    d_nav d4 = n4 -> d_sensors d4 = shuffle_sensors 0 (d_sensors d3) (xd_sens x) ->
    d_speed d4 = speed_Shuffle (d_speed d3) (xd_speed x) ->
    (d_status d4, d_battery d4, d_avgT d4, d_tick d4, d_ns d4) = (d_status d3, d_battery d3, d_avgT d3, d_tick d3, d_ns d3) ->
    d_state d4 = st_time (st_offline (d_state d3) (nav_IsOffline n2) (n_off n2)) (pde_tick (d_state d3)) f0 ->
    updateState d4 = Ret d' ->
    next_step d tick x d3 t false d'
| ns_move n2 n3 ss d4 d5 d' :
    NextLocation (d_nav d3) (fofZ (d_tick d) + tick) (speed_Value (d_speed d3)) (xd_loc x) = Ret (true, n2) ->
    NextElevation n2 t = Ret n3 -> mapM (fun s => sensor_Next s t) (d_sensors d) = Ret ss ->
    d4 = dset_sensors (dset_nav d3 n3) ss ->
    d5 = d4 /\ d_ns d = nav_Sum n3 \/ d_ns d <> nav_Sum n3 /\ updateRoutes d4 = Ret d5 ->
    updateState d5 = Ret d' ->
    next_step d tick x d3 t true d'.

Lemma next_begin_inv d s x d1 d2 d3 t : d1 = next_account d s -> next_lowBattery d1 x = Ret d2 ->
  t = nextT d2 s -> next_speed d2 t = Ret d3 -> next_begin d s x d3 t.
Proof.
  intros -> E2 -> E3. unfold next_speed in E3.
  assert (F : frame d2 = frame d /\ d_tick d2 = 0%Z /\ d_speed d2 = d_speed d /\
     d_state d2 = st_time (d_state d) s (pde_duration (d_state d) + s) /\
     (let b1 := battery_Next (d_battery d) s in d_battery d2 = if battery_IsLow b1 then battery_Reset b1 else b1) /\
     (if battery_IsLow (battery_Next (d_battery d) s)
            then ToOffline (d_nav d) (xd_low x) else Ret (d_nav d)) = Ret (d_nav d2)).
  { unfold next_lowBattery in E2. cbn [next_account d_battery dset_battery d_nav dset_state dset_tick] in E2.
    cbn zeta. destruct (battery_IsLow _).
    - destruct (ToOffline _ _) as [n| |]; cbn [bind] in E2; try discriminate. injection E2 as <-. repeat split.
    - injection E2 as <-. repeat split. }
  destruct F as (F1 & F2 & F3 & F4 & F5 & F6).
  assert (Et : nextT d2 s = fmin ((pde_duration (d_state d) + s + s) / d_avgT d) f1).
  { unfold nextT. rewrite F4. unfold frame in F1. injection F1 as _ _ -> _. reflexivity. }
  destruct (speed_Next (d_speed d2) (nextT d2 s)) as [sp| |] eqn:Es; cbn [bind] in E3; try discriminate.
  rewrite F3 in Es. injection E3 as <-. constructor; auto.
  cbn. now rewrite F4.
Qed.

Lemma Next_locked_inv d tick x b d' : n_routes (d_nav d) <> [] ->
  Next_locked d tick x = Ret (b, d') ->
  exists d3 t, next_begin d (fofZ (d_tick d) + tick) x d3 t /\ next_step d tick x d3 t b d'.
Proof.
  intros Hne. unfold Next_locked. destruct (n_routes (d_nav d)) eqn:Er; [contradiction|]. clear Er Hne.
  set (s := fofZ (d_tick d) + tick). cbn zeta.
  destruct (next_lowBattery _ x) as [d2| |] eqn:E2; cbn [bind]; try discriminate.
  destruct (next_speed d2 _) as [d3| |] eqn:E3; cbn [bind]; try discriminate.
  pose proof (next_begin_inv d s x _ d2 d3 _ eq_refl E2 eq_refl E3) as NB.
  set (t := nextT d2 s) in *. clearbody t.
  assert (Esp : pde_speed (d_state d3) = speed_Value (d_speed d3)) by (rewrite (nb_state _ _ _ _ _ NB); reflexivity).
  rewrite Esp.
  destruct (NextLocation (d_nav d3) s _ _) as [[ok n2]| |] eqn:En; cbn [bind]; try discriminate.
  intros E. exists d3, t. split; [exact NB|]. clear E2 E3.
  pose proof (nb_frame _ _ _ _ _ NB) as F. unfold frame in F. injection F as F1 F2 F3 F4.
  destruct ok.
  - unfold next_moved in E. cbn [dset_nav d_nav d_sensors] in E.
    destruct (NextElevation n2 t) as [n3| |] eqn:Ee; cbn [bind] in E; try discriminate.
    rewrite F2 in E.
    destruct (mapM _ (d_sensors d)) as [ss| |] eqn:Em; cbn [bind] in E; try discriminate.
    cbn [dset_nav dset_sensors d_nav d_ns] in E.
    set (d4 := dset_sensors (dset_nav d3 n3) ss).
    change (dset_sensors (dset_nav (dset_nav d3 n2) n3) ss) with d4 in E.
    destruct (if ns_eqb _ _ then Ret d4 else updateRoutes d4) as [d5| |] eqn:E5; cbn [bind] in E; try discriminate.
    destruct (updateState d5) as [d6| |] eqn:E6; cbn [bind] in E; try discriminate.
    injection E as <- <-. eapply ns_move with (d4 := d4); eauto.
    rewrite F4 in E5. pose proof (ns_eqb_spec (d_ns d) (nav_Sum n3)) as Q. destruct (ns_eqb _ _).
    + left. injection E5 as <-. split; [reflexivity|now apply Q].
    + right. split; [intros H; apply Q in H; discriminate|exact E5].
  - unfold next_stopped in E. change (d_nav (updateOfflineState (dset_nav d3 n2))) with n2 in E.
    destruct (IsFinish n2) as [fin n3] eqn:Ef. destruct fin.
    + cbn zeta in E. cbn [d_nav dset_nav dset_speed dset_state] in E.
      destruct (ShuffleElevation n3 (xd_elev x)) as [n4| |] eqn:Esh; cbn [bind] in E; try discriminate.
      destruct (updateState _) as [d6| |] eqn:E6; cbn [bind] in E; try discriminate.
      injection E as <- <-. eapply ns_finish; [exact En|exact Ef|exact Esh| | | | | |exact E6]; reflexivity.
    + injection E as <- <-. eapply ns_wait; eauto.
Qed.

End D.
