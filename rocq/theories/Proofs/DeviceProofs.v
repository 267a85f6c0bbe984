(** Device: invariants, no panics, time, published state. *)
From Coq Require Import Lia.
From Verif.Model Require Import Base Num Geo Curve PropMap Types Pb TypesSnap Track Route Navigator Device.
From Verif.Spec Require Import ListSpec TrackSpec RouteSpec NavSpec NumLaws TypesSpec DeviceSpec.
From Verif.Proofs Require Import BaseLemmas NavLemmas NavSteps NavProofs NavProofs2 NavProofs3 NavReal6 DeviceLemmas.
Open Scope num_scope.

Section D.
Context {T : Type} {N : Num T} {J : JsonLib T} {U : UtmLib T}.
Implicit Types (d : device T) (n : navigator T).

(** ** updateState *)

Definition state_ok (st : pbDevice T) : Prop :=
  pde_battery st <> None /\ pde_routes st <> None /\ pde_distance st <> None /\ pde_navigator st <> None /\
  exists l, pde_location st = Some l /\ pdl_utm l <> None /\ pdl_lat_dms l <> None /\ pdl_lon_dms l <> None.

Definition entries_match d : Prop :=
  map (fun e => (pdn_id e, pdn_name e)) (pde_sensors (d_state d)) = map (fun s => (s_id s, s_name s)) (d_sensors d).

(** what updateState leaves alone in the message *)
Definition ident (st : pbDevice T) :=
  (pde_id st, pde_user_id st, (pde_tick st, pde_duration st), pde_model st, pde_speed st, pde_routes st,
   pde_description st, pde_color st).

Lemma refresh_match (l : list (sensor T)) : forall st,
  map (fun e => (pdn_id e, pdn_name e)) st = map (fun s => (s_id s, s_name s)) l ->
  refresh_sensors l st = map sensor_entry l.
Proof.
  induction l as [|s l IH]; intros [|e st] H; cbn in *; try discriminate; auto.
  injection H as H1 H2 H3. rewrite IH by assumption. unfold sensor_entry. now rewrite H1, H2.
Qed.

Lemma nav_Update_inv n st st' : nav_Update n st = Ret st' ->
  ident st' = ident st /\ pde_battery st' = pde_battery st /\ pde_sensors st' = pde_sensors st /\
  pde_is_offline st' = nav_IsOffline n /\ pde_offline_duration st' = n_off n /\
  (exists v, pde_navigator st' = Some v /\
     (pdv_current_route_index v, pdv_current_track_index v, pdv_current_segment_index v) = position n /\
     exists r t, CurrentRoute n = Ret r /\ CurrentTrack n = Ret t /\
       shown (fun _ => True) (pdv_current_route_id v) (option_map rt_id r) /\
       shown (fun _ => True) (pdv_current_track_id v) (option_map tk_id t)) /\
  (exists x, pde_distance st' = Some x /\
     pdd_distance x = n_dist n /\ pdd_current_distance x = n_cd n /\
     RouteDistance n = Ret (pdd_route_distance x) /\ pdd_current_route_distance x = n_crd n /\
     TrackDistance n = Ret (pdd_track_distance x) /\ pdd_current_track_distance x = n_ctd n /\
     SegmentDistance n = Ret (pdd_segment_distance x) /\ pdd_current_segment_distance x = n_csd n) /\
  (exists l e, pde_location st' = Some l /\ n_elev n = Some e /\
     (pdl_lat l, pdl_lon l) = (lat (n_point n), lon (n_point n)) /\ pdl_elevation l = s_valY e /\
     CurrentBearing n = Ret (pdl_bearing l) /\
     pdl_lat_dms l = Some (dms_of (lat (n_point n)) "N" "S") /\
     pdl_lon_dms l = Some (dms_of (lon (n_point n)) "E" "W") /\
     pdl_utm l = Some (utm_of (lat (n_point n)) (lon (n_point n)))).
Proof.
  unfold nav_Update. cbn zeta.
  destruct (RouteDistance n) as [rd| |]; cbn [bind]; try discriminate.
  destruct (TrackDistance n) as [td| |]; cbn [bind]; try discriminate.
  destruct (SegmentDistance n) as [sd| |]; cbn [bind]; try discriminate.
  destruct (pde_navigator (normalizeDeviceState st)) as [v|] eqn:Ev; cbn [deref bind]; try discriminate.
  destruct (CurrentRoute n) as [r| |] eqn:Er; cbn [bind]; try discriminate.
  destruct (CurrentTrack n) as [t| |] eqn:Et; cbn [bind]; try discriminate.
  destruct (pde_location (normalizeDeviceState st)) as [l|]; cbn [deref bind]; try discriminate.
  destruct (CurrentBearing n) as [br| |]; cbn [bind]; try discriminate.
  destruct (n_elev n) as [e|]; cbn [deref bind]; try discriminate.
  destruct (pdl_utm l); cbn [deref bind]; try discriminate.
  destruct (pdl_lat_dms l); cbn [deref bind]; try discriminate.
  destruct (pdl_lon_dms l); cbn [deref bind]; try discriminate.
  intros [= <-]. cbn. repeat split.
  - eexists. split; [reflexivity|]. split; [reflexivity|]. exists r, t. repeat split; cbn; auto.
    + destruct r; cbn; auto.
    + destruct t; cbn; auto.
  - eexists. split; [reflexivity|]. repeat split.
  - eexists. exists e. repeat split.
Qed.

Record refreshed d d' : Prop := {
  rf_same : d' = dset_state d (d_state d');
  rf_ident : ident (d_state d') = ident (d_state d);
  rf_nav : navigator_published d';
  rf_ids : ids_published (fun _ => True) d';
  rf_bat : battery_published d';
  rf_sens : entries_match d -> sensors_published d' }.

Lemma updateState_inv d d' : updateState d = Ret d' -> refreshed d d'.
Proof.
  unfold updateState. destruct (nav_Update _ _) as [st| |] eqn:En; cbn [bind]; try discriminate.
  apply nav_Update_inv in En. destruct En as (A1 & A2 & A3 & A4 & A5 & A6 & A7 & A8).
  destruct (pde_battery st) as [b|] eqn:Eb; cbn [deref bind]; try discriminate.
  destruct (pde_distance st) as [x|] eqn:Ex; cbn [deref bind]; try discriminate.
  set (bb := mkPbDBattery _ _).
  assert (Q : forall l, navigator_published (dset_state d (st_sensors (st_battery st (Some bb) (pdd_distance x / pde_speed st)) l)) /\
     ids_published (fun _ => True) (dset_state d (st_sensors (st_battery st (Some bb) (pdd_distance x / pde_speed st)) l)) /\
     battery_published (dset_state d (st_sensors (st_battery st (Some bb) (pdd_distance x / pde_speed st)) l))).
  { intros l. split; [|split].
    - destruct A6 as (v & V1 & V2 & _). destruct A7 as (y & Y). destruct A8 as (l0 & e & L).
      split; [exists v; split; [exact V1|exact V2]|]. split; [exists y; cbn; rewrite Ex; exact Y|].
      split; [exists l0, e; exact L|]. split; [exact A4|exact A5].
    - destruct A6 as (v & V1 & _ & r & t & R1 & R2 & R3 & R4). exists v, r, t. cbn. auto.
    - exists bb. split; reflexivity. }
  cbv zeta. destruct (_ =? _)%Z eqn:El; intros [= <-].
  - destruct (Q (refresh_sensors (d_sensors d) (pde_sensors st))) as (Q1 & Q2 & Q3).
    constructor; auto.
    intros M. unfold sensors_published. cbn. apply refresh_match. unfold entries_match in M.
    now rewrite A3.
  - destruct (Q (map (fun s => mkPbDSensor (s_id s) (s_name s) (s_valX s) (s_valY s)) (d_sensors d))) as (Q1 & Q2 & Q3).
    constructor; auto.
    intros M. reflexivity.
Qed.

Lemma refreshed_ok d d' : refreshed d d' -> state_ok (d_state d) -> state_ok (d_state d').
Proof.
  intros H (_ & K & _). destruct (rf_nav _ _ H) as ((v & V & _) & (x & X & _) & (l & e & L & _ & _ & _ & _ & L1 & L2 & L3) & _).
  destruct (rf_bat _ _ H) as (b & B & _). pose proof (rf_ident _ _ H) as Q. unfold ident in Q.
  injection Q as _ _ _ _ _ _ Q _ _. unfold state_ok. rewrite V, X, B, Q.
  repeat split; try discriminate; auto. exists l. rewrite L1, L2, L3. repeat split; auto; discriminate.
Qed.

Lemma refreshed_entries d d' : refreshed d d' -> entries_match d -> entries_match d'.
Proof.
  intros H K. pose proof (rf_sens _ _ H K) as S1. unfold entries_match. rewrite S1.
  rewrite map_map. reflexivity.
Qed.

Lemma updateState_total d : nav_wf (d_nav d) -> state_ok (d_state d) -> exists d', updateState d = Ret d'.
Proof.
  intros W (K1 & K2 & K3 & K4 & l & K5 & K6 & K7 & K8). unfold updateState.
  assert (exists st, nav_Update (d_nav d) (d_state d) = Ret st) as (st & E).
  { unfold nav_Update, normalizeDeviceState. cbn.
    unfold CurrentBearing, RouteDistance, TrackDistance, SegmentDistance.
    pose proof (wf_idx _ W) as Hi.
    rewrite CurrentRoute_pure, CurrentTrack_pure, CurrentSegment_pure by assumption. cbn.
    rewrite K5. destruct (pde_navigator (d_state d)); [|contradiction]. cbn.
    destruct (wf_elev _ W) as (e & -> & _). cbn.
    destruct (pdl_utm l), (pdl_lat_dms l), (pdl_lon_dms l); try contradiction. cbn. eauto. }
  rewrite E. cbn [bind]. apply nav_Update_inv in E.
  destruct E as (_ & Eb & _ & _ & _ & _ & (x & Ex & _) & _). rewrite Eb, Ex.
  destruct (pde_battery (d_state d)); [|contradiction]. cbn [deref bind].
  cbv zeta. destruct (_ =? _)%Z; eauto.
Qed.

(** ** the invariant *)

(** a constant speed has no use for its curve *)
Definition speed_usable (s : speed T) : Prop := speed_isStatic s = true \/ cv_points (sp_gen s) <> [].

Record dev_ok d : Prop := {
  dk_nav : nav_wf (d_nav d);
  dk_state : state_ok (d_state d);
  dk_speed : speed_usable (d_speed d);
  dk_sens : Forall (fun s => cv_points (s_gen s) <> []) (d_sensors d);
  dk_entries : entries_match d }.

Lemma updateState_ok d : dev_ok d -> exists d', updateState d = Ret d' /\ dev_ok d'.
Proof.
  intros H. destruct (updateState_total d (dk_nav _ H) (dk_state _ H)) as (d' & E).
  exists d'. split; [exact E|]. apply updateState_inv in E. pose proof (rf_same _ _ E) as Q.
  constructor.
  - rewrite Q. apply H.
  - eapply refreshed_ok; [exact E|apply H].
  - rewrite Q. apply H.
  - rewrite Q. apply H.
  - eapply refreshed_entries; [exact E|apply H].
Qed.

Lemma touch_id (r : route T) : rt_id (touch_props r) = rt_id r.
Proof. unfold touch_props, route_Props. now destruct (rt_props r). Qed.

Lemma updateRoutes_ok d : dev_ok d -> exists d', updateRoutes d = Ret d' /\ dev_ok d'.
Proof.
  intros H. unfold updateRoutes. destruct (dk_state _ H) as (K1 & K2 & K3 & K4 & K5).
  destruct (pde_routes (d_state d)); [|contradiction]. cbn [deref bind].
  eexists. split; [reflexivity|]. constructor; try apply H.
  - destruct (dk_nav _ H) as [W1 W2 W3]. constructor; auto. destruct W1 as [W1|W1]; cbn.
    + left. cbn. now rewrite W1.
    + right. cbn. unfold zlen in *. now rewrite map_length.
  - cbn. repeat split; try assumption; try discriminate.
Qed.

Lemma updateSensors_ok d : nav_wf (d_nav d) -> state_ok (d_state d) -> speed_usable (d_speed d) ->
  Forall (fun s => cv_points (s_gen s) <> []) (d_sensors d) -> dev_ok (updateSensors d).
Proof.
  intros H1 H2 H3 H4. constructor; auto. unfold entries_match, updateSensors. cbn. rewrite map_map. reflexivity.
Qed.

Lemma dset_nav_ok d n : dev_ok d -> nav_wf n -> dev_ok (dset_nav d n).
Proof. intros H W. constructor; try apply H. exact W. Qed.

Lemma speed_Next_ok (s : speed T) t : speed_usable s -> exists s', speed_Next s t = Ret s' /\ speed_usable s'.
Proof.
  intros H. unfold speed_Next. destruct (speed_isStatic s) eqn:E; [eauto|].
  destruct H as [H|H]; [congruence|].
  destruct (curve_Point_ok (sp_gen s) t H) as (p & c & -> & Hc). cbn. eexists. split; [reflexivity|]. now right.
Qed.

Lemma speed_Shuffle_ok (s : speed T) dr : speed_usable s -> speed_usable (speed_Shuffle s dr).
Proof. intros [H|H]; [left; exact H|right; cbn; now apply curve_Shuffle_ok]. Qed.

Lemma sensor_Next_ok (s : sensor T) t : cv_points (s_gen s) <> [] ->
  exists s', sensor_Next s t = Ret s' /\ cv_points (s_gen s') <> [] /\ s_id s' = s_id s /\ s_name s' = s_name s.
Proof.
  intros H. unfold sensor_Next.
  destruct (curve_Point_ok (s_gen s) t H) as (p & c & -> & Hc). cbn. eexists. split; [reflexivity|]. auto.
Qed.

Lemma sensors_Next_ok t (l : list (sensor T)) : Forall (fun s => cv_points (s_gen s) <> []) l ->
  exists l', mapM (fun s => sensor_Next s t) l = Ret l' /\ Forall (fun s => cv_points (s_gen s) <> []) l' /\
    map (fun s => (s_id s, s_name s)) l' = map (fun s => (s_id s, s_name s)) l.
Proof.
  induction 1 as [|s l H Hl (l' & E1 & E2 & E3)]; cbn.
  - eexists. split; [reflexivity|]. split; [constructor|reflexivity].
  - destruct (sensor_Next_ok s t H) as (s' & -> & Hs & Hi & Hn). cbn. rewrite E1. cbn.
    eexists. split; [reflexivity|]. split; [now constructor|]. cbn. now rewrite Hi, Hn, E3.
Qed.

Lemma shuffle_sensors_ok dr (l : list (sensor T)) : forall i, Forall (fun s => cv_points (s_gen s) <> []) l ->
  Forall (fun s => cv_points (s_gen s) <> []) (shuffle_sensors i l dr) /\
  map (fun s => (s_id s, s_name s)) (shuffle_sensors i l dr) = map (fun s => (s_id s, s_name s)) l.
Proof.
  induction l as [|s l IH]; intros i H; cbn.
  - split; constructor.
  - inversion H; subst. destruct (IH (S i)) as [A B]; [assumption|]. split; [constructor; [|exact A]|now rewrite B].
    now apply curve_Shuffle_ok.
Qed.

Lemma next_stopped_ok d x : dev_ok d -> exists b d', next_stopped d x = Ret (b, d') /\ dev_ok d'.
Proof.
  intros H. unfold next_stopped. pose proof (IsFinish_wf (d_nav d) (dk_nav _ H)) as W.
  change (d_nav (updateOfflineState d)) with (d_nav d).
  destruct (IsFinish (d_nav d)) as [fin n]. cbn [snd] in W.
  assert (H1 : dev_ok (dset_nav (updateOfflineState d) n)) by (constructor; [exact W|apply H..]).
  set (d1 := dset_nav (updateOfflineState d) n) in *. clearbody d1. clear H W.
  destruct fin; [|eauto]. cbv zeta.
  set (d2 := dset_speed _ _).
  assert (H2 : dev_ok d2).
  { constructor; try apply H1. cbn. apply speed_Shuffle_ok, H1. }
  destruct (ShuffleElevation_wf (d_nav d2) (xd_elev x) (dk_nav _ H2)) as (n4 & -> & W4). cbn [bind].
  set (d3 := dset_sensors _ _).
  assert (H3 : dev_ok d3).
  { destruct (shuffle_sensors_ok (xd_sens x) (d_sensors d2) 0 (dk_sens _ H2)) as [A B].
    constructor; try apply H2; [exact W4|exact A|]. unfold entries_match. cbn in *. rewrite B. apply (dk_entries _ H2). }
  destruct (updateState_ok d3 H3) as (d' & -> & H4). cbn. eauto.
Qed.

Lemma next_moved_ok d t : dev_ok d -> exists b d', next_moved d t = Ret (b, d') /\ dev_ok d'.
Proof.
  intros H. unfold next_moved. destruct (NextElevation_wf (d_nav d) t (dk_nav _ H)) as (n & -> & W). cbn [bind].
  change (d_sensors (dset_nav d n)) with (d_sensors d).
  destruct (sensors_Next_ok t (d_sensors d) (dk_sens _ H)) as (l' & -> & S1 & S2). cbn [bind].
  set (d2 := dset_sensors _ _).
  assert (H2 : dev_ok d2).
  { constructor; try apply H; [exact W|exact S1|]. unfold entries_match. cbn. rewrite S2. apply (dk_entries _ H). }
  destruct (updateRoutes_ok d2 H2) as (d3 & E3 & H3).
  destruct (ns_eqb _ _).
  - cbn [bind]. destruct (updateState_ok d2 H2) as (d' & -> & H4). cbn. eauto.
  - rewrite E3. cbn [bind]. destruct (updateState_ok d3 H3) as (d' & -> & H4). cbn. eauto.
Qed.

Lemma Next_locked_ok (Z0 : zero_eq_zero N) d tick x : dev_ok d ->
  exists b d', Next_locked d tick x = Ret (b, d') /\ dev_ok d'.
Proof.
  intros H. unfold Next_locked. destruct (n_routes (d_nav d)); [eauto|]. cbv zeta.
  set (s := fofZ (d_tick d) + tick).
  assert (H1 : dev_ok (next_account d s)) by (constructor; apply H).
  set (d1 := next_account d s) in *. clearbody d1.
  assert (exists d2, next_lowBattery d1 x = Ret d2 /\ dev_ok d2) as (d2 & -> & H2).
  { unfold next_lowBattery. destruct (battery_IsLow _); [|eauto].
    destruct (ToOffline_wf (d_nav d1) (xd_low x) (dk_nav _ H1)) as (n' & -> & W). cbn [bind].
    eexists. split; [reflexivity|]. constructor; try apply H1. exact W. }
  cbn [bind]. generalize (nextT d2 s). intros t.
  assert (exists d3, next_speed d2 t = Ret d3 /\ dev_ok d3) as (d3 & -> & H3).
  { unfold next_speed. destruct (speed_Next_ok (d_speed d2) t (dk_speed _ H2)) as (sp & -> & Hs). cbn [bind].
    eexists. split; [reflexivity|]. constructor; try apply H2. exact Hs. }
  cbn [bind].
  destruct (NextLocation_wf Z0 (d_nav d3) s (pde_speed (d_state d3)) (xd_loc x) (dk_nav _ H3)) as (ok & n & -> & W).
  cbn [bind]. destruct ok.
  - now apply next_moved_ok, dset_nav_ok.
  - now apply next_stopped_ok, dset_nav_ok.
Qed.

(** ** all calls *)

Lemma run_sensor1_ok (s : sensor T) o : cv_points (s_gen s) <> [] ->
  exists s', run_sensor1 s o = Ret s' /\ cv_points (s_gen s') <> [] /\ s_id s' = s_id s /\ s_name s' = s_name s.
Proof.
  intros H. unfold run_sensor1, run_sensor. destruct o as [draws|t].
  - eexists. split; [reflexivity|]. split; [now apply curve_Shuffle_ok|auto].
  - destruct (sensor_Next_ok s t H) as (s' & -> & Q). cbn. eauto.
Qed.

Lemma run_sensor_ok ops : forall s s' : sensor T, cv_points (s_gen s) <> [] -> run_sensor s ops = Ret s' ->
  cv_points (s_gen s') <> [].
Proof.
  induction ops as [|[draws|t] ops IH]; intros s s' H E; cbn in E; [congruence| |].
  - eapply IH; [|exact E]. now apply curve_Shuffle_ok.
  - destruct (sensor_Next_ok s t H) as (s1 & E1 & Hs & _). rewrite E1 in E. cbn in E. eauto.
Qed.

Lemma made_sensor_ok (s : sensor T) : made_sensor s -> cv_points (s_gen s) <> [].
Proof.
  intros (name & min & max & amp & mode & uuid & draws & s0 & ops & E1 & E2).
  eapply run_sensor_ok; [|exact E2]. unfold NewSensor in E1. destruct (validateAmplitude amp); [discriminate|].
  destruct (_ =? _)%Z; [discriminate|]. injection E1 as <-. cbn. apply curve_New_ok.
Qed.

Lemma set_nth_Forall' {A} (P : A -> Prop) i x l : Forall P l -> P x -> Forall P (set_nth i x l).
Proof. revert i. induction l as [|y l IH]; intros [|i] H Hx; cbn; auto; inversion H; subst; constructor; auto. Qed.

Lemma add_sensors_ok l new : forall ok l' ok', Forall (fun s : sensor T => cv_points (s_gen s) <> []) l ->
  (forall s, In (Some s) new -> cv_points (s_gen s) <> []) -> add_sensors l new ok = (l', ok') ->
  Forall (fun s => cv_points (s_gen s) <> []) l' /\ (ok <= ok')%Z /\ (ok' = ok -> l' = l).
Proof.
  revert l. induction new as [|[s|] new IH]; intros l ok l' ok' H Hn E; cbn in E.
  - injection E as <- <-. split; [assumption|]. split; [lia|auto].
  - destruct (hasSensor l (s_id s)).
    + eapply IH; [exact H| |exact E]. intros s' Hs. apply Hn. now right.
    + destruct (IH (l ++ [s]) (ok + 1)%Z l' ok') as (A & B & C).
      * apply Forall_app. split; [exact H|]. constructor; [|constructor]. apply Hn. now left.
      * intros s' Hs. apply Hn. now right.
      * exact E.
      * split; [exact A|]. split; [lia|intros; exfalso; lia].
  - eapply IH; [exact H| |exact E]. intros s' Hs. apply Hn. now right.
Qed.

Lemma del_nth_Forall' {A} (P : A -> Prop) i l : Forall P l -> Forall P (del_nth i l).
Proof. revert i. induction l as [|y l IH]; intros [|i] H; cbn; auto; inversion H; subst; auto. Qed.

Lemma run_dev_ok (Z0 : zero_eq_zero N) d o : dev_ok d -> sensors_made o ->
  match o with DDestinationTo _ => (zlen (n_routes (d_nav d)) <= 2)%Z | _ => True end ->
  exists d', run_dev d o = Ret d' /\ dev_ok d'.
Proof.
  intros H Hs Hj. pose proof (dk_nav _ H) as W.
  destruct o; cbn [run_dev]; try (eexists; split; [reflexivity|apply dset_nav_ok; [exact H|]]).
  - eexists. split; [reflexivity|]. unfold SetModel. destruct (NewModel m); [|exact H]. constructor; apply H.
  - eexists. split; [reflexivity|]. constructor; apply H.
  - eexists. split; [reflexivity|]. constructor; apply H.
  - eexists. split; [reflexivity|]. unfold SetColor. destruct hex; [|exact H]. constructor; apply H.
  - eexists. split; [reflexivity|]. unfold AddSensor. destruct (add_sensors _ _ _) as [l' ok'] eqn:E.
    destruct (add_sensors_ok _ _ _ _ _ (dk_sens _ H) (fun s Hin => made_sensor_ok s (Hs s Hin)) E) as (A & B & C).
    destruct (0 <? ok')%Z eqn:F.
    + apply updateSensors_ok; try apply H. exact A.
    + apply Z.ltb_ge in F. rewrite C by lia. destruct d; exact H.
  - eexists. split; [reflexivity|]. apply updateSensors_ok; try apply H. constructor.
  - eexists. split; [reflexivity|]. unfold RemoveSensor. destruct (_ =? _)%Z; [exact H|].
    destruct (find_index _ _) as [i|]; [|exact H]. apply updateSensors_ok; try apply H.
    cbn. apply del_nth_Forall', H.
  - destruct (nth_error (d_sensors d) i) as [s|] eqn:E; [|eauto].
    pose proof (dk_sens _ H) as F. rewrite Forall_forall in F.
    destruct (run_sensor1_ok s o) as (s' & -> & A1 & A2 & A3); [eapply F, nth_error_In, E|]. cbn [bind].
    eexists. split; [reflexivity|]. constructor; try apply H.
    + cbn. apply set_nth_Forall'; [apply H|exact A1].
    + unfold entries_match. cbn. rewrite (map_set_nth_same _ i s s' _ E); [apply (dk_entries _ H)|]. now rewrite A2, A3.
  - unfold AddRoute. pose proof (AddRoute_wf _ rs W) as W1. destruct (nav_AddRoute _ _) as [[e|] n]; cbn [snd] in W1.
    + cbn. eexists. split; [reflexivity|]. now apply dset_nav_ok.
    + destruct (updateRoutes_ok (dset_nav d n)) as (d' & -> & H'); [now apply dset_nav_ok|]. cbn. eauto.
  - unfold RemoveRoute. pose proof (RemoveRoute_wf _ id W) as W1. destruct (nav_RemoveRoute _ _) as [[] n]; cbn [snd] in W1.
    + destruct (updateRoutes_ok (dset_nav d n)) as (d' & -> & H'); [now apply dset_nav_ok|]. cbn. eauto.
    + cbn. eexists. split; [reflexivity|]. now apply dset_nav_ok.
  - unfold RemoveTrack. pose proof (RemoveTrack_wf _ rid tid W) as W1. destruct (nav_RemoveTrack _ _ _) as [[] n]; cbn [snd] in W1.
    + destruct (updateRoutes_ok (dset_nav d n)) as (d' & -> & H'); [now apply dset_nav_ok|]. cbn. eauto.
    + cbn. eexists. split; [reflexivity|]. now apply dset_nav_ok.
  - unfold ResetRoutes. pose proof (ResetRoutes_wf _ W) as W1. destruct (nav_ResetRoutes _) as [[] n]; cbn [snd] in W1.
    + destruct (updateRoutes_ok (dset_nav d n)) as (d' & -> & H'); [now apply dset_nav_ok|]. cbn. eauto.
    + cbn. eexists. split; [reflexivity|]. now apply dset_nav_ok.
  - now apply mutateRoute_wf.
  - eexists. split; [reflexivity|]. unfold device_move. pose proof (NextRoute_wf _ W) as W1. destruct (NextRoute _). now apply dset_nav_ok.
  - eexists. split; [reflexivity|]. unfold device_move. pose proof (PrevRoute_wf _ W) as W1. destruct (PrevRoute _). now apply dset_nav_ok.
  - eexists. split; [reflexivity|]. unfold device_move. pose proof (MoveToRouteByID_wf _ id W) as W1. destruct (MoveToRouteByID _ _). now apply dset_nav_ok.
  - eexists. split; [reflexivity|]. unfold device_move. pose proof (MoveToTrackByID_wf _ rid tid W) as W1. destruct (MoveToTrackByID _ _ _). now apply dset_nav_ok.
  - eexists. split; [reflexivity|]. unfold device_move, MoveToRoute. pose proof (MoveToSegment_wf _ r 0 0 W) as W1. destruct (MoveToSegment _ _ _ _). now apply dset_nav_ok.
  - eexists. split; [reflexivity|]. unfold device_move, MoveToTrack. pose proof (MoveToSegment_wf _ r t 0 W) as W1. destruct (MoveToSegment _ _ _ _). now apply dset_nav_ok.
  - eexists. split; [reflexivity|]. unfold device_move. pose proof (MoveToSegment_wf _ r t s W) as W1. destruct (MoveToSegment _ _ _ _). now apply dset_nav_ok.
  - eexists. split; [reflexivity|]. unfold device_move. pose proof (DestinationTo_wf _ meters W Hj) as W1. destruct (DestinationTo _ _). now apply dset_nav_ok.
  - unfold device_ToOffline. destruct (ToOffline_wf (d_nav d) draw W) as (n & -> & W1). cbn. eexists. split; [reflexivity|]. now apply dset_nav_ok.
  - now apply Reset_wf.
  - eexists. split; [reflexivity|]. unfold device_IsFinish. pose proof (IsFinish_wf _ W) as W1. destruct (IsFinish _). now apply dset_nav_ok.
  - unfold device_Update. destruct (updateState_ok d H) as (d1 & -> & H1). cbn [bind].
    destruct (updateRoutes_ok d1 H1) as (d2 & -> & H2). cbn [bind]. eexists. split; [reflexivity|].
    apply updateSensors_ok; apply H2.
  - unfold Next. destruct free.
    + destruct (Next_locked_ok Z0 d tick x H) as (b & d' & -> & H'). cbn. eauto.
    + cbn. eexists. split; [reflexivity|]. constructor; apply H.
  - eexists. split; [reflexivity|]. unfold mount. destruct (_ =? _)%Z; [exact H|]. constructor; apply H.
  - eexists. split; [reflexivity|]. unfold unmount. destruct (_ =? _)%Z; [exact H|]. constructor; apply H.
  - rewrite Query_wf by assumption. cbn [bind]. unfold device_Snapshot, nav_Snapshot.
    destruct (wf_elev _ W) as (e & -> & _). cbn [deref bind]. destruct (n_rnd (d_nav d)); cbn; eauto.
Qed.

Lemma run_devs_ok (Z0 : zero_eq_zero N) ops : forall d, dev_ok d -> Forall sensors_made ops ->
  dev_jumps_on_at_most_two_routes d ops -> exists d', run_devs d ops = Ret d' /\ dev_ok d'.
Proof.
  induction ops as [|o ops IH]; intros d H Hs Hj; cbn; [eauto|]. inversion Hs; subst.
  destruct Hj as [Hj1 Hj2]. destruct (run_dev_ok Z0 d o H) as (d1 & E & H1); auto.
  rewrite E in *. cbn. now apply IH.
Qed.

Lemma built_inv opts x d : built opts x d -> exists o nav sp b st o',
  d = mkDevice Stopped nav sp b st [] f0 0 (0, 0, 0)%Z /\
  o = match opts with Some o => o | None => NewDeviceOptions end /\
  navigator_New (navOpts o) (nd_elevUUID x) (nd_elev x) = GOk nav /\
  NewSpeed (do_speedMin o) (do_speedMax o) (do_speedAmp o) (nd_speed x) = GOk sp /\
  NewBattery (do_batMin o) (do_batMax o) (do_batCharge o) = GOk b /\
  applyFor o initDeviceState x = (GOk st, o').
Proof.
  unfold built, NewDevice. cbv zeta. set (o := match opts with Some o => o | None => _ end).
  destruct (navigator_New _ _ _) as [nav|] eqn:E1; [|discriminate].
  destruct (NewSpeed _ _ _ _) as [sp|] eqn:E2; [|discriminate].
  destruct (NewBattery _ _ _) as [b|] eqn:E3; [|discriminate].
  destruct (applyFor _ _ _) as [[st|e] o'] eqn:E; [|discriminate]. cbn. intros [= <-].
  exists o, nav, sp, b, st, o'. auto 10.
Qed.

Lemma NewSpeed_points (min max : T) amp draws s : NewSpeed min max amp draws = GOk s -> cv_points (sp_gen s) <> [].
Proof.
  unfold NewSpeed. destruct (min <? f0); [discriminate|]. destruct (max >? _); [discriminate|]. cbv zeta.
  destruct (min >? _); [discriminate|].
  match goal with |- (match ?q with pair _ _ => _ end) = _ -> _ => destruct q as [lo hi] end.
  destruct (validateAmplitude amp); [discriminate|]. intros [= <-]. cbn. apply curve_New_ok.
Qed.

Lemma built_ok opts x d : built opts x d -> dev_ok d.
Proof.
  intros H. apply built_inv in H. destruct H as (o & nav & sp & b & st & o' & -> & _ & E1 & E2 & _ & E3).
  assert (Q : exists a b c e f, st = st_ident initDeviceState a b c e f).
  { unfold applyFor in E3. destruct (if (0 <? slen (do_model o))%Z then NewModel _ else _) as [m|]; [|discriminate].
    match type of E3 with context [match ?q with GErr _ => _ | GOk _ => _ end] => destruct q as [c|]; [|discriminate] end.
    injection E3 as <- _. eauto 10. }
  destruct Q as (a & b0 & c & e & f & ->).
  constructor; cbn.
  - eapply New_wf; eauto.
  - repeat split; try discriminate. eexists. split; [reflexivity|]. repeat split; discriminate.
  - right. eapply NewSpeed_points; eauto.
  - constructor.
  - reflexivity.
Qed.

Lemma C63_proof (Z0 : zero_eq_zero N) opts x d0 ops : built opts x d0 -> Forall sensors_made ops ->
  dev_jumps_on_at_most_two_routes d0 ops -> exists d, run_devs d0 ops = Ret d.
Proof. intros H Hs Hj. destruct (run_devs_ok Z0 ops d0 (built_ok _ _ _ H) Hs Hj) as (d & E & _). eauto. Qed.

End D.
