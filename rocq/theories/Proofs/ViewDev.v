(** All device calls commute with [view]: two devices that look the same go on looking the same. *)
From Coq Require Import Lia.
From Verif.Model Require Import Base Num Utf8 Geo Curve PropMap Types Pb TypesSnap Track Route Navigator Device.
From Verif.Spec Require Import ListSpec TrackSpec RouteSpec NavSpec TypesSpec DeviceSpec SnapSpec RestoreSpec.
From Verif.Proofs Require Import BaseLemmas ViewNav.
Open Scope num_scope.

Section ViewDev.
Context {T : Type} {N : Num T} {J : JsonLib T} {U : UtmLib T} (status keep : bool).
Notation vt := (view_track keep).
Notation vr := (view_route keep).
Notation vn := (view_nav keep).
Notation vs := (view_state keep).
Notation vd := (view status keep).

Definition pd {A} (x : A * device T) : A * device T := (fst x, vd (snd x)).

Ltac vv := repeat match goal with
  | |- context [d_nav (view ?st ?ke ?d)] => change (d_nav (view st ke d)) with (view_nav ke (d_nav d))
  | |- context [d_state (view ?st ?ke ?d)] => change (d_state (view st ke d)) with (view_state ke (d_state d))
  | |- context [d_sensors (view ?st ?ke ?d)] => change (d_sensors (view st ke d)) with (d_sensors d)
  | |- context [d_battery (view ?st ?ke ?d)] => change (d_battery (view st ke d)) with (d_battery d)
  | |- context [d_speed (view ?st ?ke ?d)] => change (d_speed (view st ke d)) with (d_speed d)
  | |- context [d_ns (view ?st ?ke ?d)] => change (d_ns (view st ke d)) with (d_ns d)
  end.

Lemma vdt_idem (t : pbDTrack T) : view_dtrack keep (view_dtrack keep t) = view_dtrack keep t.
Proof. unfold view_dtrack. now destruct keep. Qed.
Lemma vdr_idem (r : pbDRoute T) : view_droute keep (view_droute keep r) = view_droute keep r.
Proof. unfold view_droute. destruct keep eqn:E; [reflexivity|]. cbn. f_equal. rewrite map_map. reflexivity. Qed.
Lemma vs_idem (s : pbDevice T) : vs (vs s) = vs s.
Proof.
  unfold view_state, st_routes. cbn. f_equal. destruct (pde_routes s) as [l|]; [|reflexivity]. cbn. do 2 f_equal. rewrite map_map. apply map_ext, vdr_idem.
Qed.
Lemma vd_idem (d : device T) : vd (vd d) = vd d.
Proof. unfold view. cbn. rewrite vn_idem, vs_idem. now destruct status. Qed.

Lemma dtrack_view (t : track T) : dtrack_of (vt t) = view_dtrack keep (dtrack_of t).
Proof. unfold dtrack_of, view_dtrack, track_Props, view_track, view_props. cbn. destruct keep; [|reflexivity]. now destruct (tk_props t). Qed.
Lemma droute_view (r : route T) : droute_of (vr r) = view_droute keep (droute_of r).
Proof.
  unfold droute_of. change (rt_tracks (vr r)) with (map vt (rt_tracks r)). rewrite map_map.
  rewrite (map_ext _ _ dtrack_view). rewrite <- (map_map dtrack_of (view_dtrack keep)).
  unfold view_droute, route_Props, view_route, view_props. cbn. destruct keep; [|reflexivity].
  rewrite map_id. now destruct (rt_props r).
Qed.
Lemma touch_view (r : route T) : touch_props (vr r) = vr r.
Proof.
  unfold touch_props, route_Props, route_setTracks, view_route. cbn. f_equal. rewrite map_map. apply map_ext. intros t. reflexivity.
Qed.
Lemma view_touch (r : route T) : vr (touch_props r) = vr r.
Proof.
  unfold touch_props, route_Props, route_setTracks, view_route, view_props.
  destruct (rt_props r) eqn:E; cbn; rewrite ?E; f_equal; rewrite map_map; apply map_ext; intros t; unfold track_Props, view_track, view_props;
    destruct (tk_props t) eqn:F; cbn; now rewrite ?F.
Qed.

Lemma updateRoutes_view (d : device T) : updateRoutes (vd d) = rmap vd (updateRoutes d).
Proof.
  unfold updateRoutes. vv.
  change (pde_routes (vs (d_state d))) with (option_map (fun l => mkPbDRoutes (map (view_droute keep) (pds_routes l))) (pde_routes (d_state d))).
  destruct (pde_routes (d_state d)) as [l|]; [|reflexivity]. cbn [option_map deref bind rmap]. f_equal.
  assert (En : set_routes (vn (d_nav d)) (map touch_props (n_routes (vn (d_nav d)))) = vn (set_routes (d_nav d) (map touch_props (n_routes (d_nav d))))).
  { unfold view_nav, set_routes. cbn. f_equal. rewrite !map_map. apply map_ext. intros r. now rewrite touch_view, view_touch. }
  assert (Er : map droute_of (n_routes (vn (d_nav d))) = map (view_droute keep) (map droute_of (n_routes (d_nav d)))).
  { cbn. rewrite !map_map. apply map_ext, droute_view. }
  cbv zeta. cbn [dset_nav dset_state d_nav d_state d_status d_speed d_battery d_sensors d_avgT d_tick d_ns]. change (d_nav (vd d)) with (vn (d_nav d)).
  rewrite En, Er. unfold view, dset_ns, calcAvgT, dset_avgT, dset_nav, dset_state. cbn [d_nav d_state d_status d_speed d_battery d_sensors d_avgT d_tick d_ns].
  rewrite Sum_view. reflexivity.
Qed.
Lemma updateState_view (d : device T) : updateState (vd d) = rmap vd (updateState d).
Proof.
  unfold updateState. vv. rewrite nav_Update_view, bind_rmap, rmap_bind. apply bind_ext. intros st.
  change (pde_battery (vs st)) with (pde_battery st). change (pde_distance (vs st)) with (pde_distance st).
  rewrite rmap_bind. apply bind_ext. intros b0. rewrite rmap_bind. apply bind_ext. intros dist.
  cbn. destruct (_ =? _)%Z; reflexivity.
Qed.
Lemma device_Update_view (d : device T) : device_Update (vd d) = rmap vd (device_Update d).
Proof.
  unfold device_Update. rewrite updateState_view, bind_rmap, rmap_bind. apply bind_ext. intros d1.
  rewrite updateRoutes_view, bind_rmap, rmap_bind. apply bind_ext. reflexivity.
Qed.

Lemma Next_locked_view (d : device T) tick x : Next_locked (vd d) tick x = rmap pd (Next_locked d tick x).
Proof.
  unfold Next_locked. change (n_routes (d_nav (vd d))) with (map vr (n_routes (d_nav d))). change (d_tick (vd d)) with (d_tick d).
  destruct (n_routes (d_nav d)) as [|r0 l0]; [reflexivity|]. cbn [map]. cbv zeta.
  set (s := fofZ (d_tick d) + tick). change (next_account (vd d) s) with (vd (next_account d s)).
  set (d1 := next_account d s). clearbody d1.
  assert (E : next_lowBattery (vd d1) x = rmap vd (next_lowBattery d1 x)).
  { unfold next_lowBattery. vv. destruct (battery_IsLow _); [|reflexivity].
    rewrite ToOffline_view, bind_rmap, rmap_bind. apply bind_ext. reflexivity. }
  rewrite E, bind_rmap, rmap_bind. apply bind_ext. intros d2. clear E.
  change (nextT (vd d2) s) with (nextT d2 s).
  assert (E : forall t, next_speed (vd d2) t = rmap vd (next_speed d2 t)).
  { intros t. unfold next_speed. change (d_speed (vd d2)) with (d_speed d2). rewrite rmap_bind. apply bind_ext. reflexivity. }
  rewrite E, bind_rmap, rmap_bind. apply bind_ext. intros d3. clear E. vv.
  change (pde_speed (vs (d_state d3))) with (pde_speed (d_state d3)).
  rewrite NextLocation_view, bind_rmap, rmap_bind. apply bind_ext. intros [ok n]. cbn [pv fst snd].
  change (dset_nav (vd d3) (vn n)) with (vd (dset_nav d3 n)). set (d4 := dset_nav d3 n). clearbody d4. destruct ok.
  - unfold next_moved. vv. rewrite NextElevation_view, bind_rmap, rmap_bind. apply bind_ext. intros n4.
    cbn [d_sensors dset_nav]. rewrite rmap_bind. apply bind_ext. intros ss.
    set (d5 := dset_sensors (dset_nav d4 n4) ss).
    match goal with |- context [updateRoutes ?e] => change e with (vd d5) end.
    change (d_ns (vd d5)) with (d_ns d5).
    match goal with |- context [ns_eqb (d_ns ?a) (nav_Sum ?e)] => change e with (vn (d_nav d5)); change (d_ns a) with (d_ns d5) end.
    rewrite Sum_view.
    assert (E : (if ns_eqb (d_ns d5) (nav_Sum (d_nav d5)) then Ret (vd d5) else updateRoutes (vd d5)) =
      rmap vd (if ns_eqb (d_ns d5) (nav_Sum (d_nav d5)) then Ret d5 else updateRoutes d5)) by (destruct (ns_eqb _ _); [reflexivity|apply updateRoutes_view]).
    match goal with |- bind ?m _ = _ => change m with (if ns_eqb (d_ns d5) (nav_Sum (d_nav d5)) then Ret (vd d5) else updateRoutes (vd d5)) end.
    rewrite E, bind_rmap, rmap_bind. apply bind_ext. intros d6. rewrite updateState_view, bind_rmap, rmap_bind. apply bind_ext. reflexivity.
  - unfold next_stopped. change (updateOfflineState (vd d4)) with (vd (updateOfflineState d4)). set (d5 := updateOfflineState d4). clearbody d5.
    vv. rewrite IsFinish_view. destruct (IsFinish (d_nav d5)) as [fin n5]. cbn [pv fst snd]. destruct fin; [|reflexivity].
    cbn [dset_nav dset_state dset_speed d_nav d_sensors d_speed d_state]. rewrite ShuffleElevation_view, bind_rmap, rmap_bind. apply bind_ext. intros n6.
    rewrite rmap_bind. cbn [dset_nav dset_sensors dset_state dset_speed d_nav d_sensors d_speed d_state d_status d_battery d_avgT d_tick d_ns].
    match goal with |- _ = bind (updateState ?e) _ => set (d7 := e) end.
    match goal with |- bind (updateState ?e) _ = _ => change e with (vd d7) end.
    rewrite updateState_view, bind_rmap. apply bind_ext. reflexivity.
Qed.
Lemma Next_view (d : device T) free tick x : Next (vd d) free tick x = rmap pd (Next d free tick x).
Proof. unfold Next. destruct free; [apply Next_locked_view|reflexivity]. Qed.

(** a device call that leaves the routes' properties to the navigator *)
Lemma after_view (d : device T) n n' {A} (a : A) : vn n = vn n' ->
  rmap pd (let* d' := updateRoutes (dset_nav (vd d) n) in Ret (a, d')) = rmap pd (let* d' := updateRoutes (dset_nav d n') in Ret (a, d')).
Proof.
  intros H.
  assert (E : rmap vd (updateRoutes (dset_nav (vd d) n)) = rmap vd (updateRoutes (dset_nav d n'))).
  { rewrite <- !updateRoutes_view. f_equal. unfold view, dset_nav. cbn. rewrite vs_idem, H. now destruct status. }
  rewrite !rmap_bind. transitivity (let* x := rmap vd (updateRoutes (dset_nav (vd d) n)) in Ret (a, x)).
  - now rewrite bind_rmap.
  - rewrite E, bind_rmap. reflexivity.
Qed.
Lemma AddRoute_dview (d : device T) rs : rmap pd (AddRoute (vd d) rs) = rmap pd (AddRoute d rs).
Proof.
  unfold AddRoute. vv. pose proof (AddRoute_view keep (d_nav d) rs) as H. unfold pv in H.
  destruct (nav_AddRoute (vn (d_nav d)) rs) as [e n], (nav_AddRoute (d_nav d) rs) as [e' n'].
  pose proof (f_equal fst H) as E. pose proof (f_equal snd H) as H'. cbn [fst snd] in E, H'. subst e'. rename e into e'. clear H.
  destruct e' as [e'|].
  - cbn. unfold pd, view, dset_nav. cbn. rewrite vs_idem, H'. now destruct status.
  - apply after_view, H'.
Qed.
Lemma RemoveRoute_dview (d : device T) id : rmap pd (RemoveRoute (vd d) id) = rmap pd (RemoveRoute d id).
Proof.
  unfold RemoveRoute. vv. rewrite RemoveRoute_view. destruct (nav_RemoveRoute (d_nav d) id) as [[] n]; cbn [pv fst snd].
  - apply after_view, vn_idem.
  - cbn. unfold pd, view, dset_nav. cbn. rewrite vs_idem, vn_idem. now destruct status.
Qed.
Lemma RemoveTrack_dview (d : device T) r t : rmap pd (RemoveTrack (vd d) r t) = rmap pd (RemoveTrack d r t).
Proof.
  unfold RemoveTrack. vv. rewrite RemoveTrack_view. destruct (nav_RemoveTrack (d_nav d) r t) as [[] n]; cbn [pv fst snd].
  - apply after_view, vn_idem.
  - cbn. unfold pd, view, dset_nav. cbn. rewrite vs_idem, vn_idem. now destruct status.
Qed.
Lemma ResetRoutes_dview (d : device T) : rmap pd (ResetRoutes (vd d)) = rmap pd (ResetRoutes d).
Proof.
  unfold ResetRoutes. vv. rewrite ResetRoutes_view. destruct (nav_ResetRoutes (d_nav d)) as [[] n]; cbn [pv fst snd].
  - apply after_view, vn_idem.
  - cbn. unfold pd, view, dset_nav. cbn. rewrite vs_idem, vn_idem. now destruct status.
Qed.
Lemma move_view (d : device T) m : (forall n, m (vn n) = pv keep (m n)) -> device_move (vd d) m = pd (device_move d m).
Proof. intros H. unfold device_move. vv. rewrite H. now destruct (m (d_nav d)). Qed.

(** snapshots: the elevation generator decides whether they panic *)
Lemma Snapshot_panics n : rmap (fun _ : pbNavigator T => tt) (nav_Snapshot n) = rmap (fun _ => tt) (deref (n_elev n)).
Proof. unfold nav_Snapshot. destruct (n_elev n); [|reflexivity]. cbn. now destruct (match n_rnd n with Some r => _ | None => _ end). Qed.
Lemma Query_view n : rmap (fun _ : navigator T => tt) (run_nav (vn n) NQuery) = rmap (fun _ => tt) (run_nav n NQuery).
Proof.
  cbn [run_nav]. rewrite CurrentRoute_view, CurrentTrack_view, CurrentSegment_view, CurrentBearing_view, RouteDistance_view, TrackDistance_view, SegmentDistance_view.
  do 7 (rewrite ?bind_rmap, ?rmap_bind; apply bind_ext; intros _).
  transitivity (rmap (fun _ : pbNavigator T => tt) (nav_Snapshot (vn n))); [now destruct (nav_Snapshot _)|].
  transitivity (rmap (fun _ : pbNavigator T => tt) (nav_Snapshot n)); [|now destruct (nav_Snapshot _)].
  now rewrite !Snapshot_panics.
Qed.
Lemma snap_view (d : device T) : rmap vd (run_dev (vd d) DSnapshot) = rmap vd (run_dev d DSnapshot).
Proof.
  cbn [run_dev]. unfold device_Snapshot. vv.
  pose proof (Query_view (d_nav d)) as H. destruct (run_nav (vn (d_nav d)) NQuery) as [a| |], (run_nav (d_nav d) NQuery) as [b| |]; try discriminate; try reflexivity.
  cbn [bind]. assert (H' : rmap (fun _ : pbNavigator T => tt) (nav_Snapshot (vn (d_nav d))) = rmap (fun _ => tt) (nav_Snapshot (d_nav d))) by now rewrite !Snapshot_panics.
  destruct (nav_Snapshot (vn (d_nav d))), (nav_Snapshot (d_nav d)); try discriminate; try reflexivity. cbn. f_equal. apply vd_idem.
Qed.

Lemma Ret_inj {A} (a b : A) : Ret a = Ret b -> a = b.
Proof. now intros [=]. Qed.
Lemma pd_snd {A} (m m' : res (A * device T)) : rmap pd m = rmap pd m' ->
  rmap vd (let* (_, d') := m in Ret d') = rmap vd (let* (_, d') := m' in Ret d').
Proof.
  destruct m as [[a d]| |], m' as [[a' d']| |]; cbn [rmap bind]; try discriminate; try reflexivity. intros H. apply Ret_inj in H.
  f_equal. exact (f_equal snd H).
Qed.
Lemma pd_fst {A B} (g : A -> B) (m m' : res (A * device T)) : rmap pd m = rmap pd m' ->
  (let* r := m in Ret (g (fst r))) = let* r := m' in Ret (g (fst r)).
Proof.
  destruct m as [[a d]| |], m' as [[a' d']| |]; cbn [rmap bind]; try discriminate; try reflexivity. intros H. apply Ret_inj in H.
  f_equal. exact (f_equal (fun x => g (fst x)) H).
Qed.
Lemma pd_idem {A} (m : res (A * device T)) : rmap pd (rmap pd m) = rmap pd m.
Proof. destruct m as [[a d]| |]; cbn; try reflexivity. unfold pd. cbn. now rewrite vd_idem. Qed.

Ltac vx := lazymatch goal with |- _ = view _ _ ?x => exact (vd_idem x) end.
Lemma run_dev_view (d : device T) o : rmap vd (run_dev (vd d) o) = rmap vd (run_dev d o).
Proof.
  destruct o; try apply snap_view; cbn [run_dev].
  - unfold SetModel. destruct (NewModel m); [|cbn; f_equal; apply vd_idem]. cbn. f_equal. vx.
  - cbn. f_equal. vx.
  - cbn. f_equal. vx.
  - unfold SetColor. destruct hex; [|cbn; f_equal; apply vd_idem]. cbn. f_equal. vx.
  - cbn. f_equal. unfold AddSensor. vv. destruct (add_sensors (d_sensors d) l 0) as [l' ok]. destruct (0 <? ok)%Z.
    + vx.
    + vx.
  - cbn. f_equal. vx.
  - cbn. f_equal. unfold RemoveSensor. destruct (slen id =? 0)%Z; [apply vd_idem|]. vv. destruct (find_index _ _) as [i|]; [|apply vd_idem].
    vx.
  - vv. destruct (nth_error (d_sensors d) i) as [s|]; [|cbn; f_equal; apply vd_idem].
    rewrite !rmap_bind. apply bind_ext. intros s'. cbn [rmap bind]. f_equal. vx.
  - apply pd_snd, AddRoute_dview.
  - apply pd_snd, RemoveRoute_dview.
  - apply pd_snd, RemoveTrack_dview.
  - apply pd_snd, ResetRoutes_dview.
  - cbn [rmap bind]. f_equal. unfold view, dset_nav. cbn [d_nav d_state d_status d_speed d_battery d_sensors d_avgT d_tick d_ns]. rewrite mutate_view, vs_idem. now destruct status.
  - rewrite move_view by apply NextRoute_view. cbn [rmap bind pd snd]. now rewrite vd_idem.
  - rewrite move_view by apply PrevRoute_view. cbn [rmap bind pd snd]. now rewrite vd_idem.
  - rewrite move_view by (intros n; apply MoveToRouteByID_view). cbn [rmap bind pd snd]. now rewrite vd_idem.
  - rewrite move_view by (intros n; apply MoveToTrackByID_view). cbn [rmap bind pd snd]. now rewrite vd_idem.
  - rewrite move_view by (intros n; apply MoveToSegment_view). cbn [rmap bind pd snd]. now rewrite vd_idem.
  - rewrite move_view by (intros n; apply MoveToSegment_view). cbn [rmap bind pd snd]. now rewrite vd_idem.
  - rewrite move_view by (intros n; apply MoveToSegment_view). cbn [rmap bind pd snd]. now rewrite vd_idem.
  - rewrite move_view by (intros n; apply DestinationTo_view). cbn [rmap bind pd snd]. now rewrite vd_idem.
  - unfold device_ToOffline. vv. rewrite ToOffline_view, bind_rmap, !rmap_bind. apply bind_ext. intros n. cbn [rmap bind]. f_equal. vx.
  - cbn [rmap bind]. f_equal. unfold ResetNavigator. vv. rewrite Reset_view. vx.
  - cbn [rmap bind]. f_equal. unfold device_IsFinish. vv. rewrite IsFinish_view. destruct (IsFinish (d_nav d)) as [b n]. vx.
  - rewrite device_Update_view, rmap_rmap. unfold rmap. apply bind_ext. intros x. now rewrite vd_idem.
  - apply pd_snd. rewrite Next_view. apply pd_idem.
  - cbn [rmap bind]. f_equal. unfold mount. change (d_status (vd d)) with (if status then d_status d else 0%Z). destruct status eqn:Es.
    + destruct (_ =? _)%Z; cbn [snd]; unfold view, dset_status; cbn; now rewrite vn_idem, vs_idem.
    + cbn [snd Running Z.eqb]. destruct (_ =? _)%Z; cbn [snd]; unfold view, dset_status; cbn; now rewrite vn_idem, vs_idem.
  - cbn [rmap bind]. f_equal. unfold unmount. change (d_status (vd d)) with (if status then d_status d else 0%Z). destruct status eqn:Es.
    + destruct (_ =? _)%Z; cbn [snd]; unfold view, dset_status; cbn; now rewrite vn_idem, vs_idem.
    + cbn [snd Stopped Z.eqb]. destruct (_ =? _)%Z; cbn [snd]; unfold view, dset_status; cbn; now rewrite vn_idem, vs_idem.
Qed.

Lemma run_dev_same (d d' : device T) o : vd d = vd d' -> rmap vd (run_dev d o) = rmap vd (run_dev d' o).
Proof. intros H. rewrite <- (run_dev_view d), <- (run_dev_view d'). now rewrite H. Qed.

Lemma reply_view (d : device T) o : status = true \/ not_attach o -> reply (vd d) o = reply d o.
Proof.
  assert (X : forall o, (let* _ := run_dev (vd d) o in Ret Done) = let* _ := run_dev d o in Ret Done).
  { intros o'. pose proof (run_dev_view d o') as H. destruct (run_dev (vd d) o'), (run_dev d o'); try discriminate; reflexivity. }
  intros Ha. destruct o; try (destruct Ha as [Ha|Ha]; [|now destruct Ha]); cbn [reply]; try exact (X _).
  - unfold SetModel. now destruct (NewModel m).
  - unfold SetColor. now destruct hex.
  - unfold RemoveSensor. destruct (slen id =? 0)%Z; [reflexivity|]. vv. now destruct (find_index _ _).
  - apply pd_fst, AddRoute_dview.
  - apply pd_fst, RemoveRoute_dview.
  - apply pd_fst, RemoveTrack_dview.
  - apply pd_fst, ResetRoutes_dview.
  - rewrite move_view by apply NextRoute_view. reflexivity.
  - rewrite move_view by apply PrevRoute_view. reflexivity.
  - rewrite move_view by (intros n; apply MoveToRouteByID_view). reflexivity.
  - rewrite move_view by (intros n; apply MoveToTrackByID_view). reflexivity.
  - rewrite move_view by (intros n; apply MoveToSegment_view). reflexivity.
  - rewrite move_view by (intros n; apply MoveToSegment_view). reflexivity.
  - rewrite move_view by (intros n; apply MoveToSegment_view). reflexivity.
  - rewrite move_view by (intros n; apply DestinationTo_view). reflexivity.
  - unfold device_IsFinish. vv. rewrite IsFinish_view. now destruct (IsFinish (d_nav d)).
  - apply pd_fst. rewrite Next_view. apply pd_idem.
  - unfold mount. change (d_status (vd d)) with (if status then d_status d else 0%Z). rewrite Ha. now destruct (_ =? _)%Z.
  - unfold unmount. change (d_status (vd d)) with (if status then d_status d else 0%Z). rewrite Ha. now destruct (_ =? _)%Z.
Qed.

Lemma same_of_rmap (m m' : res (device T)) : rmap vd m = rmap vd m' -> same_result (fun a b => vd a = vd b) m m'.
Proof. destruct m, m'; cbn [rmap bind same_result]; try discriminate; auto. apply Ret_inj. Qed.
Lemma rmap_of_same (m m' : res (device T)) : same_result (fun a b => vd a = vd b) m m' -> rmap vd m = rmap vd m'.
Proof. destruct m, m'; cbn; try tauto. now intros ->. Qed.

Lemma goes_on (ops : list (dev_op T)) : forall d d', vd d = vd d' -> status = true \/ Forall not_attach ops -> goes_on_like status keep d d' ops.
Proof.
  induction ops as [|o ops IH]; intros d d' H Ho; [split; [reflexivity|exact H]|].
  assert (H1 : status = true \/ not_attach o) by (destruct Ho as [Ho|Ho]; [now left|inversion Ho; now right]).
  assert (H2 : status = true \/ Forall not_attach ops) by (destruct Ho as [Ho|Ho]; [now left|inversion Ho; now right]).
  pose proof (run_dev_same d d' o H) as K. apply same_of_rmap in K.
  assert (R : reply d' o = reply d o) by (rewrite <- (reply_view d'), <- (reply_view d), H by exact H1; reflexivity).
  unfold goes_on_like. cbn [replies run_devs]. rewrite R.
  destruct (run_dev d o) as [e| |], (run_dev d' o) as [e'| |]; cbn in K; try contradiction; try (now split).
  destruct (IH e e' K H2) as [I1 I2]. cbn [bind]. rewrite I1. split; [reflexivity|exact I2].
Qed.
End ViewDev.
