(** C42-C47, C58, C62-C64: devices. *)
From Coq Require Import Reals Lra Lia.
From Verif.Model Require Import Base Num NumR NumF64 Geo Curve PropMap Types Pb TypesSnap Track Route Navigator Device.
From Verif.Spec Require Import ListSpec TrackSpec RouteSpec NavSpec NumLaws RealSpec RealExamples TypesSpec DeviceSpec DeviceRealSpec Examples DeviceExamples.
From Verif.Proofs Require Import NavExample DeviceProofs DeviceProofs2 DeviceProofs3 DeviceReal DeviceExample.
Open Scope num_scope.

(** C42. A step of a device without routes answers false and changes nothing at all. *)
Theorem C42_no_routes_no_change :
  forall (T : Type) (N : Num T) (J : JsonLib T) (U : UtmLib T) (d : device T) (tick : T) (x : nextDraws T),
    n_routes (d_nav d) = [] -> Next d true tick x = Ret (false, d).
Proof. exact @C42_proof. Qed.
Print Assumptions C42_no_routes_no_change.

Example C42_example : n_routes (d_nav ex_dev) = [] /\ pde_id (d_state ex_dev) = "device-1"%string /\
  (let d := ran (run_devs ex_dev [DAddSensor [ex_sensor "s1" "temp"]; DAddRoute [ex_r1]; DResetRoutes]) in
   n_routes (d_nav d) = [] /\ zlen (d_sensors d) = 1%Z).
Proof. vm_compute. auto. Qed.

(** C43, one step. An uncontended Next accounts for its seconds and the calls that found the device
    locked; completing the journey restarts the clock; every other call leaves the clock alone. *)
Theorem C43_step :
  forall (T : Type) (N : Num T) (J : JsonLib T) (U : UtmLib T) (d : device T) (tick : T) (x : nextDraws T) b d',
    n_routes (d_nav d) <> [] -> Next d true tick x = Ret (b, d') ->
    owed d' = 0%Z /\ last_tick d' = amount d tick /\ pde_speed (d_state d') = speed_Value (d_speed d') /\
    ((~ completes_journey d tick x (pde_speed (d_state d')) /\ duration d' = duration d + amount d tick) \/
     (completes_journey d tick x (pde_speed (d_state d')) /\ b = false /\ duration d' = f0)).
Proof. exact @Next_time. Qed.
Print Assumptions C43_step.

(** C43. The reported duration is the left-to-right sum of the amounts since the beginning or the last
    completion. *)
Theorem C43_elapsed_time :
  forall (T : Type) (N : Num T) (J : JsonLib T) (U : UtmLib T) opts x (d0 : device T) ops d,
    built opts x d0 -> run_devs d0 ops = Ret d ->
    exists l k, since_completion d0 ops l k d /\ duration d = fold_left (fun a s => a + s) l f0 /\ owed d = k.
Proof. intros T N J U opts x d0 ops d H. destruct (built_time _ _ _ H). now apply C43_proof. Qed.
Print Assumptions C43_elapsed_time.

(** two steps of 5 s with one contended call between them *)
Example C43_example :
  let d := ran (run_devs ex_dev [DAddRoute [ex_r1]; DNext true (f64_ofZ 5) ex_draws;
                                  DNext false (f64_ofZ 5) ex_draws; DNext true (f64_ofZ 5) ex_draws]) in
  (duration d =? f64_ofZ 11) = true /\ (last_tick d =? f64_ofZ 6) = true /\ owed d = 0%Z /\ zlen (n_routes (d_nav d)) = 1%Z.
Proof. vm_compute. auto. Qed.

(** C44. After a successful step the published state mirrors the device. *)
Theorem C44_step_published :
  forall (T : Type) (N : Num T) (J : JsonLib T) (U : UtmLib T) opts x0 (d0 : device T) ops d tick x d',
    built opts x0 d0 -> run_devs d0 ops = Ret d -> Next d true tick x = Ret (true, d') ->
    navigator_published d' /\ ids_published (fun _ => True) d' /\ battery_published d' /\
    sensors_published d' /\ pde_speed (d_state d') = speed_Value (d_speed d').
Proof.
  intros T N J U opts x0 d0 ops d tick x d' Hb Hd. apply C44_next_proof.
  now destruct (C45_history_proof _ _ _ _ _ Hb Hd).
Qed.
Print Assumptions C44_step_published.

(** C44. The same after Update. The speed is not refreshed by Update, and [ids_published (fun _ => True)]
    says nothing about the published IDs while there is no current route: *)
Theorem C44_update_published_partial :
  forall (T : Type) (N : Num T) (J : JsonLib T) (U : UtmLib T) (d d' : device T),
    device_Update d = Ret d' ->
    navigator_published d' /\ ids_published (fun _ => True) d' /\ battery_published d' /\ sensors_published d'.
Proof. exact @C44_update_proof. Qed.
Print Assumptions C44_update_published_partial.

Example C44_example :
  let d := ran (run_devs ex_dev [DAddSensor [ex_sensor "s1" "temp"; None; ex_sensor "s2" "hum"];
                                 DAddRoute [ex_r1; ex_r2]; DNext true (f64_ofZ 5) ex_draws]) in
  let r := Next d true (f64_ofZ 5) ex_draws in
  is_true_step r = true /\
  match pde_navigator (d_state (after r)) with
  | Some v => pdv_current_route_id v = "r1"%string /\ pdv_current_track_id v = "t11"%string
  | None => False
  end /\ map (@pdn_id f64) (pde_sensors (d_state (after r))) = ["s1"; "s2"]%string.
Proof. vm_compute. auto. Qed.

(** C44 is false of Update while the device has no current route: the IDs of the former route stay
    published. *)
Theorem C44_refuted : forall (m : MathLib) (J : JsonLib f64) (U : UtmLib f64),
  let N := F64Num m in
  match fst (NewDevice (Some NewDeviceOptions) ex_new_draws) with
  | GOk d0 =>
      match run_devs d0 [DAddRoute [Some (RouteFromTracks [] "gone" "#00ff00")]; DUpdate; DResetRoutes; DUpdate] with
      | Ret d => CurrentRoute (d_nav d) = Ret None /\
          option_map (fun v => pdv_current_route_id v) (pde_navigator (d_state d)) = Some "gone"%string
      | _ => False
      end
  | GErr _ => False
  end.
Proof. intros m J U. vm_compute. auto. Qed.
Print Assumptions C44_refuted.

(** C45. Adding: exactly the non-nil sensors with unseen IDs are appended. *)
Theorem C45_add_sensor :
  forall (T : Type) (d : device T) (l : list (option (sensor T))),
    d_sensors (AddSensor d l) = d_sensors d ++ unseen (sensor_ids d) l.
Proof. exact @C45_add_proof. Qed.
Print Assumptions C45_add_sensor.

(** C45. Removing: exactly the sensor with the given ID goes. *)
Theorem C45_remove_sensor :
  forall (T : Type) (d : device T) (id : string), NoDup (sensor_ids d) ->
    (fst (RemoveSensor d id) = true <-> id <> ""%string /\ In id (sensor_ids d)) /\
    d_sensors (snd (RemoveSensor d id)) =
      (if fst (RemoveSensor d id) then filter (other_id id) (d_sensors d) else d_sensors d) /\
    d_nav (snd (RemoveSensor d id)) = d_nav d.
Proof. exact @C45_remove_proof. Qed.
Print Assumptions C45_remove_sensor.

(** C45. Lookups agree with the list. *)
Theorem C45_lookup :
  forall (T : Type) (d : device T), NoDup (sensor_ids d) ->
    (forall id s, SensorByID d id = Some s <-> In s (d_sensors d) /\ s_id s = id) /\
    (forall i s, SensorAt d i = Some s <-> at_pos (d_sensors d) i s).
Proof. intros T d H. split; [intros; now apply C45_by_id_proof|intros; apply C45_at_proof]. Qed.
Print Assumptions C45_lookup.

(** C45. In every history the IDs stay distinct and the published entries name the sensors in order. *)
Theorem C45_ids_distinct :
  forall (T : Type) (N : Num T) (J : JsonLib T) (U : UtmLib T) opts x (d0 : device T) ops d,
    built opts x d0 -> run_devs d0 ops = Ret d ->
    NoDup (sensor_ids d) /\
    map (fun e => (pdn_id e, pdn_name e)) (pde_sensors (d_state d)) = map (fun s => (s_id s, s_name s)) (d_sensors d).
Proof. exact @C45_history_proof. Qed.
Print Assumptions C45_ids_distinct.

Example C45_example :
  let d := ran (run_devs ex_dev [DAddSensor [ex_sensor "s1" "temp"; None; ex_sensor "s2" "hum"; ex_sensor "s1" "again"]]) in
  sensor_ids d = ["s1"; "s2"]%string /\ fst (RemoveSensor d "s1"%string) = true /\
  sensor_ids (snd (RemoveSensor d "s1"%string)) = ["s2"]%string /\ fst (RemoveSensor d "s3"%string) = false.
Proof. vm_compute. auto. Qed.

(** C46. A step that drains the battery recharges it and takes the device offline for a duration in
    the configured interval, of which that step itself is the first call; no other step does. *)
Theorem C46_recharge :
  forall (T : Type) (N : Num T) (J : JsonLib T) (U : UtmLib T) opts x0 (d0 : device T) ops d tick x b d',
    built opts x0 d0 -> run_devs d0 ops = Ret d ->
    n_routes (d_nav d) <> [] -> uint32 (xd_low x) -> Next d true tick x = Ret (b, d') ->
    if drains d tick then
      d_battery d' = battery_Reset (d_battery d) /\
      let o := options_of opts in let '(lo, hi) := offline_interval (do_offMin o) (do_offMax o) in
      (do_skipOffline o = false -> exists k, (lo <= k <= hi)%Z /\ ((0 < k)%Z ->
         b = false /\ n_off (d_nav d') = (k - 1)%Z /\
         n_point (d_nav d') = n_point (d_nav d) /\ position (d_nav d') = position (d_nav d) /\
         pde_is_offline (d_state d') = (1 <? k)%Z /\ pde_offline_duration (d_state d') = (k - 1)%Z))
    else d_battery d' = battery_Next (d_battery d) (amount d tick) /\ battery_IsLow (d_battery d') = false.
Proof. exact @C46_proof. Qed.
Print Assumptions C46_recharge.

(** C46. Between calls a battery is either freshly charged or not low, in any arithmetic. *)
Theorem C46_never_low :
  forall (T : Type) (N : Num T) (J : JsonLib T) (U : UtmLib T) opts x0 (d0 : device T) ops d,
    built opts x0 d0 -> run_devs d0 ops = Ret d ->
    b_val (d_battery d) = f0 \/ battery_IsLow (d_battery d) = false.
Proof. exact @C46_never_low_proof. Qed.
Print Assumptions C46_never_low.

(** C46, over the reals: the charge is above the minimum after every call. *)
Theorem C46_charge_above_minimum :
  forall (J : JsonLib R) (U : UtmLib R) opts x0 (d0 : device R) ops d,
    built opts x0 d0 -> run_devs d0 ops = Ret d ->
    let o := options_of opts in
    do_batCharge o <> 0%Z -> (Rmin (do_batMin o) (do_batMax o) < 100)%R ->
    (Rmin (do_batMin o) (do_batMax o) < battery_Value (d_battery d))%R.
Proof. exact @C46_charge_proof. Qed.
Print Assumptions C46_charge_above_minimum.

(** eight hours on a battery of seven *)
Example C46_example :
  let d := ran (run_devs ex_dev [DAddRoute [ex_r1]]) in
  let r := Next d true (f64_ofZ 28800) ex_draws in
  drains d (f64_ofZ 28800) = true /\ drains d (f64_ofZ 20000) = false /\ zlen (n_routes (d_nav d)) = 1%Z /\ (0 <=? xd_low ex_draws)%Z && (xd_low ex_draws <? 2 ^ 32)%Z = true /\
  is_true_step r = false /\ (battery_Value (d_battery (after r)) =? f64_ofZ 100) = true /\ n_off (d_nav (after r)) = 1%Z.
Proof. vm_compute. repeat split. Qed.

(** C47, over the reals. The published speed stays in the configured range. *)
Theorem C47_speed_in_range :
  forall (J : JsonLib R) (U : UtmLib R) opts x0 (d0 : device R) ops d tick x b d',
    built opts x0 d0 -> unit_new x0 -> run_devs d0 ops = Ret d -> Forall fair ops ->
    n_routes (d_nav d) <> [] -> (0 <= tick)%R -> unit_next x -> (0 < trip_time d)%R ->
    Next d true tick x = Ret (b, d') ->
    let o := options_of opts in within (speed_limits (do_speedMin o) (do_speedMax o)) (pde_speed (d_state d')).
Proof. exact @C47_speed_proof. Qed.
Print Assumptions C47_speed_in_range.

(** C47, over the reals. So do the published elevation and the published sensor values. *)
Theorem C47_values_in_range :
  forall (J : JsonLib R) (U : UtmLib R) opts x0 (d0 : device R) ops d tick x d',
    built opts x0 d0 -> unit_new x0 -> run_devs d0 ops = Ret d -> Forall fair ops ->
    (0 <= tick)%R -> unit_next x -> (0 < trip_time d)%R -> Next d true tick x = Ret (true, d') ->
    let o := options_of opts in
    (exists l, pde_location (d_state d') = Some l /\
       within (elevation_limits (do_elevMin o) (do_elevMax o)) (pdl_elevation l)) /\
    Forall2 (fun s e => pdn_id e = s_id s /\ within (s_min s, s_max s) (pdn_val_y e)) (d_sensors d') (pde_sensors (d_state d')).
Proof. exact @C47_proof. Qed.
Print Assumptions C47_values_in_range.

Example C47_example : forall (J : JsonLib R) (U : UtmLib R), exists d0 d d',
  built (Some rx_opts) rx_new_draws d0 /\ unit_new rx_new_draws /\ unit_next rx_draws /\
  run_devs d0 [DAddRoute [Some rx_r]] = Ret d /\ (0 < trip_time d)%R /\ Next d true degree rx_draws = Ret (true, d').
Proof. exact @rx_step. Qed.

(** C47 needs a positive trip time: with a route of length zero the published speed is NaN. *)
Theorem C47_no_length_refuted : forall (m : MathLib) (J : JsonLib f64) (U : UtmLib f64),
  let N := F64Num m in
  match fst (NewDevice (Some NewDeviceOptions) ex_new_draws) with
  | GOk d0 =>
      match run_devs d0 [DAddRoute [Some (RouteFromTracks [] "r" "#00ff00")]; DNext true (f64_ofZ 0) ex_draws] with
      | Ret d => pde_speed (d_state d) = f64_nan
      | _ => False
      end
  | GErr _ => False
  end.
Proof. intros m J U. vm_compute. auto. Qed.
Print Assumptions C47_no_length_refuted.

(** C58. The constructors accept exactly the legal lengths. *)
Theorem C58_lengths : forall s : string,
  ((exists n, ParseName s = GOk n) <-> (3 <= slen s <= 256)%Z) /\
  ((exists m, NewModel s = GOk m) <-> (3 <= slen s <= 64)%Z) /\
  (forall n, ParseName s = GOk n -> n = s) /\ (forall m, NewModel s = GOk m -> m = s).
Proof. exact C58_lengths_proof. Qed.
Print Assumptions C58_lengths.

(** C58. Rejected values change nothing, accepted ones are stored. *)
Theorem C58_all_or_nothing :
  forall (T : Type) (d : device T) (r : route T) (t : track T) (s : string),
    (forall e, fst (SetModel d s) = Some e -> snd (SetModel d s) = d) /\
    (fst (SetModel d s) = None -> pde_model (d_state (snd (SetModel d s))) = s) /\
    (forall e, fst (route_ChangeName r s) = Some e -> snd (route_ChangeName r s) = r) /\
    (fst (route_ChangeName r s) = None -> rt_name (snd (route_ChangeName r s)) = s) /\
    (forall e, fst (track_ChangeName t s) = Some e -> snd (track_ChangeName t s) = t) /\
    (fst (track_ChangeName t s) = None -> tk_name (snd (track_ChangeName t s)) = s).
Proof. exact @C58_all_or_nothing_proof. Qed.
Print Assumptions C58_all_or_nothing.

(** C58. A device built by NewDevice has a legal model for ever (random models have six random
    characters). Missing: devices restored from a snapshot. *)
Theorem C58_models_legal_partial :
  forall (T : Type) (N : Num T) (J : JsonLib T) (U : UtmLib T) opts x (d0 : device T) ops d,
    built opts x d0 -> slen (nd_model x) = 6%Z -> run_devs d0 ops = Ret d ->
    (3 <= slen (pde_model (d_state d)) <= 64)%Z.
Proof. exact @C58_history_proof. Qed.
Print Assumptions C58_models_legal_partial.

Example C58_example :
  pde_model (d_state ex_dev) = "Device-abcdef"%string /\ slen (nd_model ex_new_draws) = 6%Z /\
  fst (SetModel ex_dev "ab") = Some ErrModelTooShort /\ fst (SetModel ex_dev "abc") = None /\
  pde_model (d_state (ran (run_devs ex_dev [DSetModel "ab"; DSetModel "xyz"]))) = "xyz"%string.
Proof. vm_compute. auto. Qed.

(** C58 is false of restored devices: FromSnapshot takes the model as it comes. *)
Theorem C58_refuted : forall (m : MathLib) (J : JsonLib f64) (U : UtmLib f64),
  let N := F64Num m in
  match fst (NewDevice (Some NewDeviceOptions) ex_new_draws) with
  | GOk d0 =>
      match device_Snapshot d0 with
      | Ret s =>
          let s' := mkPbSnapshot (psn_id s) (psn_user_id s) (psn_tick s) (psn_duration s) "" (psn_descr s)
                      (psn_status s) (psn_color s) (psn_navigator s) (psn_speed s) (psn_battery s) (psn_sensors s) in
          match device_FromSnapshot d0 s' with
          | Ret d => pde_model (d_state d) = ""%string
          | _ => False
          end
      | _ => False
      end
  | GErr _ => False
  end.
Proof. intros m J U. vm_compute. auto. Qed.
Print Assumptions C58_refuted.

(** C62. Whatever is called on a device, its navigator evolves by public navigator calls only, those
    that belong to the device calls. *)
Theorem C62_navigator_trace :
  forall (T : Type) (N : Num T) (J : JsonLib T) (U : UtmLib T) (ops : list (dev_op T)) (d d' : device T),
    run_devs d ops = Ret d' ->
    exists loss, Forall2 (fun o los => Forall (calls o) los) ops loss /\
      run_navs (d_nav d) (List.concat loss) = Ret (d_nav d').
Proof. exact @trace_devs. Qed.
Print Assumptions C62_navigator_trace.

Example C62_example :
  position (d_nav (ran (run_devs ex_dev [DAddRoute [ex_r1; ex_r2]; DMoveToRoute 1; DNext true (f64_ofZ 5) ex_draws]))) = (1, 0, 0)%Z.
Proof. vm_compute. auto. Qed.

(** C63. No history of public calls panics a device, provided DestinationTo is not called with three
    or more routes (see C20_refuted) and sensors come from NewSensor. *)
Theorem C63_no_panic_partial :
  forall (T : Type) (N : Num T) (J : JsonLib T) (U : UtmLib T) opts x (d0 : device T) ops,
    zero_eq_zero N -> built opts x d0 -> Forall sensors_made ops -> dev_jumps_on_at_most_two_routes d0 ops ->
    exists d, run_devs d0 ops = Ret d.
Proof. intros T N J U opts x d0 ops Z. exact (C63_proof Z opts x d0 ops). Qed.
Print Assumptions C63_no_panic_partial.

Example C63_example :
  built (Some NewDeviceOptions) ex_new_draws ex_dev /\ zero_eq_zero exN /\
  Forall sensors_made [DAddRoute [ex_r1]; DDestinationTo (km 1); DNext true (f64_ofZ 5) ex_draws; DSnapshot] /\
  dev_jumps_on_at_most_two_routes ex_dev [DAddRoute [ex_r1]; DDestinationTo (km 1); DNext true (f64_ofZ 5) ex_draws; DSnapshot].
Proof.
  split.
  { assert (H : match fst (NewDevice (Some NewDeviceOptions) ex_new_draws) with GOk _ => true | GErr _ => false end = true)
      by (vm_compute; reflexivity).
    unfold built, ex_dev. destruct (fst (NewDevice (Some NewDeviceOptions) ex_new_draws)); [reflexivity|discriminate]. }
  split; [vm_compute; reflexivity|]. split; [repeat constructor|].
  vm_compute. repeat split; discriminate.
Qed.

(** C63 is false for DestinationTo with three routes: the next step panics. *)
Theorem C63_refuted : exists ops : list (dev_op f64), run_devs ex_dev ops = Panic.
Proof.
  exists [DAddRoute [ex_route "r1" [ex_track "t1" [(0, 0); (0, 1)]%Z]; ex_route "r2" [ex_track "t2" [(0, 0); (0, 1)]%Z];
                     ex_route "r3" [ex_track "t3" [(0, 0); (0, 1)]%Z]];
          DDestinationTo (km 250); DNext true (f64_ofZ 5) ex_draws].
  vm_compute. reflexivity.
Qed.
Print Assumptions C63_refuted.

(** C64. The published list of routes (IDs, lengths, colours, tracks) is that of the navigator after
    every successful step, and after Update, whatever was done to the routes before. *)
Theorem C64_routes_published :
  forall (T : Type) (N : Num T) (J : JsonLib T) (U : UtmLib T) opts x (d0 : device T) ops d,
    built opts x d0 -> run_devs d0 ops = Ret d ->
    (forall tick y d', Next d true tick y = Ret (true, d') -> routes_published d') /\
    (forall d', device_Update d = Ret d' -> routes_published d').
Proof.
  intros T N J U opts x d0 ops d H1 H2. split; [intros; eapply C64_next_proof; eassumption|intros d'; apply C64_update_proof].
Qed.
Print Assumptions C64_routes_published.

(** a track added through a route handle is published by the next step *)
Example C64_example :
  let d := ran (run_devs ex_dev [DAddRoute [ex_r1]; DRouteOp 0 (RAddTrack (ex_track "t13" [(2, 2); (2, 3)]%Z))]) in
  let r := Next d true (f64_ofZ 5) ex_draws in
  let count d := option_map (fun l => map (fun r => zlen (pdr_tracks r)) (pds_routes l)) (pde_routes (d_state d)) in
  is_true_step r = true /\ count d = Some [2%Z] /\ count (after r) = Some [3%Z].
Proof. vm_compute. auto. Qed.
