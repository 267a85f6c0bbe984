(** C84: restoring devices, routes and navigators in place. *)
From Verif.Model Require Import Base Num NumF64 Geo Curve PropMap Types Pb TypesSnap Track Route Navigator Device IO.
From Verif.Spec Require Import ListSpec TrackSpec RouteSpec NavSpec TypesSpec DeviceSpec Examples DeviceExamples.
From Verif.Proofs Require Import InPlace.
Open Scope num_scope.

(** C84. A device that is restored from a snapshot is the same whatever it was before, but for two things: seconds
    owed from contended calls, and its sensors if the snapshot has none. In particular it is what DecodeTracker
    makes of the snapshot (the device [device_zero]). *)
Theorem C84_device_partial :
  forall (T : Type) (N : Num T) (J : JsonLib T) (U : UtmLib T) (d e : device T) (s : pbSnapshot T),
    d_tick d = d_tick e -> (psn_sensors s <> [] \/ d_sensors d = d_sensors e) ->
    device_FromSnapshot d s = device_FromSnapshot e s.
Proof. exact @C84_device_proof. Qed.
Print Assumptions C84_device_partial.

(** Those two do stay: a device with sensors keeps them if the snapshot has none. *)
Theorem C84_sensors_refuted :
  forall (T : Type) (N : Num T) (J : JsonLib T) (U : UtmLib T) (d : device T) (s : pbSnapshot T) (x : device T),
    device_FromSnapshot d s = Ret x -> d_tick x = d_tick d /\ (psn_sensors s = [] -> d_sensors x = d_sensors d).
Proof. exact @C84_kept_proof. Qed.
Print Assumptions C84_sensors_refuted.

(** A route: all or nothing, and the same whatever it was before, if the snapshot has a name. *)
Theorem C84_route_partial :
  forall (T : Type) (J : JsonLib T) (r r' : route T) (s : pbRoute T),
    (pro_name s <> ""%string \/ rt_name r = rt_name r') ->
    match RouteFromSnapshot r s, RouteFromSnapshot r' s with
    | Ret (None, x), Ret (None, y) => x = y
    | Ret (Some e, x), Ret (Some e', y) => e = e' /\ x = r /\ y = r'
    | Panic, Panic => True
    | _, _ => False
    end.
Proof. intros T J. exact C84_route_proof. Qed.
Print Assumptions C84_route_partial.

(** A route with a name keeps it if the snapshot has none. *)
Theorem C84_name_refuted :
  forall (T : Type) (J : JsonLib T) (r : route T) (s : pbRoute T) (x : route T),
    pro_name s = ""%string -> RouteFromSnapshot r s = Ret (None, x) -> rt_name x = rt_name r.
Proof. intros T J. exact C84_name_proof. Qed.
Print Assumptions C84_name_refuted.

(** A navigator that is not in skip-offline mode: the same whatever it was before, and it can go offline. *)
Theorem C84_navigator_partial :
  forall (T : Type) (N : Num T) (J : JsonLib T) (n n' : navigator T) (s : pbNavigator T),
    n_skip n = false -> n_skip n' = false -> nav_FromSnapshot n (Some s) = nav_FromSnapshot n' (Some s).
Proof. intros T N J. exact C84_navigator_proof. Qed.
Print Assumptions C84_navigator_partial.
Theorem C84_new_navigator :
  forall (T : Type) (N : Num T) (J : JsonLib T) (s : pbNavigator T) (n' : navigator T) draw,
    nav_FromSnapshot nav_zero (Some s) = Ret n' -> exists n'', ToOffline n' draw = Ret n''.
Proof. intros T N J. exact C84_fresh_proof. Qed.
Print Assumptions C84_new_navigator.

(** A navigator made with SkipOfflineMode and restored from the snapshot of one that goes offline panics when it is to go offline. *)
Theorem C84_skip_refuted :
  forall (T : Type) (N : Num T) (J : JsonLib T) (n : navigator T) (s : pbNavigator T) n' draw,
    n_skip n = true -> n_rnd n = None -> pna_skip_offline s = false -> nav_FromSnapshot n (Some s) = Ret n' -> ToOffline n' draw = Panic.
Proof. intros T N J. exact C84_skip_proof. Qed.
Print Assumptions C84_skip_refuted.

(** A device with a sensor is restored from the snapshot of one that has none, and the other way round. *)
Example C84_device_example :
  let with_sensor := ran (run_devs ex_dev [DAddSensor [ex_sensor "s1" "temperature"]; DAddRoute [ex_r1]]) in
  let without := ran (run_devs ex_dev [DAddRoute [ex_r1]]) in
  let restored d e := match device_Snapshot e with Ret s => match device_FromSnapshot d s with Ret x => Some (map s_id (d_sensors x), map pdn_id (pde_sensors (d_state x))) | _ => None end | _ => None end in
  restored with_sensor without = Some (["s1"%string], ["s1"%string]) /\ restored device_zero without = Some ([], []) /\
  restored without with_sensor = Some (["s1"%string], ["s1"%string]) /\ d_tick with_sensor = d_tick (T := f64) device_zero.
Proof. vm_compute. repeat split. Qed.

(** A new navigator in skip-offline mode, and the snapshot of a new one that goes offline. *)
Example C84_skip_example :
  let skip := navigator_New [SkipOfflineMode] "u" (fun _ => f64_ofZ 0) in
  let plain := navigator_New (T := f64) [] "u" (fun _ => f64_ofZ 0) in
  match skip, plain with
  | GOk n, GOk p => n_skip n = true /\ n_rnd n = None /\
      match nav_Snapshot p with
      | Ret s => pna_skip_offline s = false /\ match nav_FromSnapshot n (Some s) with Ret n' => ToOffline n' 5 = Panic | _ => False end
      | _ => False
      end
  | _, _ => False
  end.
Proof. vm_compute. auto. Qed.
