(** Model of device.go and device_options.go.

    Locks: every method here runs under d.mu (or is a plain read), so a method is an atomic
    transition of the device; the TryLock / contended-tick behaviour of Next is modelled in
    Contention.v and the interleavings with the generator in Generator.v and GenConc.v.
    A [device] is a fully built device: navigator, speed and battery are never nil in one. *)
From Verif.Model Require Import Base Num Geo Curve PropMap Pb Types TypesSnap Track Route Navigator.
Open Scope num_scope.

(** device.go 22-25 *)
Definition Running : Z := 1.
Definition Stopped : Z := 2.

Section Device.
Context {T : Type} {N : Num T} {J : JsonLib T} {U : UtmLib T}.

(** device.go 31-42 *)
Record device : Type := mkDevice {
  d_status : Z;
  d_nav : navigator T;
  d_speed : speed T;
  d_battery : battery T;
  d_state : pbDevice T;
  d_sensors : list (sensor T);
  d_avgT : T;
  d_tick : Z;              (* uint32 *)
  d_ns : Z * Z * Z
}.

(** Field updates. *)
Definition dset_status (d : device) x :=
  mkDevice x (d_nav d) (d_speed d) (d_battery d) (d_state d) (d_sensors d) (d_avgT d) (d_tick d) (d_ns d).
Definition dset_nav (d : device) x :=
  mkDevice (d_status d) x (d_speed d) (d_battery d) (d_state d) (d_sensors d) (d_avgT d) (d_tick d) (d_ns d).
Definition dset_speed (d : device) x :=
  mkDevice (d_status d) (d_nav d) x (d_battery d) (d_state d) (d_sensors d) (d_avgT d) (d_tick d) (d_ns d).
Definition dset_battery (d : device) x :=
  mkDevice (d_status d) (d_nav d) (d_speed d) x (d_state d) (d_sensors d) (d_avgT d) (d_tick d) (d_ns d).
Definition dset_state (d : device) x :=
  mkDevice (d_status d) (d_nav d) (d_speed d) (d_battery d) x (d_sensors d) (d_avgT d) (d_tick d) (d_ns d).
Definition dset_sensors (d : device) x :=
  mkDevice (d_status d) (d_nav d) (d_speed d) (d_battery d) (d_state d) x (d_avgT d) (d_tick d) (d_ns d).
Definition dset_avgT (d : device) x :=
  mkDevice (d_status d) (d_nav d) (d_speed d) (d_battery d) (d_state d) (d_sensors d) x (d_tick d) (d_ns d).
Definition dset_tick (d : device) x :=
  mkDevice (d_status d) (d_nav d) (d_speed d) (d_battery d) (d_state d) (d_sensors d) (d_avgT d) x (d_ns d).
Definition dset_ns (d : device) x :=
  mkDevice (d_status d) (d_nav d) (d_speed d) (d_battery d) (d_state d) (d_sensors d) (d_avgT d) (d_tick d) x.

(** Updates of the state message. *)
Definition st_ident (s : pbDevice T) (id user model descr color : string) :=
  mkPbDevice id user (pde_tick s) (pde_duration s) model (pde_speed s) (pde_distance s)
    (pde_battery s) (pde_routes s) (pde_location s) (pde_navigator s) (pde_sensors s) descr
    (pde_is_offline s) (pde_offline_duration s) color (pde_time_estimate s) (pde_units s).
Definition st_time (s : pbDevice T) tick duration :=
  mkPbDevice (pde_id s) (pde_user_id s) tick duration (pde_model s) (pde_speed s)
    (pde_distance s) (pde_battery s) (pde_routes s) (pde_location s) (pde_navigator s)
    (pde_sensors s) (pde_description s) (pde_is_offline s) (pde_offline_duration s)
    (pde_color s) (pde_time_estimate s) (pde_units s).
Definition st_speed (s : pbDevice T) speed :=
  mkPbDevice (pde_id s) (pde_user_id s) (pde_tick s) (pde_duration s) (pde_model s) speed
    (pde_distance s) (pde_battery s) (pde_routes s) (pde_location s) (pde_navigator s)
    (pde_sensors s) (pde_description s) (pde_is_offline s) (pde_offline_duration s)
    (pde_color s) (pde_time_estimate s) (pde_units s).
Definition st_battery (s : pbDevice T) b estimate :=
  mkPbDevice (pde_id s) (pde_user_id s) (pde_tick s) (pde_duration s) (pde_model s) (pde_speed s)
    (pde_distance s) b (pde_routes s) (pde_location s) (pde_navigator s)
    (pde_sensors s) (pde_description s) (pde_is_offline s) (pde_offline_duration s)
    (pde_color s) estimate (pde_units s).
Definition st_routes (s : pbDevice T) r :=
  mkPbDevice (pde_id s) (pde_user_id s) (pde_tick s) (pde_duration s) (pde_model s) (pde_speed s)
    (pde_distance s) (pde_battery s) r (pde_location s) (pde_navigator s)
    (pde_sensors s) (pde_description s) (pde_is_offline s) (pde_offline_duration s)
    (pde_color s) (pde_time_estimate s) (pde_units s).
Definition st_sensors (s : pbDevice T) l :=
  mkPbDevice (pde_id s) (pde_user_id s) (pde_tick s) (pde_duration s) (pde_model s) (pde_speed s)
    (pde_distance s) (pde_battery s) (pde_routes s) (pde_location s) (pde_navigator s)
    l (pde_description s) (pde_is_offline s) (pde_offline_duration s)
    (pde_color s) (pde_time_estimate s) (pde_units s).
Definition st_offline (s : pbDevice T) off dur :=
  mkPbDevice (pde_id s) (pde_user_id s) (pde_tick s) (pde_duration s) (pde_model s) (pde_speed s)
    (pde_distance s) (pde_battery s) (pde_routes s) (pde_location s) (pde_navigator s)
    (pde_sensors s) (pde_description s) off dur
    (pde_color s) (pde_time_estimate s) (pde_units s).

(** device.go 919-937 *)
Definition initDeviceState : pbDevice T :=
  mkPbDevice "" "" f0 f0 "" f0
    (Some (mkPbDDistance f0 f0 f0 f0 f0 f0 f0 f0))
    (Some (mkPbDBattery f0 0))
    (Some (mkPbDRoutes []))
    (Some (mkPbDLocation f0 f0 f0 f0 (Some (mkPbDMS 0 0 f0 "")) (Some (mkPbDMS 0 0 f0 ""))
             (Some (mkPbUTM f0 f0 f0 0 "" "" 0))))
    (Some (mkPbDNavigator 0 0 0 "" ""))
    [] "" false 0 "" f0
    (Some (mkPbDUnit "meters" "meter per second" "seconds" "meters")).

(** ** Options *)

(** device_options.go 15-47 *)
Record deviceOptions : Type := mkDevOpts {
  do_id : string; do_model : string; do_color : string; do_userID : string; do_descr : string;
  do_skipOffline : bool; do_offMin : Z; do_offMax : Z;
  do_elevMin : T; do_elevMax : T; do_elevAmp : Z; do_elevMode : Z;
  do_batMin : T; do_batMax : T; do_batCharge : Z;
  do_speedMin : T; do_speedMax : T; do_speedAmp : Z }.

(** The randomness consumed by NewDevice: uuids, random strings and colors, curve draws. *)
Record newDraws : Type := mkNewDraws {
  nd_elevUUID : string; nd_elev : nat -> T; nd_speed : nat -> T;
  nd_id : string; nd_model : string; nd_color : string;
  nd_parsedColor : option string   (* colorful.Hex(opts.Color).Hex(), None on error *)
}.

(** device_options.go 49-75: the new state and the options, whose ID field is filled in *)
Definition applyFor (o : deviceOptions) (s : pbDevice T) (r : newDraws)
  : goret (pbDevice T) * deviceOptions :=
  let id := if (slen (do_id o) =? 0)%Z then nd_id r else do_id o in
  let o' := mkDevOpts id (do_model o) (do_color o) (do_userID o) (do_descr o) (do_skipOffline o)
              (do_offMin o) (do_offMax o) (do_elevMin o) (do_elevMax o) (do_elevAmp o)
              (do_elevMode o) (do_batMin o) (do_batMax o) (do_batCharge o) (do_speedMin o)
              (do_speedMax o) (do_speedAmp o) in
  let model := if (0 <? slen (do_model o))%Z then NewModel (do_model o)
               else GOk ("Device-" ++ nd_model r)%string in
  match model with
  | GErr e => (GErr e, o')
  | GOk m =>
      let color := if (0 <? slen (do_color o))%Z
                   then match nd_parsedColor r with Some c => GOk c | None => GErr ErrInvalidColor end
                   else GOk (nd_color r) in
      match color with
      | GErr e => (GErr e, o')
      | GOk c => (GOk (st_ident s id (do_userID o) m (do_descr o) c), o')
      end
  end.

(** device_options.go 77-95 *)
Definition navOpts (o : deviceOptions) : list (nav_option T) :=
  [WithElevation (do_elevMin o) (do_elevMax o) (do_elevAmp o) (do_elevMode o);
   WithOffline (do_offMin o) (do_offMax o)]
  ++ (if do_skipOffline o then [SkipOfflineMode] else []).

(** device_options.go 98-117; 7 hours in nanoseconds *)
Definition NewDeviceOptions : deviceOptions :=
  mkDevOpts "" "" "" "" "" false 2 60 (fofZ 10) (fofZ 300) 8 0 f0 (fofZ 100) 25200000000000
            f1 (fofZ 2) 16.

Definition with_preset (descr : string) (skip : bool) (emin emax : Z) (hours : Z)
    (smin smax amp : Z) : deviceOptions :=
  mkDevOpts "" "" "" "" descr skip 2 60 (fofZ emin) (fofZ emax) 8 0 f0 (fofZ 100)
            (hours * 3600000000000)%Z (fofZ smin) (fofZ smax) amp.

(** device_options.go 120-130 *)
Definition DefaultTrackerOptions : deviceOptions := with_preset "Tracker" false 0 350 8 1 5 16.
(** device_options.go 133-143 *)
Definition KidsTrackerOptions : deviceOptions := with_preset "Kids tracker" false 0 50 6 1 2 48.
(** device_options.go 146-156 *)
Definition DogTrackerOptions : deviceOptions := with_preset "Dog tracker" false 1 10 2 1 3 64.
(** device_options.go 159-169 *)
Definition BicycleTrackerOptions : deviceOptions :=
  with_preset "Bicycle tracker" false 1 125 12 2 8 8.
(** device_options.go 172-183 *)
Definition DroneTrackerOptions : deviceOptions :=
  with_preset "Drone tracker" true 1 2500 3 5 150 4.

(** device.go 45-79; also returns the (mutated) options *)
Definition NewDevice (opts : option deviceOptions) (r : newDraws)
  : goret device * deviceOptions :=
  let o := match opts with Some o => o | None => NewDeviceOptions end in
  match navigator_New (navOpts o) (nd_elevUUID r) (nd_elev r) with
  | GErr e => (GErr e, o)
  | GOk nav =>
    match NewSpeed (do_speedMin o) (do_speedMax o) (do_speedAmp o) (nd_speed r) with
    | GErr e => (GErr e, o)
    | GOk sp =>
      match NewBattery (do_batMin o) (do_batMax o) (do_batCharge o) with
      | GErr e => (GErr e, o)
      | GOk b =>
        match applyFor o initDeviceState r with
        | (GErr e, o') => (GErr e, o')
        | (GOk st, o') => (GOk (mkDevice Stopped nav sp b st [] f0 0 (0%Z, 0%Z, 0%Z)), o')
        end
      end
    end
  end.

(** ** Derived state *)

(** device.go 844-855 *)
Definition updateSensors (d : device) : device :=
  dset_state d (st_sensors (d_state d)
    (map (fun s => mkPbDSensor (s_id s) (s_name s) (s_valX s) (s_valY s)) (d_sensors d))).

(** device.go 895-898 *)
Definition calcAvgT (d : device) : device :=
  dset_avgT d (n_dist (d_nav d) / ((sp_min (d_speed d) + sp_max (d_speed d)) / fofZ 2)).

(** device.go 861-864, 868-871: the marshalled props, nil when the map is empty *)
Definition state_props (p : props T) : string :=
  if (0 <? props_len p)%Z then marshal_props (Some p) else "".

(** device.go 872-879 *)
Definition dtrack_of (t : track T) : pbDTrack T :=
  let p := fst (track_Props t) in
  mkPbDTrack (tk_id t) (tk_dist t) (NumSegments t) (tk_color t) (state_props p) (props_len p).

(** device.go 881-889 *)
Definition droute_of (r : route T) : pbDRoute T :=
  let p := fst (route_Props r) in
  mkPbDRoute (rt_id r) (map dtrack_of (rt_tracks r)) (rt_dist r) (rt_color r)
             (state_props p) (props_len p).

(** The effect of the Props() calls in updateRoutes: nil maps become empty ones. *)
Definition touch_props (r : route T) : route T :=
  let r := snd (route_Props r) in
  route_setTracks r (map (fun t => snd (track_Props t)) (rt_tracks r)).

(** device.go 857-893 *)
Definition updateRoutes (d : device) : res device :=
  let* _ := deref (pde_routes (d_state d)) in
  let routes := n_routes (d_nav d) in
  let d := dset_state d (st_routes (d_state d) (Some (mkPbDRoutes (map droute_of routes)))) in
  let d := dset_nav d (set_routes (d_nav d) (map touch_props routes)) in
  let d := calcAvgT d in
  Ret (dset_ns d (nav_Sum (d_nav d))).

(** device.go 830-836: overwrite the values of the already present sensor entries *)
Fixpoint refresh_sensors (l : list (sensor T)) (st : list (pbDSensor T)) : list (pbDSensor T) :=
  match l, st with
  | s :: l', e :: st' =>
      mkPbDSensor (pdn_id e) (pdn_name e) (s_valX s) (s_valY s) :: refresh_sensors l' st'
  | _, _ => st
  end.

(** device.go 823-837 *)
Definition updateState (d : device) : res device :=
  let* st := nav_Update (d_nav d) (d_state d) in
  let* _ := deref (pde_battery st) in
  let* dist := deref (pde_distance st) in
  let b := mkPbDBattery (battery_Value (d_battery d))
                        (ftrunc (duration_Seconds (b_chargeTime (d_battery d)))) in
  let st := st_battery st (Some b) (pdd_distance dist / pde_speed st) in
  let d := dset_state d st in
  if (zlen (d_sensors d) =? zlen (pde_sensors st))%Z
  then Ret (dset_state d (st_sensors st (refresh_sensors (d_sensors d) (pde_sensors st))))
  else Ret (updateSensors d).

(** device.go 839-842 *)
Definition updateOfflineState (d : device) : device :=
  dset_state d (st_offline (d_state d) (nav_IsOffline (d_nav d)) (n_off (d_nav d))).

(** device.go 376-383 *)
Definition device_Update (d : device) : res device :=
  let* d := updateState d in
  let* d := updateRoutes d in
  Ret (updateSensors d).

(** ** Attributes *)

(** device.go 112-121 *)
Definition SetModel (d : device) (model : string) : option goerr * device :=
  match NewModel model with
  | GErr e => (Some e, d)
  | GOk m =>
      let s := d_state d in
      (None, dset_state d (st_ident s (pde_id s) (pde_user_id s) m (pde_description s) (pde_color s)))
  end.

(** device.go 124-129 *)
Definition SetUserID (d : device) (id : string) : device :=
  let s := d_state d in
  dset_state d (st_ident s (pde_id s) id (pde_model s) (pde_description s) (pde_color s)).

(** device.go 132-136 *)
Definition SetDescription (d : device) (descr : string) : device :=
  let s := d_state d in
  dset_state d (st_ident s (pde_id s) (pde_user_id s) (pde_model s) descr (pde_color s)).

(** device.go 160-168; [hex] = Some (color.Hex()) when color.IsValid() *)
Definition SetColor (d : device) (hex : option string) : option goerr * device :=
  match hex with
  | None => (Some ErrInvalidColor, d)
  | Some c =>
      let s := d_state d in
      (None, dset_state d (st_ident s (pde_id s) (pde_user_id s) (pde_model s) (pde_description s) c))
  end.

(** ** Sensors *)

(** device.go 910-917 *)
Definition hasSensor (l : list (sensor T)) (id : string) : bool :=
  existsb (fun s => String.eqb (s_id s) id) l.

(** device.go 192-200 *)
Fixpoint add_sensors (l : list (sensor T)) (new : list (option (sensor T))) (ok : Z)
  : list (sensor T) * Z :=
  match new with
  | [] => (l, ok)
  | None :: r => add_sensors l r ok
  | Some s :: r => if hasSensor l (s_id s) then add_sensors l r ok
                   else add_sensors (l ++ [s]) r (ok + 1)%Z
  end.

(** device.go 184-205 *)
Definition AddSensor (d : device) (new : list (option (sensor T))) : device :=
  let '(l, ok) := add_sensors (d_sensors d) new 0 in
  let d := dset_sensors d l in
  if (0 <? ok)%Z then updateSensors d else d.

(** device.go 208-213 *)
Definition ResetSensors (d : device) : device := updateSensors (dset_sensors d []).

(** device.go 226-235 *)
Definition SensorByID (d : device) (id : string) : option (sensor T) :=
  find (fun s => String.eqb (s_id s) id) (d_sensors d).

(** device.go 240-269 *)
Definition RemoveSensor (d : device) (id : string) : bool * device :=
  if (slen id =? 0)%Z then (false, d)
  else
    match find_index (fun s => String.eqb (s_id s) id) (d_sensors d) with
    | None => (false, d)
    | Some i => (true, updateSensors (dset_sensors d (del_nth i (d_sensors d))))
    end.

(** device.go 286-295 *)
Definition SensorAt (d : device) (i : Z) : option (sensor T) :=
  if ((zlen (d_sensors d) =? 0) || (zlen (d_sensors d) - 1 <? i) || (i <? 0))%Z then None
  else zget (d_sensors d) i.

(** ** Routes *)

(** device.go 318-328 *)
Definition AddRoute (d : device) (routes : list (option (route T)))
  : res (option goerr * device) :=
  let '(err, n) := nav_AddRoute (d_nav d) routes in
  let d := dset_nav d n in
  match err with
  | None => let* d := updateRoutes d in Ret (None, d)
  | Some e => Ret (Some e, d)
  end.

(** device.go 338-347 *)
Definition RemoveRoute (d : device) (routeID : string) : res (bool * device) :=
  let '(ok, n) := nav_RemoveRoute (d_nav d) routeID in
  let d := dset_nav d n in
  if ok then let* d := updateRoutes d in Ret (true, d) else Ret (false, d).

(** device.go 350-359 *)
Definition RemoveTrack (d : device) (routeID trackID : string) : res (bool * device) :=
  let '(ok, n) := nav_RemoveTrack (d_nav d) routeID trackID in
  let d := dset_nav d n in
  if ok then let* d := updateRoutes d in Ret (true, d) else Ret (false, d).

(** device.go 506-514 *)
Definition ResetRoutes (d : device) : res (bool * device) :=
  let '(ok, n) := nav_ResetRoutes (d_nav d) in
  let d := dset_nav d n in
  if ok then let* d := updateRoutes d in Ret (true, d) else Ret (false, d).

(** device.go 525-585, the moves: the navigator moves, the state message is not refreshed *)
Definition device_move (d : device) (m : navigator T -> bool * navigator T) : bool * device :=
  let '(ok, n) := m (d_nav d) in (ok, dset_nav d n).

(** device.go 589-593 *)
Definition device_ToOffline (d : device) (draw : Z) : res device :=
  let* n := ToOffline (d_nav d) draw in Ret (dset_nav d n).

(** device.go 598-602 *)
Definition ResetNavigator (d : device) : device := dset_nav d (nav_Reset (d_nav d)).

(** device.go 449-453 *)
Definition device_IsFinish (d : device) : bool * device :=
  let '(b, n) := IsFinish (d_nav d) in (b, dset_nav d n).

(** device.go 623-627 *)
Definition Version (d : device) : Z * Z * Z := nav_Sum (d_nav d).

(** ** Simulation step *)

(** The randomness consumed by one call of Next. *)
Record nextDraws : Type := mkNextDraws {
  xd_low : Z;                  (* offline draw when the battery runs low *)
  xd_loc : Z;                  (* offline draw inside NextLocation *)
  xd_speed : nat -> T;         (* speed shuffle *)
  xd_elev : nat -> T;          (* elevation shuffle *)
  xd_sens : nat -> nat -> T    (* shuffle of sensor i *)
}.

(** device.go 818-821; math.Min(dur/avgT, 1.0) *)
Definition nextT (d : device) (tick : T) : T :=
  let dur := pde_duration (d_state d) + tick in
  fmin (dur / d_avgT d) f1.

(** device.go 669-671 *)
Fixpoint shuffle_sensors (i : nat) (l : list (sensor T)) (draws : nat -> nat -> T)
  : list (sensor T) :=
  match l with
  | [] => []
  | s :: r => sensor_Shuffle s (draws i) :: shuffle_sensors (S i) r draws
  end.

Definition ns_eqb (a b : Z * Z * Z) : bool :=
  let '(a1, a2, a3) := a in let '(b1, b2, b3) := b in
  ((a1 =? b1) && (a2 =? b2) && (a3 =? b3))%Z.

(** device.go 645-651: the elapsed seconds are accounted for, the battery drains *)
Definition next_account (d : device) (seconds : T) : device :=
  let d := dset_tick d 0 in
  let d := dset_state d (st_time (d_state d) seconds (pde_duration (d_state d) + seconds)) in
  dset_battery d (battery_Next (d_battery d) seconds).

(** device.go 652-655 *)
Definition next_lowBattery (d : device) (x : nextDraws) : res device :=
  if battery_IsLow (d_battery d)
  then let* n := ToOffline (d_nav d) (xd_low x) in
       Ret (dset_nav (dset_battery d (battery_Reset (d_battery d))) n)
  else Ret d.

(** device.go 657-660 *)
Definition next_speed (d : device) (t : T) : res device :=
  let* sp := speed_Next (d_speed d) t in
  let d := dset_speed d sp in
  Ret (dset_state d (st_speed (d_state d) (speed_Value sp))).

(** device.go 663-675: NextLocation answered false *)
Definition next_stopped (d : device) (x : nextDraws) : res (bool * device) :=
  let d := updateOfflineState d in
  let '(fin, n) := IsFinish (d_nav d) in
  let d := dset_nav d n in
  if fin : bool then
    let d := dset_state d (st_time (d_state d) (pde_tick (d_state d)) f0) in
    let d := dset_speed d (speed_Shuffle (d_speed d) (xd_speed x)) in
    let* n := ShuffleElevation (d_nav d) (xd_elev x) in
    let d := dset_nav d n in
    let d := dset_sensors d (shuffle_sensors 0 (d_sensors d) (xd_sens x)) in
    let* d := updateState d in
    Ret (false, d)
  else Ret (false, d).

(** device.go 677-691: NextLocation answered true *)
Definition next_moved (d : device) (t : T) : res (bool * device) :=
  let* n := NextElevation (d_nav d) t in
  let d := dset_nav d n in
  let* ss := mapM (fun s => sensor_Next s t) (d_sensors d) in
  let d := dset_sensors d ss in
  let* d := if ns_eqb (d_ns d) (nav_Sum (d_nav d)) then Ret d else updateRoutes d in
  let* d := updateState d in
  Ret (true, d).

(** device.go 641-691: the body of Next once the lock is held *)
Definition Next_locked (d : device) (tick : T) (x : nextDraws) : res (bool * device) :=
  match n_routes (d_nav d) with
  | [] => Ret (false, d)
  | _ =>
    let seconds := fofZ (d_tick d) + tick in
    let d := next_account d seconds in
    let* d := next_lowBattery d x in
    let t := nextT d seconds in
    let* d := next_speed d t in
    let* (ok, n) := NextLocation (d_nav d) seconds (pde_speed (d_state d)) (xd_loc x) in
    let d := dset_nav d n in
    if ok : bool then next_moved d t else next_stopped d x
  end.

(** device.go 634-638, 810-812: Next when the lock is taken by somebody else *)
Definition Next_contended (d : device) : bool * device :=
  (false, dset_tick d ((d_tick d + 1) mod 2 ^ 32)%Z).

(** device.go 633-692; [free] = the result of TryLock *)
Definition Next (d : device) (free : bool) (tick : T) (x : nextDraws) : res (bool * device) :=
  if free then Next_locked d tick x else Ret (Next_contended d).

(** ** Snapshots *)

(** device.go 719-743 *)
Definition device_Snapshot (d : device) : res (pbSnapshot T) :=
  let s := d_state d in
  let* nav := nav_Snapshot (d_nav d) in
  Ret (mkPbSnapshot (pde_id s) (pde_user_id s) (pde_tick s) (pde_duration s) (pde_model s)
         (pde_description s) Stopped (pde_color s) (Some nav) (Some (speed_Snapshot (d_speed d)))
         (Some (battery_Snapshot (d_battery d))) (map sensor_Snapshot (d_sensors d))).

(** device.go 748-779; [d] is the receiver: its sensors survive when the snapshot has none
    (line 768), its pending tick and avgT, ns are overwritten or kept as in the code.
    Status(snap.Status) truncates to a byte. *)
Definition device_FromSnapshot (d : device) (snap : pbSnapshot T) : res device :=
  let st := st_ident initDeviceState (psn_id snap) (psn_user_id snap) (psn_model snap)
                     (psn_descr snap) (psn_color snap) in
  let st := st_time st (psn_tick snap) (psn_duration snap) in
  let* nav := nav_FromSnapshot nav_zero (psn_navigator snap) in
  let* sp := speed_FromSnapshot (psn_speed snap) in
  let st := st_speed st (speed_Value sp) in
  let* b := battery_FromSnapshot (psn_battery snap) in
  let* sensors :=
    match psn_sensors snap with
    | [] => Ret (d_sensors d)
    | l => mapM (fun s => sensor_FromSnapshot (Some s)) l
    end in
  let d := mkDevice (psn_status snap mod 256)%Z nav sp b st sensors (d_avgT d) (d_tick d) (d_ns d) in
  let d := updateSensors d in
  let* d := updateState d in
  updateRoutes d.

(** new(Device) (encoding.go 28): the nil navigator, speed and battery pointers are replaced by
    zero values, harmless because FromSnapshot overwrites all three before any use. *)
Definition device_zero : device :=
  mkDevice 0 nav_zero (mkSpeed f0 f0 f0 (mkCurve [] 0 f0 f0)) (mkBattery f0 f0 f0 0)
           initDeviceState [] f0 0 (0%Z, 0%Z, 0%Z).

(** ** Generator membership *)

(** device.go 790-798 *)
Definition mount (d : device) : option goerr * device :=
  if (d_status d =? Running)%Z then (Some ErrAlreadyRunning, d)
  else (None, dset_status d Running).

(** device.go 800-808 *)
Definition unmount (d : device) : option goerr * device :=
  if (d_status d =? Stopped)%Z then (Some ErrAlreadyStopped, d)
  else (None, dset_status d Stopped).

End Device.
Arguments device : clear implicits.
Arguments deviceOptions : clear implicits.
Arguments newDraws : clear implicits.
Arguments nextDraws : clear implicits.
