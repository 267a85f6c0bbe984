(** Histories of public calls on a device, and what a user can observe of it. *)
From Verif.Model Require Import Base Num Geo Curve PropMap Types Pb TypesSnap Track Route Navigator Device.
From Verif.Spec Require Import ListSpec TrackSpec RouteSpec NavSpec TypesSpec.
Open Scope num_scope.

Section DeviceSpec.
Context {T : Type} {N : Num T} {J : JsonLib T} {U : UtmLib T}.

(** The public calls that can change a device, the calls its generator makes on it, and calls on
    its routes, tracks and sensors through the handles it hands out. *)
Inductive dev_op : Type :=
| DSetModel (m : string) | DSetUserID (s : string) | DSetDescription (s : string)
| DSetColor (hex : option string)
| DAddSensor (l : list (option (sensor T))) | DResetSensors | DRemoveSensor (id : string)
| DSensorOp (i : nat) (o : gen_op T)             (* a call on the i-th sensor *)
| DAddRoute (rs : list (option (route T))) | DRemoveRoute (id : string)
| DRemoveTrack (rid tid : string) | DResetRoutes
| DRouteOp (i : nat) (o : route_op T)            (* a call on the i-th route *)
| DToNextRoute | DToPrevRoute
| DMoveToRouteByID (id : string) | DMoveToTrackByID (rid tid : string)
| DMoveToRoute (r : Z) | DMoveToTrack (r t : Z) | DMoveToSegment (r t s : Z)
| DDestinationTo (meters : T)
| DToOffline (draw : Z) | DResetNavigator | DIsFinish
| DUpdate
| DNext (free : bool) (tick : T) (x : nextDraws T)  (* [free]: nobody else holds the lock *)
| DMount | DUnmount                              (* Attach / Detach of a generator *)
| DSnapshot.                                     (* Snapshot, and all other queries *)

Definition run_sensor1 (s : sensor T) (o : gen_op T) : res (sensor T) := run_sensor s [o].

Definition run_dev (d : device T) (o : dev_op) : res (device T) :=
  match o with
  | DSetModel m => Ret (snd (SetModel d m))
  | DSetUserID s => Ret (SetUserID d s)
  | DSetDescription s => Ret (SetDescription d s)
  | DSetColor h => Ret (snd (SetColor d h))
  | DAddSensor l => Ret (AddSensor d l)
  | DResetSensors => Ret (ResetSensors d)
  | DRemoveSensor id => Ret (snd (RemoveSensor d id))
  | DSensorOp i o =>
      match nth_error (d_sensors d) i with
      | Some s => let* s' := run_sensor1 s o in Ret (dset_sensors d (set_nth i s' (d_sensors d)))
      | None => Ret d
      end
  | DAddRoute rs => let* (_, d') := AddRoute d rs in Ret d'
  | DRemoveRoute id => let* (_, d') := RemoveRoute d id in Ret d'
  | DRemoveTrack r t => let* (_, d') := RemoveTrack d r t in Ret d'
  | DResetRoutes => let* (_, d') := ResetRoutes d in Ret d'
  | DRouteOp i o => Ret (dset_nav d (nav_mutateRoute (d_nav d) i (fun r => run_route r o)))
  | DToNextRoute => Ret (snd (device_move d NextRoute))
  | DToPrevRoute => Ret (snd (device_move d PrevRoute))
  | DMoveToRouteByID id => Ret (snd (device_move d (fun n => MoveToRouteByID n id)))
  | DMoveToTrackByID r t => Ret (snd (device_move d (fun n => MoveToTrackByID n r t)))
  | DMoveToRoute r => Ret (snd (device_move d (fun n => MoveToRoute n r)))
  | DMoveToTrack r t => Ret (snd (device_move d (fun n => MoveToTrack n r t)))
  | DMoveToSegment r t s => Ret (snd (device_move d (fun n => MoveToSegment n r t s)))
  | DDestinationTo m => Ret (snd (device_move d (fun n => DestinationTo n m)))
  | DToOffline draw => device_ToOffline d draw
  | DResetNavigator => Ret (ResetNavigator d)
  | DIsFinish => Ret (snd (device_IsFinish d))
  | DUpdate => device_Update d
  | DNext free tick x => let* (_, d') := Next d free tick x in Ret d'
  | DMount => Ret (snd (mount d))
  | DUnmount => Ret (snd (unmount d))
  | DSnapshot =>
      let* _ := run_nav (d_nav d) NQuery in
      let* _ := device_Snapshot d in Ret d
  end.

Fixpoint run_devs (d : device T) (ops : list dev_op) : res (device T) :=
  match ops with
  | [] => Ret d
  | o :: r => let* d' := run_dev d o in run_devs d' r
  end.

(** [d] is a device somebody built with NewDevice and used through [ops]. *)
Definition built (opts : option (deviceOptions T)) (x : newDraws T) (d : device T) : Prop :=
  fst (NewDevice opts x) = GOk d.

(** NewDevice(nil) uses the default options *)
Definition options_of (opts : option (deviceOptions T)) : deviceOptions T :=
  match opts with Some o => o | None => NewDeviceOptions end.

(** sensors come from NewSensor, possibly used before they were added *)
Definition made_sensor (s : sensor T) : Prop :=
  exists name min max amp mode uuid draws s0 ops,
    NewSensor name min max amp mode uuid draws = GOk s0 /\ run_sensor s0 ops = Ret s.
Definition sensors_made (o : dev_op) : Prop :=
  match o with DAddSensor l => forall s, In (Some s) l -> made_sensor s | _ => True end.

(** DestinationTo is only called while the device holds at most two routes *)
Fixpoint dev_jumps_on_at_most_two_routes (d : device T) (ops : list dev_op) : Prop :=
  match ops with
  | [] => True
  | o :: r =>
      match o with DDestinationTo _ => (zlen (n_routes (d_nav d)) <= 2)%Z | _ => True end /\
      match run_dev d o with Ret d' => dev_jumps_on_at_most_two_routes d' r | _ => True end
  end.

(** ** Time *)

Definition duration (d : device T) : T := pde_duration (d_state d).
Definition last_tick (d : device T) : T := pde_tick (d_state d).
(** seconds owed for Next calls that found the device locked *)
Definition owed (d : device T) : Z := d_tick d.

(** The seconds an uncontended Next call accounts for. *)
Definition amount (d : device T) (tick : T) : T := fofZ (owed d) + tick.
(** Does that drain the battery? *)
Definition drains (d : device T) (tick : T) : bool :=
  battery_IsLow (battery_Next (d_battery d) (amount d tick)).
(** The navigator when it is asked to move: sent offline first if the battery is empty. *)
Definition nav_asked (d : device T) (tick : T) (x : nextDraws T) : res (navigator T) :=
  if drains d tick then ToOffline (d_nav d) (xd_low x) else Ret (d_nav d).
(** The call completes the journey: the navigator, asked to move at the speed [v], does not move and
    says that it has finished. *)
Definition completes_journey (d : device T) (tick : T) (x : nextDraws T) (v : T) : Prop :=
  exists n1 n2, nav_asked d tick x = Ret n1 /\
    NextLocation n1 (amount d tick) v (xd_loc x) = Ret (false, n2) /\ fst (IsFinish n2) = true.

(** Everything but a Next call. *)
Definition not_next (o : dev_op) : Prop := match o with DNext _ _ _ => False | _ => True end.

(** [since_completion d0 ops l k d]: the calls [ops] take the device from [d0] to [d], and since the
    beginning or the last completion the uncontended Next calls accounted for the amounts [l], in this
    order; [k] contended calls (modulo 2^32) are still owed. *)
Inductive since_completion (d0 : device T) : list dev_op -> list T -> Z -> device T -> Prop :=
| sc_start : since_completion d0 [] [] 0 d0
| sc_other ops l k d o d' : since_completion d0 ops l k d -> run_dev d o = Ret d' -> not_next o ->
    since_completion d0 (ops ++ [o]) l k d'
| sc_contended ops l k d s x d' : since_completion d0 ops l k d -> run_dev d (DNext false s x) = Ret d' ->
    since_completion d0 (ops ++ [DNext false s x]) l ((k + 1) mod 2 ^ 32)%Z d'
| sc_no_routes ops l k d s x d' : since_completion d0 ops l k d -> run_dev d (DNext true s x) = Ret d' ->
    n_routes (d_nav d) = [] ->
    since_completion d0 (ops ++ [DNext true s x]) l k d'
| sc_on ops l k d s x d' : since_completion d0 ops l k d -> run_dev d (DNext true s x) = Ret d' ->
    n_routes (d_nav d) <> [] -> ~ completes_journey d s x (pde_speed (d_state d')) ->
    since_completion d0 (ops ++ [DNext true s x]) (l ++ [fofZ k + s]) 0 d'
| sc_completed ops l k d s x d' : since_completion d0 ops l k d -> run_dev d (DNext true s x) = Ret d' ->
    n_routes (d_nav d) <> [] -> completes_journey d s x (pde_speed (d_state d')) ->
    since_completion d0 (ops ++ [DNext true s x]) [] 0 d'.

(** ** The navigator calls behind a device call *)

(** SetProps-like calls on a route or track: they change nothing but properties *)
Definition quiet (o : nav_op T) : Prop :=
  match o with NRouteOp _ (RSetProps _) | NRouteOp _ (RTrackSetProps _ _) => True | _ => False end.

(** [calls o lo]: the navigator call [lo] may be made while serving the device call [o] *)
Definition calls (o : dev_op) (lo : nav_op T) : Prop :=
  quiet lo \/
  match o with
  | DAddRoute rs => lo = NAddRoute rs
  | DRemoveRoute id => lo = NRemoveRoute id
  | DRemoveTrack r t => lo = NRemoveTrack r t
  | DResetRoutes => lo = NResetRoutes
  | DRouteOp i p => lo = NRouteOp i p
  | DToNextRoute => lo = NNextRoute
  | DToPrevRoute => lo = NPrevRoute
  | DMoveToRouteByID id => lo = NMoveToRouteByID id
  | DMoveToTrackByID r t => lo = NMoveToTrackByID r t
  | DMoveToRoute r => lo = NMoveToRoute r
  | DMoveToTrack r t => lo = NMoveToTrack r t
  | DMoveToSegment r t s => lo = NMoveToSegment r t s
  | DDestinationTo m => lo = NDestinationTo m
  | DToOffline draw => lo = NToOffline draw
  | DResetNavigator => lo = NReset
  | DIsFinish => lo = NIsFinish
  | DNext true tick x =>
      lo = NToOffline (xd_low x) \/ lo = NIsFinish \/ lo = NShuffleElevation (xd_elev x) \/
      (exists t, lo = NNextElevation t) \/ exists k v, lo = NNextLocation (fofZ k + tick) v (xd_loc x)
  | _ => False
  end.

(** ** Sensors *)

(** the non-nil sensors of [l] whose IDs are neither among [ids] nor carried by an earlier one *)
Fixpoint unseen (ids : list string) (l : list (option (sensor T))) : list (sensor T) :=
  match l with
  | [] => []
  | None :: r => unseen ids r
  | Some s :: r => if in_dec string_dec (s_id s) ids then unseen ids r else s :: unseen (s_id s :: ids) r
  end.
Definition sensor_ids (d : device T) : list string := map (@s_id T) (d_sensors d).
Definition other_id (id : string) (s : sensor T) : bool := negb (String.eqb (s_id s) id).

(** ** The published state *)

(** one published entry per sensor, in order *)
Definition sensor_entry (s : sensor T) : pbDSensor T := mkPbDSensor (s_id s) (s_name s) (s_valX s) (s_valY s).
Definition sensors_published (d : device T) : Prop :=
  pde_sensors (d_state d) = map sensor_entry (d_sensors d).

(** position, distances, location, bearing, elevation, offline status, charge *)
Definition navigator_published (d : device T) : Prop :=
  let n := d_nav d in let st := d_state d in
  (exists v, pde_navigator st = Some v /\
     (pdv_current_route_index v, pdv_current_track_index v, pdv_current_segment_index v) = position n) /\
  (exists x, pde_distance st = Some x /\
     pdd_distance x = n_dist n /\ pdd_current_distance x = n_cd n /\
     RouteDistance n = Ret (pdd_route_distance x) /\ pdd_current_route_distance x = n_crd n /\
     TrackDistance n = Ret (pdd_track_distance x) /\ pdd_current_track_distance x = n_ctd n /\
     SegmentDistance n = Ret (pdd_segment_distance x) /\ pdd_current_segment_distance x = n_csd n) /\
  (exists l e, pde_location st = Some l /\ n_elev n = Some e /\
     (pdl_lat l, pdl_lon l) = (lat (n_point n), lon (n_point n)) /\ pdl_elevation l = s_valY e /\
     CurrentBearing n = Ret (pdl_bearing l) /\
     pdl_lat_dms l = Some (dms_of (lat (n_point n)) "N" "S") /\
     pdl_lon_dms l = Some (dms_of (lon (n_point n)) "E" "W") /\
     pdl_utm l = Some (utm_of (lat (n_point n)) (lon (n_point n)))) /\
  pde_is_offline st = nav_IsOffline n /\ pde_offline_duration st = n_off n.
Definition battery_published (d : device T) : Prop :=
  exists b, pde_battery (d_state d) = Some b /\ pdb_charge b = battery_Value (d_battery d).
(** the published IDs are those of the current route and track, [none] says what is expected of
    the published string when there is no current route or track *)
Definition shown (none : string -> Prop) (published : string) (id : option string) : Prop :=
  match id with Some i => published = i | None => none published end.
Definition ids_published (none : string -> Prop) (d : device T) : Prop :=
  exists v r t, pde_navigator (d_state d) = Some v /\
    CurrentRoute (d_nav d) = Ret r /\ CurrentTrack (d_nav d) = Ret t /\
    shown none (pdv_current_route_id v) (option_map rt_id r) /\
    shown none (pdv_current_track_id v) (option_map tk_id t).

(** the published list of routes, apart from properties *)
Definition routes_published (d : device T) : Prop :=
  exists l, pde_routes (d_state d) = Some l /\
    map (fun r => (pdr_route_id r, pdr_distance r, pdr_color r,
           map (fun t => (pdt_track_id t, pdt_distance t, pdt_num_segments t, pdt_color t)) (pdr_tracks r)))
        (pds_routes l) =
    map (fun r => (rt_id r, rt_dist r, rt_color r,
           map (fun t => (tk_id t, tk_dist t, zlen (tk_segments t), tk_color t)) (rt_tracks r)))
        (n_routes (d_nav d)).

End DeviceSpec.
Arguments dev_op : clear implicits.
