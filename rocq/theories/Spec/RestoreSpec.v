(** What it means that a restored device goes on like the original. *)
From Verif.Model Require Import Base Num Utf8 Geo Curve PropMap Types Pb TypesSnap Track Route Navigator Device Wire WireMsgs IO.
From Verif.Spec Require Import ListSpec TrackSpec RouteSpec NavSpec TypesSpec DeviceSpec SnapSpec WireSpec WireMsgSpec.
Open Scope num_scope.

Section RestoreSpec.
Context {T : Type} {N : Num T} {J : JsonLib T} {U : UtmLib T}.

(** ** What a call returns *)
Inductive answer : Type := Done | Bool (b : bool) | Err (e : option goerr).

Definition reply (d : device T) (o : dev_op T) : res answer :=
  match o with
  | DSetModel m => Ret (Err (fst (SetModel d m)))
  | DSetColor h => Ret (Err (fst (SetColor d h)))
  | DRemoveSensor id => Ret (Bool (fst (RemoveSensor d id)))
  | DAddRoute rs => let* r := AddRoute d rs in Ret (Err (fst r))
  | DRemoveRoute id => let* r := RemoveRoute d id in Ret (Bool (fst r))
  | DRemoveTrack r t => let* x := RemoveTrack d r t in Ret (Bool (fst x))
  | DResetRoutes => let* r := ResetRoutes d in Ret (Bool (fst r))
  | DToNextRoute => Ret (Bool (fst (device_move d NextRoute)))
  | DToPrevRoute => Ret (Bool (fst (device_move d PrevRoute)))
  | DMoveToRouteByID id => Ret (Bool (fst (device_move d (fun n => MoveToRouteByID n id))))
  | DMoveToTrackByID r t => Ret (Bool (fst (device_move d (fun n => MoveToTrackByID n r t))))
  | DMoveToRoute r => Ret (Bool (fst (device_move d (fun n => MoveToRoute n r))))
  | DMoveToTrack r t => Ret (Bool (fst (device_move d (fun n => MoveToTrack n r t))))
  | DMoveToSegment r t s => Ret (Bool (fst (device_move d (fun n => MoveToSegment n r t s))))
  | DDestinationTo m => Ret (Bool (fst (device_move d (fun n => DestinationTo n m))))
  | DIsFinish => Ret (Bool (fst (device_IsFinish d)))
  | DNext free tick x => let* r := Next d free tick x in Ret (Bool (fst r))
  | DMount => Ret (Err (fst (mount d)))
  | DUnmount => Ret (Err (fst (unmount d)))
  | _ => let* _ := run_dev d o in Ret Done
  end.

(** the answers to a sequence of calls, up to a panic *)
Fixpoint replies (d : device T) (ops : list (dev_op T)) : list (res answer) :=
  match ops with
  | [] => []
  | o :: r => reply d o :: match run_dev d o with Ret d' => replies d' r | _ => [] end
  end.

(** attaching the device to a generator and detaching it *)
Definition not_attach (o : dev_op T) : Prop := match o with DMount | DUnmount => False | _ => True end.

(** ** What can be seen of a device *)

(** A map that does not exist reads as an empty one. *)
Definition props_view (p : option (props T)) : props T := match p with Some q => q | None => props_Make end.

(** Looking at an object with ([keep = true]) or without its properties. *)
Definition view_props (keep : bool) (p : option (props T)) : option (props T) :=
  Some (if keep then props_view p else props_Make).
Definition view_track (keep : bool) (t : track T) : track T := mkTrack (tk_id t) (tk_segments t) (tk_color t)
  (tk_name t) (view_props keep (tk_props t)) (tk_dist t) (tk_isClosed t) (tk_version t).
Definition view_route (keep : bool) (r : route T) : route T := mkRoute (rt_id r) (rt_dist r) (rt_color r) (rt_name r)
  (map (view_track keep) (rt_tracks r)) (view_props keep (rt_props r)) (rt_version r).
(** The offline range does not matter in skip-offline mode. *)
Definition view_nav (keep : bool) (n : navigator T) : navigator T :=
  mkNav (map (view_route keep) (n_routes n)) (n_ri n) (n_ti n) (n_si n) (n_csd n) (n_crd n) (n_ctd n) (n_cd n) (n_off n)
    (n_point n) (n_elev n) (if n_skip n then None else n_rnd n) (n_dist n) (n_skip n) (n_ver n).
(** The published entries: encoded properties and their number are properties too. *)
Definition view_dtrack (keep : bool) (t : pbDTrack T) : pbDTrack T :=
  if keep then t else mkPbDTrack (pdt_track_id t) (pdt_distance t) (pdt_num_segments t) (pdt_color t) "" 0.
Definition view_droute (keep : bool) (r : pbDRoute T) : pbDRoute T :=
  if keep then r else mkPbDRoute (pdr_route_id r) (map (view_dtrack keep) (pdr_tracks r)) (pdr_distance r) (pdr_color r) "" 0.
Definition view_state (keep : bool) (s : pbDevice T) : pbDevice T :=
  st_routes s (option_map (fun l => mkPbDRoutes (map (view_droute keep) (pds_routes l))) (pde_routes s)).
(** Everything of a device, with or without the status (attached to a generator or not). *)
Definition view (status keep : bool) (d : device T) : device T :=
  mkDevice (if status then d_status d else 0%Z) (view_nav keep (d_nav d)) (d_speed d) (d_battery d) (view_state keep (d_state d)) (d_sensors d) (d_avgT d)
    (d_tick d) (d_ns d).

Definition same_result {A : Type} (P : A -> A -> Prop) (x y : res A) : Prop :=
  match x, y with
  | Ret a, Ret b => P a b
  | Panic, Panic => True
  | NoFuel, NoFuel => True
  | _, _ => False
  end.

(** [goes_on_like status keep d d' ops]: the calls [ops] give the same answers on both devices and leave
    them looking the same. *)
Definition goes_on_like (status keep : bool) (d d' : device T) (ops : list (dev_op T)) : Prop :=
  replies d' ops = replies d ops /\
  same_result (fun a b => view status keep a = view status keep b) (run_devs d ops) (run_devs d' ops).

(** ** Properties *)

(** gone through JSON, or the same *)
Definition kept_props (p p' : option (props T)) : Prop :=
  props_view p' = props_view p \/
  ((json_able (props_view p) -> json_props (props_view p) (props_view p')) /\
   (json_unable (props_view p) -> props_view p' = props_Make)).
Definition kept_route_props (r r' : route T) : Prop :=
  kept_props (rt_props r) (rt_props r') /\
  Forall2 (fun t t' => kept_props (tk_props t) (tk_props t')) (rt_tracks r) (rt_tracks r').
Definition kept_all_props (d d' : device T) : Prop :=
  Forall2 kept_route_props (n_routes (d_nav d)) (n_routes (d_nav d')).

(** Maps JSON does not change: no integers, nothing it cannot encode. *)
Definition json_same (p : option (props T)) : Prop :=
  json_able (props_view p) /\ forall p', json_props (props_view p) p' -> p' = props_view p.
Definition json_same_device (d : device T) : Prop :=
  Forall (fun r => json_same (rt_props r) /\ Forall (fun t => json_same (tk_props t)) (rt_tracks r)) (n_routes (d_nav d)).

(** ** Devices a program can get hold of *)

Context {B : Bits64 T}.

(** built with NewDevice or decoded from whatever bytes, then used *)
Inductive made_device : device T -> Prop :=
| md_new opts x d : built opts x d -> made_device d
| md_decoded b d : DecodeTracker b = Ret (GOk d) -> made_device d
| md_used d o d' : made_device d -> dev_adds_made_routes o -> run_dev d o = Ret d' -> made_device d'.

(** The numbers of the device are Go integers and its encoding [b] is a Go slice. *)
Definition go_sized (d : device T) (b : list byte) : Prop :=
  (forall s, device_Snapshot d = Ret s -> int64_Snapshot s) /\ (zlen b < 2 ^ 63)%Z.

(** the published speed is the current one *)
Definition speed_published (d : device T) : Prop := pde_speed (d_state d) = speed_Value (d_speed d).
(** What a snapshot does not carry: the seconds owed for contended Next calls, the IDs still published
    after the current route or track has gone, and the speed 0 that a device with a constant speed
    publishes before it moves. *)
Definition snapshot_is_complete (d : device T) : Prop :=
  owed d = 0%Z /\ ids_published (fun s => s = ""%string) d /\ speed_published d.

(** [restores d d']: [d'] goes on like [d] whatever calls follow; as long as it is not attached to a
    generator or detached from one if [d] is attached ([d'] never is), and apart from properties if
    JSON changed some of them. *)
Definition restores (d d' : device T) : Prop :=
  kept_all_props d d' /\ d_status d' = Stopped /\
  forall ops, (d_status d = Stopped \/ Forall not_attach ops) ->
    goes_on_like (d_status d =? Stopped)%Z false d d' ops /\
    (json_same_device d -> goes_on_like (d_status d =? Stopped)%Z true d d' ops).

End RestoreSpec.
