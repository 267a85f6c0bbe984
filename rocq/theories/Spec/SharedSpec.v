(** What it means that devices which share routes and sensors go on as if those were their own. *)
From Verif.Model Require Import Base Num Geo Curve PropMap Types Pb TypesSnap Track Route Navigator Device Shared.
From Verif.Spec Require Import ListSpec TrackSpec RouteSpec NavSpec TypesSpec DeviceSpec SnapSpec RestoreSpec.

Section SharedSpec.
Context {T : Type} {N : Num T} {J : JsonLib T} {U : UtmLib T}.

(** Devices hold existing objects, none of them twice. *)
Definition well_held (w : world T) : Prop :=
  Forall (fun s => NoDup (sd_routes s) /\ NoDup (sd_sensors s) /\
    Forall (fun a => (a < List.length (w_routes w))%nat) (sd_routes s) /\
    Forall (fun a => (a < List.length (w_sensors w))%nat) (sd_sensors s)) (w_devs w).

(** The calls of a program name their objects: a call on a route or sensor is an [SRoute] or [SSensor],
    and routes and sensors are added by [OAddRoute] and [OAddSensor]. *)
Definition plain_op (o : dev_op T) : Prop :=
  match o with DAddRoute _ | DAddSensor _ | DRouteOp _ _ | DSensorOp _ _ => False | _ => True end.
Definition plain (c : scall T) : Prop := match c with SDevice _ (OOther o) => plain_op o | _ => True end.

(** The [j]-th device with its objects. *)
Definition device_at (w : world T) (j : nat) : option (device T) := option_map (load w) (nth_error (w_devs w) j).

(** The calls made on the [j]-th device, added routes and sensors as they are at that time. *)
Fixpoint calls_on (w : world T) (j : nat) (l : list (scall T)) : list (dev_op T) :=
  match l with
  | [] => []
  | c :: r =>
      match c with SDevice i o => if Nat.eqb i j then [op_of w o] else [] | _ => [] end ++
      match run_call w c with Ret w' => calls_on w' j r | _ => [] end
  end.
(** What these calls return. *)
Fixpoint answers (w : world T) (j : nat) (l : list (scall T)) : list (res answer) :=
  match l with
  | [] => []
  | c :: r =>
      match c, device_at w j with
      | SDevice i o, Some d => if Nat.eqb i j then [reply d (op_of w o)] else []
      | _, _ => []
      end ++
      match run_call w c with Ret w' => answers w' j r | _ => [] end
  end.

(** A call on the device itself, not on one of its routes or sensors. *)
Definition on_device (o : dev_op T) : bool := match o with DRouteOp _ _ | DSensorOp _ _ => false | _ => true end.

(** The sensors the [j]-th device holds at first or is given later. *)
Definition sensors_given (j : nat) (l : list (scall T)) : list nat :=
  flat_map (fun c => match c with
    | SDevice i (OAddSensor p) => if Nat.eqb i j then flat_map (fun x => match x with Some a => [a] | None => [] end) p else []
    | _ => []
    end) l.
Definition sensors_held (w : world T) (j : nat) : list nat :=
  match nth_error (w_devs w) j with Some s => sd_sensors s | None => [] end.
Definition its_sensors (w : world T) (j : nat) (l : list (scall T)) : list nat := sensors_held w j ++ sensors_given j l.

(** Nobody else is given a sensor of the [j]-th device. *)
Definition sensors_not_shared (w : world T) (j : nat) (l : list (scall T)) : Prop :=
  forall i a, i <> j -> In a (its_sensors w i l) -> ~ In a (its_sensors w j l).
(** Nobody else removes tracks. *)
Definition others_keep_tracks (j : nat) (l : list (scall T)) : Prop :=
  forall i r t, In (SDevice i (OOther (DRemoveTrack r t))) l -> i = j.
(** The calls on the [j]-th device, on routes, and on the sensors in [mine]: what is left of the program
    without the other devices. *)
Definition without_others (j : nat) (mine : list nat) (l : list (scall T)) : list (scall T) :=
  filter (fun c => match c with
    | SDevice i _ => Nat.eqb i j
    | SRoute _ _ => true
    | SSensor a _ => existsb (Nat.eqb a) mine
    end) l.

(** Devices just built by NewDevice, without routes and sensors; sensors made by NewSensor. *)
Definition fresh_world (w : world T) : Prop :=
  Forall (fun s => (exists opts x, built opts x (sd_dev s)) /\ sd_routes s = [] /\ sd_sensors s = []) (w_devs w) /\
  Forall made_sensor (w_sensors w).
(** DestinationTo is only called on devices with at most two routes. *)
Fixpoint jumps_on_at_most_two (w : world T) (l : list (scall T)) : Prop :=
  match l with
  | [] => True
  | c :: r =>
      match c with
      | SDevice i (OOther (DDestinationTo _)) =>
          match nth_error (w_devs w) i with Some s => (List.length (sd_routes s) <= 2)%nat | None => True end
      | _ => True
      end /\
      match run_call w c with Ret w' => jumps_on_at_most_two w' r | _ => True end
  end.
End SharedSpec.
