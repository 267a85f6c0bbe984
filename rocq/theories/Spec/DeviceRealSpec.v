(** Devices over the reals: fair histories and the configured ranges. *)
From Coq Require Import Reals.
From Verif.Model Require Import Base Num NumR Geo Curve PropMap Types Pb TypesSnap Track Route Navigator Device.
From Verif.Spec Require Import ListSpec TrackSpec RouteSpec NavSpec RealSpec TypesSpec DeviceSpec.
Open Scope R_scope.

(** the speeds a device may have, given the requested limits (accepted by NewDevice) *)
Definition speed_limits (min max : R) : R * R :=
  if Rlt_dec 0 max then (min, max) else if Rlt_dec 0 min then (min, min) else (1, 1).
(** the elevations, likewise *)
Definition elevation_limits (min max : R) : R * R :=
  if Rlt_dec max min then (max - 1, max)
  else if Req_EM_T min 0 then if Req_EM_T max 0 then (0, 100) else (min, max)
  else (min, max).
Definition within (lim : R * R) (v : R) : Prop := fst lim <= v <= snd lim.

(** all random numbers in [0,1) *)
Definition unit_new (x : newDraws R) : Prop := unit_draws (nd_elev x) /\ unit_draws (nd_speed x).
Definition unit_next (x : nextDraws R) : Prop :=
  unit_draws (xd_speed x) /\ unit_draws (xd_elev x) /\ forall i, unit_draws (xd_sens x i).
Definition unit_shuffle (o : gen_op R) : Prop := match o with GShuffle dr => unit_draws dr | GNext _ => True end.

(** a sensor made by NewSensor with ordered limits *)
Definition ordered_sensor (s : sensor R) : Prop :=
  exists name min max amp mode uuid draws s0 ops,
    NewSensor name min max amp mode uuid draws = GOk s0 /\ min <= max /\ unit_draws draws /\
    Forall unit_shuffle ops /\ run_sensor s0 ops = Ret s.

(** ticks are not negative, random numbers are in [0,1), sensors have ordered limits *)
Definition fair (o : dev_op R) : Prop :=
  match o with
  | DNext _ tick x => 0 <= tick /\ unit_next x
  | DSensorOp _ g => unit_shuffle g
  | DAddSensor l => forall s, In (Some s) l -> ordered_sensor s
  | _ => True
  end.

(** the time estimated for the whole trip when the routes were last changed: total length over
    mean speed *)
Definition trip_time (d : device R) : R := d_avgT d.
