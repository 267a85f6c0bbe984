(** Using a device whatever bytes it was decoded from. *)
From Verif.Model Require Import Base Num Geo Curve PropMap Types Pb TypesSnap Track Route Navigator Device Wire WireMsgs IO.
From Verif.Spec Require Import ListSpec TrackSpec RouteSpec NavSpec TypesSpec DeviceSpec DecodeSpec.

Section UseSpec.
Context {T : Type} {N : Num T} {J : JsonLib T} {U : UtmLib T} {B : Bits64 T}.

(** What a program can do to a device: the calls of [dev_op], UnmarshalBinary of some bytes into it, and
    RouteFromSnapshot on a route it holds. *)
Inductive use : Type :=
| UCall (o : dev_op T)
| UUnmarshal (b : list byte)
| UReloadRoute (i : nat) (s : pbRoute T).

Definition run_use (d : device T) (u : use) : res (device T) :=
  match u with
  | UCall o => run_dev d o
  | UUnmarshal b => let* r := UnmarshalBinary d b in Ret (match r with GOk d' => d' | GErr _ => d end)
  | UReloadRoute i s =>
      match nth_error (n_routes (d_nav d)) i with
      | Some r => let* er := RouteFromSnapshot r s in Ret (dset_nav d (nav_mutateRoute (d_nav d) i (fun _ => snd er)))
      | None => Ret d
      end
  end.
Fixpoint run_uses (d : device T) (l : list use) : res (device T) :=
  match l with
  | [] => Ret d
  | u :: r => let* d' := run_use d u in run_uses d' r
  end.

(** A curve without control points cannot be drawn. *)
Definition drawn_curve (c : pbCurve T) : Prop := pcv_points c <> [].
Definition drawn_sensor (s : pbSensor T) : Prop := set_and drawn_curve (pse_gen s).
(** Is the speed constant? Then its curve is not used. *)
Definition drawn_speed (s : pbCommon T) : Prop := (pco_min s =? pco_max s)%num = true \/ set_and drawn_curve (pco_gen s).
Definition drawn_snapshot (s : pbSnapshot T) : Prop :=
  set_and (fun n => set_and drawn_sensor (pna_elevation n)) (psn_navigator s) /\
  set_and drawn_speed (psn_speed s) /\ Forall drawn_sensor (psn_sensors s).

(** The bytes are rejected (as are no bytes at all), or hold a message with all its parts (see C39) and its curves. *)
Definition good_bytes (b : list byte) : Prop :=
  forall m, b <> [] -> unmarshal d_Snapshot b = Some m -> complete_snapshot (r_Snapshot (T := T) m) /\ drawn_snapshot (r_Snapshot m).
(** Sensors that were built with NewSensor, or decoded with control points. *)
Definition good_use (u : use) : Prop :=
  match u with
  | UCall (DAddSensor l) => forall s, In (Some s) l -> cv_points (s_gen s) <> []
  | UCall _ => True
  | UUnmarshal b => good_bytes b
  | UReloadRoute _ s => complete_route s
  end.

(** DestinationTo is only called while the device holds at most two routes *)
Fixpoint use_jumps_on_at_most_two_routes (d : device T) (l : list use) : Prop :=
  match l with
  | [] => True
  | u :: r =>
      match u with UCall (DDestinationTo _) => (zlen (n_routes (d_nav d)) <= 2)%Z | _ => True end /\
      match run_use d u with Ret d' => use_jumps_on_at_most_two_routes d' r | _ => True end
  end.

(** Devices a program starts from. *)
Definition new_device (d : device T) : Prop := exists opts x, built opts x d.
Definition decoded_device (d : device T) : Prop := exists b, good_bytes b /\ DecodeTracker b = Ret (GOk d).

End UseSpec.
Arguments use : clear implicits.
Arguments UCall {T}. Arguments UUnmarshal {T}. Arguments UReloadRoute {T}.

(** A message for a device on a route of one segment, with a varying speed and one sensor; [e], [s] and [x] are
    the control points of the curves of the elevation, the speed and the sensor. *)
From Verif.Model Require Import NumF64.
Section UseExample.
Context (m : MathLib).
Instance use_num : Num f64 := F64Num m.
Definition use_curve (pts : list (pbControlPoint f64)) : option (pbCurve f64) := Some (mkPbCurve pts 0 f0 f0).
Definition use_route : pbRoute f64 :=
  mkPbRoute "r" (f64_ofZ 1000) ""
    [mkPbTrack "t" [mkPbSegment (Some (mkPbPLL f0 f0)) (Some (mkPbPLL f0 (f64_ofZ 1))) (f64_ofZ 1000) f0 0 1]
       "" "" (f64_ofZ 1000) false "" 1] "" "" 1.
Definition use_message (e s x : list (pbControlPoint f64)) : pbSnapshot f64 :=
  mkPbSnapshot "d" "u" f0 f0 "model" "" 2 ""
    (Some (mkPbNavigator [use_route] 0 0 0 f0 f0 f0 f0 0 (Some (mkPbPLL f0 f0))
             (Some (mkPbSensor "e" f0 (f64_ofZ 1) f0 f0 "elevation" (use_curve e))) 0 0 (f64_ofZ 1000) true 1))
    (Some (mkPbCommon f0 (f64_ofZ 1) (f64_ofZ 1) (use_curve s))) (Some (mkPbBattery f0 (f64_ofZ 100) 3600 f0))
    [mkPbSensor "s" f0 (f64_ofZ 1) f0 f0 "temp" (use_curve x)].
Definition use_point : list (pbControlPoint f64) := [mkPbCtrl (Some (mkPbCP f0 f0)) (Some (mkPbCP f0 f0))].
Definition use_draws : nextDraws f64 := mkNextDraws 0 0 (fun _ => f64_ofZ 0) (fun _ => f64_ofZ 0) (fun _ _ => f64_ofZ 0).
Context {J : JsonLib f64} {U : UtmLib f64} {B : Bits64 f64}.
(** the message is encoded, decoded without an error, and the first step of the device panics *)
Definition accepted_and_panics (s : pbSnapshot f64) : Prop :=
  exists b d, to_bytes d_Snapshot (w_Snapshot s) = GOk b /\ DecodeTracker b = Ret (GOk d) /\ Next d true (f64_ofZ 1) use_draws = Panic.
End UseExample.
