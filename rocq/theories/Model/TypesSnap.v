(** Snapshots of curves, speeds, batteries and sensors. *)
From Verif.Model Require Import Base Num Curve Types Pb.

Section Snap.
Context {T : Type} {N : Num T}.

(** curve/curve.go 107-128 *)
Definition curve_Snapshot (c : curve T) : pbCurve T :=
  mkPbCurve
    (map (fun p => mkPbCtrl (Some (mkPbCP (X (vp p)) (Y (vp p))))
                            (Some (mkPbCP (X (cp p)) (Y (cp p))))) (cv_points c))
    (cv_mode c) (cv_min c) (cv_max c).

(** curve/curve.go 131-142; a nil snapshot, Vp or Cp is a nil dereference *)
Definition curve_FromSnapshot (snap : option (pbCurve T)) : res (curve T) :=
  let* s := deref snap in
  let* pts := mapM (fun p =>
      let* v := deref (pct_vp p) in
      let* c := deref (pct_cp p) in
      Ret (mkCtrl (mkPt (pcp_x v) (pcp_y v)) (mkPt (pcp_x c) (pcp_y c)))) (pcv_points s) in
  Ret (mkCurve pts (pcv_mode s) (pcv_min s) (pcv_max s)).

(** types/speed.go 110-117 *)
Definition speed_Snapshot (s : speed T) : pbCommon T :=
  mkPbCommon (sp_min s) (sp_max s) (sp_val s) (Some (curve_Snapshot (sp_gen s))).

(** types/speed.go 120-126 *)
Definition speed_FromSnapshot (snap : option (pbCommon T)) : res (speed T) :=
  let* s := deref snap in
  let* g := curve_FromSnapshot (pco_gen s) in
  Ret (mkSpeed (pco_min s) (pco_max s) (pco_val s) g).

(** types/battery.go 106-113 *)
Definition battery_Snapshot (b : battery T) : pbBattery T :=
  mkPbBattery (b_min b) (b_max b) (b_chargeTime b) (b_val b).

(** types/battery.go 116-121 *)
Definition battery_FromSnapshot (snap : option (pbBattery T)) : res (battery T) :=
  let* s := deref snap in
  Ret (mkBattery (pba_min s) (pba_max s) (pba_val s) (pba_charge_time s)).

(** types/sensor.go 157-167 *)
Definition sensor_Snapshot (s : sensor T) : pbSensor T :=
  mkPbSensor (s_id s) (s_min s) (s_max s) (s_valX s) (s_valY s) (s_name s)
             (Some (curve_Snapshot (s_gen s))).

(** types/sensor.go 170-179 *)
Definition sensor_FromSnapshot (snap : option (pbSensor T)) : res (sensor T) :=
  let* s := deref snap in
  let* g := curve_FromSnapshot (pse_gen s) in
  Ret (mkSensor (pse_id s) (pse_name s) (pse_min s) (pse_max s) (pse_val_x s) (pse_val_y s) g).

End Snap.
