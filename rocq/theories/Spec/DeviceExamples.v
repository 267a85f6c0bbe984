(** Concrete binary64 devices used by the non-vacuity examples. *)
From Verif.Model Require Import Base Num NumF64 Geo Curve PropMap Types Pb TypesSnap Track Route Navigator Device.
From Verif.Spec Require Import NavSpec TypesSpec DeviceSpec Examples.
Open Scope num_scope.

#[export] Instance exU : UtmLib f64 := {| utm_of := fun _ _ => mkPbUTM f0 f0 f0 0 "" "" 0 |}.

Definition ex_new_draws : newDraws f64 :=
  mkNewDraws "elev-uuid" (fun _ => f64_ofZ 0) (fun _ => f64_ofZ 0) "device-1" "abcdef" "#0000ff" None.
Definition ex_draws : nextDraws f64 :=
  mkNextDraws 0 0 (fun _ => f64_ofZ 0) (fun _ => f64_ofZ 0) (fun _ _ => f64_ofZ 0).
Definition ex_dev : device f64 :=
  match fst (NewDevice (Some NewDeviceOptions) ex_new_draws) with GOk d => d | GErr _ => device_zero end.
(** the default device never goes offline *)
Definition ex_skip : deviceOptions f64 :=
  let o := NewDeviceOptions in
  mkDevOpts (do_id o) "Skipper" (do_color o) (do_userID o) (do_descr o) true (do_offMin o) (do_offMax o)
    (do_elevMin o) (do_elevMax o) (do_elevAmp o) (do_elevMode o) (do_batMin o) (do_batMax o) (do_batCharge o)
    (do_speedMin o) (do_speedMax o) (do_speedAmp o).

Definition ex_sensor (id name : string) : option (sensor f64) :=
  match NewSensor name (f64_ofZ 10) (f64_ofZ 20) 4 0 id (fun _ => f64_ofZ 0) with GOk s => Some s | GErr _ => None end.

Definition is_true_step (r : res (bool * device f64)) : bool := match r with Ret (b, _) => b | _ => false end.
Definition after {A} (r : res (A * device f64)) : device f64 := match r with Ret (_, d) => d | _ => device_zero end.
Definition ran (r : res (device f64)) : device f64 := match r with Ret d => d | _ => device_zero end.
