(** Histories of calls on curves, speeds, sensors and batteries. *)
From Coq Require Import Reals.
From Verif.Model Require Import Base Num NumR Curve Types.

(** what a caller can do with a curve *)
Inductive curve_op (T : Type) : Type :=
| CShuffle (draws : nat -> T)
| CPoint (t : T).
Arguments CShuffle {T} draws.
Arguments CPoint {T} t.

Definition run_curve1 {T} {N : Num T} (c : curve T) (o : curve_op T) : res (curve T) :=
  match o with
  | CShuffle draws => Ret (curve_Shuffle c draws)
  | CPoint t => let* (_, c') := curve_Point c t in Ret c'
  end.
Fixpoint run_curve {T} {N : Num T} (c : curve T) (ops : list (curve_op T)) : res (curve T) :=
  match ops with
  | [] => Ret c
  | o :: r => let* c' := run_curve1 c o in run_curve c' r
  end.

(** the random values of the latest (re)generation *)
Fixpoint latest {T} (draws : nat -> T) (ops : list (curve_op T)) : nat -> T :=
  match ops with
  | [] => draws
  | CShuffle d :: r => latest d r
  | CPoint _ :: r => latest draws r
  end.

(** rand.Float64 returns values in [0,1) *)
Definition unit_draws (draws : nat -> R) : Prop := forall i, (0 <= draws i < 1)%R.
Definition unit_op (o : curve_op R) : Prop :=
  match o with CShuffle draws => unit_draws draws | CPoint _ => True end.

(** the mode flags, curve/curve.go 11-15 (the second and third highest bit of a uint16) *)
Definition min_start (mode : Z) : Prop := Z.testbit mode 14 = true.
Definition min_end (mode : Z) : Prop := Z.testbit mode 13 = true.

(** number of control points for the requested amplitude *)
Definition points_for (amplitude : Z) : Z := if (0 <? amplitude)%Z then amplitude else 4%Z.

(** what a caller can do with a speed or a sensor *)
Inductive gen_op (T : Type) : Type :=
| GShuffle (draws : nat -> T)
| GNext (tick : T).
Arguments GShuffle {T} draws.
Arguments GNext {T} tick.
Definition unit_gen (o : gen_op R) : Prop :=
  match o with GShuffle draws => unit_draws draws | GNext tick => (0 <= tick <= 1)%R end.
Definition is_next {T} (o : gen_op T) : Prop := match o with GNext _ => True | _ => False end.

Fixpoint run_speed {T} {N : Num T} (s : speed T) (ops : list (gen_op T)) : res (speed T) :=
  match ops with
  | [] => Ret s
  | GShuffle draws :: r => run_speed (speed_Shuffle s draws) r
  | GNext tick :: r => let* s' := speed_Next s tick in run_speed s' r
  end.
Fixpoint run_sensor {T} {N : Num T} (s : sensor T) (ops : list (gen_op T)) : res (sensor T) :=
  match ops with
  | [] => Ret s
  | GShuffle draws :: r => run_sensor (sensor_Shuffle s draws) r
  | GNext tick :: r => let* s' := sensor_Next s tick in run_sensor s' r
  end.

(** what a caller can do with a battery *)
Inductive battery_op (T : Type) : Type :=
| BNext (seconds : T)
| BReset.
Arguments BNext {T} seconds.
Arguments BReset {T}.
Definition run_battery1 {T} {N : Num T} (b : battery T) (o : battery_op T) : battery T :=
  match o with BNext s => battery_Next b s | BReset => battery_Reset b end.
Definition run_battery {T} {N : Num T} (b : battery T) (ops : list (battery_op T)) : battery T :=
  fold_left run_battery1 ops b.

(** seconds since the last reset *)
Definition elapsed (ops : list (battery_op R)) : R :=
  fold_left (fun e o => match o with BNext s => (e + s)%R | BReset => 0%R end) ops 0%R.
(** a negative charge time stands for nine hours *)
Definition charge_time (ct : Z) : Z := if (ct <? 0)%Z then 32400000000000%Z else ct.
(** nanoseconds to seconds *)
Definition seconds (d : Z) : R := (IZR d / 1000000000)%R.

(** The offline durations a navigator draws from, given the requested limits (accepted by New):
    reversed limits and the empty interval [0,0] are replaced. *)
Definition offline_interval (min max : Z) : Z * Z :=
  if (max <? min)%Z then (Z.max 0 (max - 1), Z.max 1 max)%Z
  else if ((min =? 0) && (max =? 0))%Z then (0, 10)%Z
  else (min, max).
