(** Curves in binary64: floats with real values, and how far rounding may carry a curve out of its range. *)
From Coq Require Import Reals.
From Flocq Require Import Core BinarySingleNaN.
From Verif.Model Require Import Base Num NumF64 Curve.
From Verif.Spec Require Import TypesSpec.
Open Scope R_scope.

(** The float [x] is finite and stands for the real number [r]. *)
Definition real (x : f64) (r : R) : Prop := is_finite x = true /\ B2R x = r.

(** rand.Float64 *)
Definition unit_draws64 (draws : nat -> f64) : Prop := forall i, exists r, real (draws i) r /\ 0 <= r < 1.
Definition unit_op64 (o : curve_op f64) : Prop :=
  match o with CShuffle draws => unit_draws64 draws | CPoint _ => True end.

(** Less than a billionth of a percent of the larger limit; the second part only matters for limits next to zero. *)
Definition slack (lo hi : R) : R := Rmax (Rabs lo) (Rabs hi) / 2 ^ 40 + bpow radix2 (-1000).

(** What a caller does with a speed or a sensor: draws and ticks as in [unit_gen]. *)
Definition unit_gen64 (o : gen_op f64) : Prop :=
  match o with GShuffle draws => unit_draws64 draws | GNext tick => exists r, real tick r /\ 0 <= r <= 1 end.
