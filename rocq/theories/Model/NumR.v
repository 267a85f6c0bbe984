(** The real-number reading of the float64 code.

    Totalised operations, where this reading differs from float64 beyond rounding:
    division by zero (float64: Inf/NaN), [asin] outside [-1,1] and [sqrt] of a negative
    number (float64: NaN). The theorems stated at [R] carry guards that exclude them. *)
From Coq Require Import Reals.
From Flocq Require Import Core.Raux Core.Zaux.
From Verif.Model Require Import Base Num.
Open Scope R_scope.

(** math.Atan2 (Go documentation and src/math/atan2.go), signed zeros identified. *)
Definition Ratan2 (y x : R) : R :=
  if Rlt_bool 0 x then atan (y / x)
  else if Rlt_bool x 0 then
    (if Rle_bool 0 y then atan (y / x) + PI else atan (y / x) - PI)
  else (* x = 0 *)
    if Rlt_bool 0 y then PI / 2 else if Rlt_bool y 0 then - (PI / 2) else 0.

(** math.Mod: x - y*trunc(x/y). *)
Definition Rmod (x y : R) : R := x - y * IZR (Ztrunc (x / y)).

#[export] Instance RNum : Num R := {
  fofZ := IZR;
  fdec := fun m d => IZR m / IZR d;
  fadd := Rplus; fsub := Rminus; fmul := Rmult; fdiv := Rdiv;
  flt := Rlt_bool; fle := Rle_bool; feq := Req_bool;
  ftrunc := Ztrunc;
  fabs := Rabs; fmin := Rmin; fsqrt := sqrt;
  fsin := sin; fcos := cos; fasin := asin; fatan2 := Ratan2; fmod := Rmod;
  c_pi := PI; c_2pi := 2 * PI; c_3pi := 3 * PI;
  c_radians := PI / 180; c_degrees := 180 / PI;
  c_twoPiR := 2 * (PI * 6371000);
  c_phi := (1 + sqrt 5) / 2
}.
