(** The float64 operations used by the code, as an abstract signature without laws.

    Every definition of the model that touches float64 is written over an arbitrary
    instance of [Num]; see NumF64.v (IEEE-754 binary64) and NumR.v (real numbers). *)
From Verif.Model Require Import Base.

Class Num (T : Type) : Type := {
  fofZ  : Z -> T;                  (* float64(i) for an integer i *)
  fdec  : Z -> Z -> T;             (* the literal m/d, correctly rounded *)
  fadd  : T -> T -> T;
  fsub  : T -> T -> T;
  fmul  : T -> T -> T;
  fdiv  : T -> T -> T;
  flt   : T -> T -> bool;          (* x < y, false on NaN *)
  fle   : T -> T -> bool;          (* x <= y, false on NaN *)
  feq   : T -> T -> bool;          (* x == y, false on NaN *)
  ftrunc : T -> Z;                 (* int(x), truncation towards zero *)
  fabs  : T -> T;                  (* math.Abs *)
  fmin  : T -> T -> T;             (* math.Min *)
  fsqrt : T -> T;                  (* math.Sqrt *)
  fsin  : T -> T;
  fcos  : T -> T;
  fasin : T -> T;
  fatan2 : T -> T -> T;            (* math.Atan2(y, x) *)
  fmod  : T -> T -> T;             (* math.Mod, sign of the dividend *)
  c_pi : T;                        (* math.Pi *)
  c_2pi : T;                       (* 2*math.Pi *)
  c_3pi : T;                       (* 3*math.Pi *)
  c_radians : T;                   (* math.Pi/180, geo/geo.go 10 *)
  c_degrees : T;                   (* 180/math.Pi, geo/geo.go 11 *)
  c_twoPiR : T;                    (* 2*math.Pi*6371e3, geo/geo.go 12-13 *)
  c_phi : T                        (* math.Phi *)
}.

Declare Scope num_scope.
Delimit Scope num_scope with num.
Infix "+" := fadd : num_scope.
Infix "-" := fsub : num_scope.
Infix "*" := fmul : num_scope.
Infix "/" := fdiv : num_scope.
Infix "<?" := flt : num_scope.
Infix "<=?" := fle : num_scope.
Infix "=?" := feq : num_scope.
(** Go's x > y and x >= y are y < x and y <= x. *)
Notation "x >? y" := (flt y x) : num_scope.
Notation "x >=? y" := (fle y x) : num_scope.

Definition f0 {T} {N : Num T} : T := fofZ 0.
Definition f1 {T} {N : Num T} : T := fofZ 1.
