(** IEEE-754 binary64 with round-to-nearest-even: the float64 of Go on amd64.

    NaN payloads are not modelled (a single NaN). Go may fuse x*y+z into an FMA on some
    architectures (arm64, ppc64, s390x); this model is the unfused amd64 semantics.
    int(x) of NaN, infinities and out-of-range values is implementation-defined in Go; [Btrunc]
    returns some integer for them.
    The transcendental functions and math.Mod are not modelled at this level: they are an
    arbitrary oracle [MathLib]. *)
From Flocq Require Import Core BinarySingleNaN.
From Verif.Model Require Import Base Num.

Definition f64 : Type := binary_float 53 1024.

Definition prec53 : FLX.Prec_gt_0 53 := eq_refl.
Definition emax1024 : Prec_lt_emax 53 1024 := eq_refl.

Definition f64_norm (m e : Z) : f64 := @binary_normalize 53 1024 prec53 emax1024 mode_NE m e false.
Definition f64_add (x y : f64) : f64 := @Bplus 53 1024 prec53 emax1024 mode_NE x y.
Definition f64_sub (x y : f64) : f64 := @Bminus 53 1024 prec53 emax1024 mode_NE x y.
Definition f64_mul (x y : f64) : f64 := @Bmult 53 1024 prec53 emax1024 mode_NE x y.
Definition f64_div (x y : f64) : f64 := @Bdiv 53 1024 prec53 emax1024 mode_NE x y.
Definition f64_sqrt (x : f64) : f64 := @Bsqrt 53 1024 prec53 emax1024 mode_NE x.
Definition f64_ofZ (z : Z) : f64 := f64_norm z 0.

Definition f64_nan : f64 := B754_nan.

(** math.Min, Go src/math/dim.go. *)
Definition f64_min (x y : f64) : f64 :=
  match x, y with
  | B754_infinity true, _ => x
  | _, B754_infinity true => y
  | B754_nan, _ | _, B754_nan => f64_nan
  | B754_zero s, B754_zero _ => if s then x else y
  | _, _ => if Bltb x y then x else y
  end.

Record MathLib : Type := {
  m_sin : f64 -> f64;
  m_cos : f64 -> f64;
  m_asin : f64 -> f64;
  m_atan2 : f64 -> f64 -> f64;
  m_mod : f64 -> f64 -> f64
}.

Definition F64Num (m : MathLib) : Num f64 := {|
  fofZ := f64_ofZ;
  (* exact for |m|, |d| <= 2^53, then one rounding: the correctly rounded literal *)
  fdec := fun m d => f64_div (f64_ofZ m) (f64_ofZ d);
  fadd := f64_add; fsub := f64_sub; fmul := f64_mul; fdiv := f64_div;
  flt := @Bltb 53 1024; fle := @Bleb 53 1024; feq := @Beqb 53 1024;
  ftrunc := @Btrunc 53 1024;
  fabs := @Babs 53 1024; fmin := f64_min; fsqrt := f64_sqrt;
  fsin := m_sin m; fcos := m_cos m; fasin := m_asin m; fatan2 := m_atan2 m; fmod := m_mod m;
  c_pi := f64_norm 884279719003555 (-48);
  c_2pi := f64_norm 884279719003555 (-47);
  c_3pi := f64_norm 2652839157010665 (-48);
  c_radians := f64_norm 5030569068109113 (-58);
  c_degrees := f64_norm 1007958012753983 (-44);
  c_twoPiR := f64_norm 5372758950969361 (-27);
  c_phi := f64_norm 910872158600853 (-49)
|}.

(** A trivial oracle, used only to run the model on concrete inputs in examples. *)
Definition idMath : MathLib := {|
  m_sin := fun x => x; m_cos := fun _ => f64_ofZ 1; m_asin := fun x => x;
  m_atan2 := fun y _ => y; m_mod := fun x _ => x |}.
