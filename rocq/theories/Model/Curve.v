(** Model of package curve. *)
From Verif.Model Require Import Base Num.
Open Scope num_scope.

Section Curve.
Context {T : Type} {N : Num T}.

(** curve/curve.go 20-22: type Point *)
Record pt : Type := mkPt { X : T; Y : T }.

(** curve/curve.go 24-27: type point *)
Record ctrl : Type := mkCtrl { vp : pt; cp : pt }.

(** curve/curve.go 30-34: type Curve *)
Record curve : Type := mkCurve {
  cv_points : list ctrl;
  cv_mode : Z;
  cv_min : T;
  cv_max : T
}.

(** curve/curve.go 11-15: the untyped constants; iota counts from 0 *)
Definition ModeDefault : Z := 32768.
Definition ModeMinStart : Z := 16384.
Definition ModeMinEnd : Z := 8192.

(** mode & flag != 0 *)
Definition has_mode (mode flag : Z) : bool := negb (Z.land mode flag =? 0)%Z.

(** curve/curve.go 144 *)
Definition defaultControlPoint : Z := 4.

(** curve/curve.go 189-191; [r] is the draw rnd.Float64() *)
Definition randomFloat (min max r : T) : T := min + r * (max - min).

(** curve/curve.go 54-62 and 158-166: the Y value of control point i of n;
    [r] is the draw used for this point (not consumed when the point is pinned). *)
Definition control_y (min max : T) (mode : Z) (n i : nat) (r : T) : T :=
  if has_mode mode ModeMinStart && Nat.eqb i 0 then min
  else if has_mode mode ModeMinEnd && Nat.eqb i (n - 1) then min
  else randomFloat min max r.

(** curve/curve.go 53-63 and 157-167: the new vertex points, cp zeroed *)
Definition vertices (min max : T) (mode : Z) (n : nat) (draws : nat -> T) : list ctrl :=
  map (fun i => mkCtrl (mkPt (fofZ (Z.of_nat i)) (control_y min max mode n i (draws i)))
                       (mkPt f0 f0))
      (seq 0 n).

(** curve/curve.go 65-77 and 169-181: the weight loop; [n] = len(points), [i] = loop index,
    [w] = value of w before iteration i *)
Definition next_weight (n i : nat) (w : T) : T :=
  match i with
  | O => f1
  | S O => fofZ (Z.of_nat n) - f1
  | _ => w * (fofZ (Z.of_nat n - Z.of_nat i) / fofZ (Z.of_nat i))
  end.

Fixpoint weigh (n i : nat) (w : T) (l : list ctrl) : list ctrl :=
  match l with
  | [] => []
  | p :: r =>
      let w' := next_weight n i w in
      mkCtrl (vp p) (mkPt (X (vp p) * w') (Y (vp p) * w')) :: weigh n (S i) w' r
  end.

(** curve/curve.go 147-187; [draws] are the successive rnd.Float64() values, indexed by
    control point; the zero value of "var w float64" is f0 *)
Definition curve_New (min max : T) (controlPoints : Z) (m : Z) (draws : nat -> T) : curve :=
  let controlPoints := if (controlPoints <=? 0)%Z then defaultControlPoint else controlPoints in
  let n := Z.to_nat controlPoints in
  mkCurve (weigh n 0 f0 (vertices min max m n draws)) m min max.

(** curve/curve.go 52-78 *)
Definition curve_Shuffle (c : curve) (draws : nat -> T) : curve :=
  let n := List.length (cv_points c) in
  mkCurve (weigh n 0 f0 (vertices (cv_min c) (cv_max c) (cv_mode c) n draws))
          (cv_mode c) (cv_min c) (cv_max c).

(** curve/curve.go 84-90: vp := cp * u; u *= t *)
Fixpoint eval_vp (t u : T) (l : list ctrl) : list ctrl :=
  match l with
  | [] => []
  | p :: r => mkCtrl (mkPt (X (cp p) * u) (Y (cp p) * u)) (cp p) :: eval_vp t (u * t) r
  end.

(** curve/curve.go 97-101: the loop from len-2 down to 0 (the list is given reversed) *)
Fixpoint sum_back (t1 tt : T) (p : pt) (rl : list ctrl) : pt :=
  match rl with
  | [] => p
  | q :: r => sum_back t1 (tt * t1) (mkPt (X p + X (vp q) * tt) (Y p + Y (vp q) * tt)) r
  end.

(** curve/curve.go 81-104; returns the point and the curve with its overwritten vp fields;
    c.points[0] panics on an empty curve *)
Definition curve_Point (c : curve) (t : T) : res (pt * curve) :=
  match cv_points c with
  | [] => Panic
  | p0 :: rest =>
      let pts := mkCtrl (cp p0) (cp p0) :: eval_vp t t rest in
      let t1 := f1 - t in
      match rev pts with
      | [] => Panic
      | last :: back =>
          Ret (sum_back t1 t1 (vp last) back,
               mkCurve pts (cv_mode c) (cv_min c) (cv_max c))
      end
  end.

(** curve/curve.go 47-49 *)
Definition NumControlPoints (c : curve) : Z := zlen (cv_points c).

End Curve.
Arguments pt : clear implicits.
Arguments ctrl : clear implicits.
Arguments curve : clear implicits.
