(** Concrete binary64 data used by the non-vacuity examples beside the theorems. [idMath] makes
    the trigonometry computable (small-angle approximation); lengths come out near 111 km per
    degree. *)
From Verif.Model Require Import Base Num NumF64 Geo Curve PropMap Types TypesSnap Track Route Navigator.
Open Scope num_scope.

Definition exN : Num f64 := F64Num idMath.
Definition exJ : JsonLib f64 := {| json_marshal := fun _ => None; json_unmarshal := fun _ => None |}.
#[export] Existing Instance exN.
#[export] Existing Instance exJ.

Definition ex_point (a b : Z) : point f64 := mkPoint (f64_ofZ a) (f64_ofZ b).
Definition ex_track (id : string) (pts : list (Z * Z)) : option (track f64) :=
  match NewTrack (map (fun p => ex_point (fst p) (snd p)) pts) id "#ff0000" with
  | GOk t => Some t
  | GErr _ => None
  end.
Definition ex_route (id : string) (ts : list (option (track f64))) : option (route f64) :=
  Some (RouteFromTracks ts id "#00ff00").

(** r1: two tracks (2 and 1 segments); r2: one track of 3 segments *)
Definition ex_r1 := ex_route "r1" [ex_track "t11" [(0, 0); (0, 1); (0, 2)]%Z; ex_track "t12" [(1, 1); (1, 2)]%Z].
Definition ex_r2 := ex_route "r2" [ex_track "t21" [(5, 5); (5, 6); (6, 6); (7, 7)]%Z].

Definition ex_new : navigator f64 :=
  match navigator_New [WithOffline 2 4] "uuid" (fun _ => f64_ofZ 0) with
  | GOk n => n
  | GErr _ => nav_zero
  end.
Definition ex_nav : navigator f64 := snd (nav_AddRoute ex_new [ex_r1; ex_r2]).
Definition km (z : Z) : f64 := f64_ofZ (1000 * z).
