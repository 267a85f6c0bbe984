(** The sphere, as plain vectors in R^3: what the formulas of package geo are supposed to mean. *)
From Coq Require Import Reals.
Open Scope R_scope.

Record vec := mkVec { vx : R; vy : R; vz : R }.

Definition rad (deg : R) : R := deg * (PI / 180).

(** the point of the unit sphere with the given latitude and longitude (degrees) *)
Definition place (lat lon : R) : vec :=
  mkVec (cos (rad lat) * cos (rad lon)) (cos (rad lat) * sin (rad lon)) (sin (rad lat)).

Definition dot (a b : vec) : R := vx a * vx b + vy a * vy b + vz a * vz b.

(** radius of the sphere used by the code, metres; half circumference *)
Definition sphere_radius : R := 6371000.
Definition half_circumference : R := PI * sphere_radius.

Definition antipodal (a b : vec) : Prop := dot a b = -1.

(** unit tangent vectors at a place, towards north and east, and in direction [b] (degrees
    clockwise from north) *)
Definition north (lat lon : R) : vec :=
  mkVec (- sin (rad lat) * cos (rad lon)) (- sin (rad lat) * sin (rad lon)) (cos (rad lat)).
Definition east (lon : R) : vec := mkVec (- sin (rad lon)) (cos (rad lon)) 0.

Definition vadd (a b : vec) : vec := mkVec (vx a + vx b) (vy a + vy b) (vz a + vz b).
Definition vscale (k : R) (a : vec) : vec := mkVec (k * vx a) (k * vy a) (k * vz a).

Definition direction (lat lon b : R) : vec :=
  vadd (vscale (cos (rad b)) (north lat lon)) (vscale (sin (rad b)) (east lon)).

(** the point at [m] metres from (lat, lon) along the great circle leaving in direction [b] *)
Definition great_circle (lat lon m b : R) : vec :=
  vadd (vscale (cos (m / sphere_radius)) (place lat lon))
       (vscale (sin (m / sphere_radius)) (direction lat lon b)).

(** Coordinates as the API has them. *)
From Verif.Model Require Import Num Geo.
Definition place_of (p : point R) : vec := place (lat p) (lon p).
Definition same_place (p q : point R) : Prop := place_of p = place_of q.

(** valid GPS latitude; a pole *)
Definition valid_lat (la : R) : Prop := -90 <= la <= 90.
Definition off_poles (la : R) : Prop := -90 < la < 90.
