(** Model of package geo. *)
From Verif.Model Require Import Base Num.
Open Scope num_scope.

Section Geo.
Context {T : Type} {N : Num T}.

(** geo/geo.go 16-19: type LatLonPoint *)
Record point : Type := mkPoint { lat : T; lon : T }.

(** geo/geo.go 9: earthRadius = 6371e3 *)
Definition earthRadius : T := fofZ 6371000.

(** Go's == on the struct LatLonPoint (used at navigator/route_track_segment.go 128). *)
Definition point_eqb (p q : point) : bool := (lat p =? lat q) && (lon p =? lon q).

(** geo/bearing.go 6-14 *)
Definition Bearing (latA lonA latB lonB : T) : T :=
  let phi1 := latA * c_radians in
  let phi2 := latB * c_radians in
  let dlam := (lonB - lonA) * c_radians in
  let y := fsin dlam * fcos phi2 in
  let x := fcos phi1 * fsin phi2 - fsin phi1 * fcos phi2 * fcos dlam in
  let theta := fatan2 y x in
  fmod (theta * c_degrees + fofZ 360) (fofZ 360).

(** geo/destination.go 6-19: (destLat, destLon) *)
Definition Destination (lat lon meters bearingDegrees : T) : T * T :=
  let delta := meters / earthRadius in
  let theta := bearingDegrees * c_radians in
  let phi1 := lat * c_radians in
  let lam1 := lon * c_radians in
  let phi2 := fasin (fsin phi1 * fcos delta + fcos phi1 * fsin delta * fcos theta) in
  let lam2 := lam1 + fatan2 (fsin theta * fsin delta * fcos phi1)
                            (fcos delta - fsin phi1 * fsin phi2) in
  let lam2' := fmod (lam2 + c_3pi) c_2pi - c_pi in
  (phi2 * c_degrees, lam2' * c_degrees).

(** geo/distance.go 12-22 *)
Definition Haversine (latA lonA latB lonB : T) : T :=
  let phi1 := latA * c_radians in
  let lam1 := lonA * c_radians in
  let phi2 := latB * c_radians in
  let lam2 := lonB * c_radians in
  let dphi := phi2 - phi1 in
  let dlam := lam2 - lam1 in
  let sdphi2 := fsin (dphi / fofZ 2) in
  let sdlam2 := fsin (dlam / fofZ 2) in
  sdphi2 * sdphi2 + fcos phi1 * fcos phi2 * sdlam2 * sdlam2.

(** geo/distance.go 36-38; earthRadius * 2 is a constant expression *)
Definition DistanceFromHaversine (haversine : T) : T :=
  fofZ 12742000 * fasin (fsqrt haversine).

(** geo/distance.go 6-9 *)
Definition Distance (latA lonA latB lonB : T) : T :=
  DistanceFromHaversine (Haversine latA lonA latB lonB).

(** geo/distance.go 25-27 *)
Definition NormalizeDistance (meters : T) : T := fmod meters c_twoPiR.

(** geo/distance.go 30-33 *)
Definition DistanceToHaversine (meters : T) : T :=
  let s := fsin (fdec 1 2 * meters / earthRadius) in s * s.

(** geo/geo.go 26-31: type BBox *)
Record bbox : Type := mkBBox { minLon : T; minLat : T; maxLon : T; maxLat : T }.

(** geo/geo.go 33-38 *)
Definition bbox_In (b : bbox) (pt : point) : bool :=
  (minLon b <=? lon pt) && (minLat b <=? lat pt) && (maxLon b >=? lon pt) && (maxLat b >=? lat pt).

(** geo/geo.go 40-45 *)
Definition bbox_Center (b : bbox) : point :=
  mkPoint ((minLat b + maxLat b) / fofZ 2) ((minLon b + maxLon b) / fofZ 2).

(** geo/normalize.go 4-13; an input coordinate [2]float64 is a pair *)
Definition NormalizeCoordinates (lat lon : T) (points : list (T * T)) : list point :=
  map (fun p => mkPoint (fst p + lat) (snd p + lon)) points.

End Geo.
Arguments point : clear implicits.
Arguments bbox : clear implicits.
