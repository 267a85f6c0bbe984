(** C01-C05: package geo, read over the real numbers, is geometry on a sphere.
    The vocabulary (place, dot, great_circle, half_circumference ...) is Spec/SphereSpec.v. *)
From Coq Require Import Reals Lra Lia.
From Verif.Model Require Import Base Num NumR Geo Track.
From Verif.Spec Require Import SphereSpec TrackSpec.
From Verif.Proofs Require Import GeoLemmas GeoProofs.
Open Scope R_scope.

(** C01. [dist_pp p q] is geo.Distance on the coordinates of p and q. *)
Theorem C01_distance_is_a_metric : forall p q r : point R,
  dist_pp p q = dist_pp q p /\
  0 <= dist_pp p q <= half_circumference /\
  (dist_pp p q = 0 <-> same_place p q) /\
  dist_pp p r <= dist_pp p q + dist_pp q r.
Proof.
  intros p q r. exact (conj (Distance_sym _ _ _ _) (conj (Distance_range _ _ _ _)
    (conj (Distance_zero _ _ _ _) (Distance_triangle _ _ _ _ _ _)))).
Qed.
Print Assumptions C01_distance_is_a_metric.

(** Distance is the great-circle distance: radius times the angle between the two places. *)
Theorem C01_distance_is_the_angle : forall p q : point R,
  dist_pp p q = sphere_radius * acos (dot (place_of p) (place_of q)).
Proof. intros p q. exact (Distance_acos _ _ _ _). Qed.
Print Assumptions C01_distance_is_the_angle.

(** "The same place", in coordinates (off the poles). *)
Theorem C01_same_place_coordinates : forall p q : point R,
  off_poles (lat p) -> off_poles (lat q) ->
  (same_place p q <-> lat p = lat q /\ exists k : Z, lon p = lon q + 360 * IZR k).
Proof. intros p q. exact (place_coordinates _ _ _ _). Qed.
Print Assumptions C01_same_place_coordinates.

Example C01_example : dist_pp (mkPoint 0 0) (mkPoint 0 1) = 6371000 * (1 * (PI / 180)) /\
  dist_pp (mkPoint 0 0) (mkPoint 0 1) <> 0.
Proof.
  assert (E : dist_pp (mkPoint 0 0) (mkPoint 0 1) = 6371000 * (1 * (PI / 180))).
  { unfold dist_pp; cbn [lat lon]. rewrite Distance_equator by lra. unfold sphere_radius, rad. f_equal. ring. }
  split; [exact E|]. rewrite E. pose proof PI_RGT_0. lra.
Qed.

(** C02. *)
Theorem C02_destination_distance : forall la lo m b : R,
  valid_lat la -> 0 <= m <= half_circumference ->
  let '(la', lo') := Destination la lo m b in Distance la lo la' lo' = m.
Proof. exact Destination_distance. Qed.
Print Assumptions C02_destination_distance.

Theorem C02_destination_bearing : forall la lo m b : R,
  off_poles la -> 0 < m < half_circumference ->
  let '(la', lo') := Destination la lo m b in
  exists k : Z, Bearing la lo la' lo' = b + 360 * IZR k.
Proof. exact Destination_bearing. Qed.
Print Assumptions C02_destination_bearing.

(** The same as one equation between places. *)
Theorem C02_destination_is_on_the_great_circle : forall la lo m b : R,
  off_poles la ->
  let '(la', lo') := Destination la lo m b in place la' lo' = great_circle la lo m b.
Proof. intros la lo m b H. exact (Destination_place la lo m b (cos_rad_pos la H)). Qed.
Print Assumptions C02_destination_is_on_the_great_circle.

Example C02_example : off_poles 52 /\ valid_lat 52 /\ 0 < 1000 < half_circumference.
Proof.
  unfold off_poles, valid_lat, half_circumference, sphere_radius. pose proof PI2_3_2. unfold PI2 in *. lra.
Qed.

(** C03. *)
Theorem C03_normalised : forall la lo m b lb lob : R,
  0 <= Bearing la lo lb lob < 360 /\
  -90 <= fst (Destination la lo m b) <= 90 /\
  snd (Destination la lo m b) < 180 /\
  (-360 <= lo -> -180 <= snd (Destination la lo m b)).
Proof.
  intros la lo m b lb lob. exact (conj (Bearing_range _ _ _ _) (conj (Destination_lat _ _ _ _)
    (conj (Destination_lon_upper _ _ _ _) (fun H => proj1 (Destination_lon la lo m b H))))).
Qed.
Print Assumptions C03_normalised.

(** ... and from every start longitude below -360 some destination has a longitude below -180. *)
Theorem C03_far_west : forall lo : R, lo < -360 -> exists m b, snd (Destination 0 lo m b) < -180.
Proof. exact far_west. Qed.
Print Assumptions C03_far_west.

(** C04. For any segment of any track. *)
Theorem C04_walking_a_segment : forall (points : list (point R)) t s uuid color,
  NewTrack points uuid color = GOk t -> In s (tk_segments t) ->
  off_poles (lat (sg_a s)) -> ~ same_place (sg_a s) (sg_b s) ->
  ~ antipodal (place_of (sg_a s)) (place_of (sg_b s)) ->
  0 < sg_dist s /\
  same_place (segment_DestinationTo s 0) (sg_a s) /\
  same_place (segment_DestinationTo s (sg_dist s)) (sg_b s) /\
  forall d, 0 <= d <= sg_dist s ->
    dist_pp (sg_a s) (segment_DestinationTo s d) = d /\
    dist_pp (segment_DestinationTo s d) (sg_b s) = sg_dist s - d.
Proof. exact C04_proof. Qed.
Print Assumptions C04_walking_a_segment.

Example C04_example : exists t s,
  NewTrack [mkPoint 0 0; mkPoint 0 1] "t" "c" = GOk t /\ In s (tk_segments t) /\
  sg_a s = mkPoint 0 0 /\ sg_b s = mkPoint 0 1 /\
  off_poles (lat (sg_a s)) /\ ~ same_place (sg_a s) (sg_b s) /\
  ~ antipodal (place_of (sg_a s)) (place_of (sg_b s)).
Proof.
  eexists. eexists. split; [reflexivity|]. split; [left; reflexivity|]. cbn.
  pose proof PI_RGT_0 as P. repeat split; try lra.
  - unfold same_place, place_of; cbn. rewrite <- Distance_zero. pose proof degree_positive. lra.
  - unfold antipodal, place_of, dot, place; cbn.
    replace (rad 0) with 0 by (unfold rad; ring). rewrite sin_0, cos_0.
    assert (0 < cos (rad 1)) by (apply cos_rad_pos; lra). lra.
Qed.

(** C05. *)
Theorem C05_haversine_inverse :
  (forall m, 0 <= m <= half_circumference -> DistanceFromHaversine (DistanceToHaversine m) = m) /\
  (forall h, 0 <= h <= 1 -> DistanceToHaversine (DistanceFromHaversine h) = h) /\
  (forall m, DistanceToHaversine (NormalizeDistance m) = DistanceToHaversine m) /\
  (forall m, 0 <= m -> 0 <= NormalizeDistance m < 2 * half_circumference) /\
  (forall m, 0 <= m < 2 * half_circumference -> NormalizeDistance m = m).
Proof.
  exact (conj haversine_roundtrip (conj haversine_roundtrip' (conj normalize_haversine
    (conj normalize_range normalize_id)))).
Qed.
Print Assumptions C05_haversine_inverse.

Example C05_example : 0 <= 1000 <= half_circumference /\ 0 <= 1/4 <= 1.
Proof. unfold half_circumference, sphere_radius. pose proof PI2_3_2. unfold PI2 in *. lra. Qed.
