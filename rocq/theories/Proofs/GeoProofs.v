(** C01-C05, assembled. *)
From Coq Require Import Reals Lra Lia Psatz.
From Flocq Require Import Core.Raux Core.Zaux.
From Verif.Model Require Import Base Num NumR Geo Track.
From Verif.Spec Require Import ListSpec SphereSpec TrackSpec.
From Verif.Proofs Require Import GeoLemmas TrackLemmas TrackRouteProofs.
Open Scope R_scope.

Lemma atan2_west d : 0 < d < PI -> Ratan2 (- sin d) (cos d) = - d.
Proof.
  intros Hd. pose proof (sin_gt_0 d ltac:(lra) ltac:(lra)) as Hs.
  destruct (atan2_polar (- sin d) (cos d)) as [A B]; [right; lra|].
  replace (cos d * cos d + - sin d * - sin d) with 1 in A, B
    by (pose proof (sin2_cos2 d); unfold Rsqr in *; lra).
  rewrite sqrt_1 in A, B.
  pose proof (atan2_bound (- sin d) (cos d)) as R.
  set (t := Ratan2 (- sin d) (cos d)) in *.
  destruct (cos_sin_eq t (- d)) as (k & Hk); [rewrite cos_neg; lra|rewrite sin_neg; lra|].
  assert (H1 : -1 < IZR k < 1) by nra.
  assert (k = 0)%Z.
  { destruct H1 as [H1 H2]. apply lt_IZR in H1. apply lt_IZR in H2. lia. }
  subst k. rewrite Hk. ring.
Qed.

Lemma Destination_west lo d : 0 < d < PI ->
  snd (Destination 0 lo (d * sphere_radius) 270) = (Rmod (rad lo - d + 3 * PI) (2 * PI) - PI) * (180 / PI).
Proof.
  intros Hd. unfold Destination. cbn -[Ratan2 Rmod]. fold (rad lo) (rad 270) (rad 0).
  change (IZR 6371000) with sphere_radius.
  replace (d * sphere_radius / sphere_radius) with d by (unfold sphere_radius; field).
  replace (rad 270) with (3 * (PI / 2)) by (unfold rad; field).
  replace (rad 0) with 0 by (unfold rad; ring).
  rewrite sin_0, cos_0, sin_3PI2, cos_3PI2.
  replace (-1 * sin d * 1) with (- sin d) by ring.
  replace (cos d - 0 * sin (asin (0 * cos d + 1 * sin d * 0))) with (cos d) by ring.
  rewrite atan2_west by assumption. reflexivity.
Qed.

Lemma Rmod_neg x y : 0 < y -> x < 0 -> Rmod x y < 0 \/ exists k : Z, x = y * IZR k.
Proof.
  intros Hy Hx. unfold Rmod.
  assert (Hq : x / y <= 0).
  { unfold Rdiv. assert (0 < / y) by now apply Rinv_0_lt_compat. nra. }
  rewrite Ztrunc_ceil by assumption. pose proof (Zceil_ub (x / y)) as H1.
  assert (E : x = y * (x / y)) by (field; lra).
  destruct (Rle_lt_or_eq_dec _ _ H1) as [H2|H2].
  - left. rewrite E at 1. nra.
  - right. eexists. rewrite <- H2. exact E.
Qed.

Lemma far_west lo : lo < -360 -> exists m b, snd (Destination 0 lo m b) < -180.
Proof.
  intros Hlo. pose proof PI_RGT_0 as P.
  assert (Hr : rad lo < - 2 * PI) by (unfold rad; nra).
  set (w := Rmax 0 (rad lo + 3 * PI)).
  assert (Hw : 0 <= w < PI /\ rad lo + 3 * PI <= w).
  { unfold w. split; [split|]; [apply Rmax_l|apply Rmax_lub_lt; lra|apply Rmax_r]. }
  set (d1 := (w + PI) / 2). set (d2 := (d1 + PI) / 2).
  assert (D1 : 0 < d1 < PI /\ w < d1) by (unfold d1; lra).
  assert (D2 : 0 < d2 < PI /\ w < d2 /\ d1 < d2) by (unfold d2; lra).
  assert (E : 180 = PI * (180 / PI)) by (field; lra).
  assert (K : 0 < 180 / PI) by (apply Rdiv_lt_0_compat; lra).
  destruct (Rmod_neg (rad lo - d1 + 3 * PI) (2 * PI)) as [N1|(k1 & N1)]; [lra|lra| |].
  { exists (d1 * sphere_radius), 270. rewrite Destination_west by tauto. nra. }
  destruct (Rmod_neg (rad lo - d2 + 3 * PI) (2 * PI)) as [N2|(k2 & N2)]; [lra|lra| |].
  { exists (d2 * sphere_radius), 270. rewrite Destination_west by tauto. nra. }
  exfalso.
  assert (H : d2 - d1 = 2 * PI * (IZR k1 - IZR k2)) by lra.
  rewrite <- minus_IZR in H.
  assert (0 < IZR (k1 - k2) < 1) by nra.
  destruct H0 as [A B]. apply lt_IZR in A. apply lt_IZR in B. lia.
Qed.

Lemma in_segments_between points t s uuid color :
  NewTrack points uuid color = GOk t -> In s (tk_segments t) ->
  segment_between (sg_a s, sg_b s) s.
Proof.
  intros HN Hin.
  destruct (@C14_proof R RNum points uuid color) as [H1 H2].
  destruct (Nat.lt_ge_cases (List.length points) 2) as [Hl|Hl]; [rewrite H1 in HN by assumption; discriminate|].
  destruct (H2 Hl) as (t' & E & (F & _) & _). rewrite HN in E. injection E as <-.
  revert Hin. induction F as [|pq s' lp ls Hb F IH]; cbn; [tauto|].
  intros [->|Hin]; [|now apply IH]. destruct Hb as (A & B & C & D).
  unfold segment_between. cbn. rewrite A, B. destruct pq; cbn in *. repeat split; congruence.
Qed.

Lemma acos_1_only x : -1 <= x <= 1 -> acos x = 0 -> x = 1.
Proof. intros Hx H. rewrite <- (cos_acos x Hx), H. apply cos_0. Qed.

Lemma C04_proof points t s uuid color :
  NewTrack points uuid color = GOk t -> In s (tk_segments t) ->
  off_poles (lat (sg_a s)) -> ~ same_place (sg_a s) (sg_b s) ->
  ~ antipodal (place_of (sg_a s)) (place_of (sg_b s)) ->
  0 < sg_dist s /\
  same_place (segment_DestinationTo s 0) (sg_a s) /\
  same_place (segment_DestinationTo s (sg_dist s)) (sg_b s) /\
  forall d, 0 <= d <= sg_dist s ->
    dist_pp (sg_a s) (segment_DestinationTo s d) = d /\
    dist_pp (segment_DestinationTo s d) (sg_b s) = sg_dist s - d.
Proof.
  intros HN Hin Hla Hne Hna.
  destruct (in_segments_between _ _ _ _ _ HN Hin) as (_ & _ & Hd & Hb). cbn [fst snd] in *.
  unfold same_place, place_of, off_poles, dist_pp, bearing_pp in *.
  set (A := sg_a s) in *. set (B := sg_b s) in *.
  assert (Hpos : 0 < sg_dist s).
  { rewrite Hd. pose proof (Distance_range (lat A) (lon A) (lat B) (lon B)) as [H _].
    destruct (Rle_lt_or_eq_dec _ _ H) as [|E]; [assumption|].
    exfalso. apply Hne. apply Distance_zero. now symmetry. }
  pose proof (Distance_range (lat A) (lon A) (lat B) (lon B)) as [_ Hmax]. rewrite <- Hd in Hmax.
  assert (Key : forall d, 0 <= d <= sg_dist s ->
    Distance (lat A) (lon A) (lat (segment_DestinationTo s d)) (lon (segment_DestinationTo s d)) = d /\
    Distance (lat (segment_DestinationTo s d)) (lon (segment_DestinationTo s d)) (lat B) (lon B)
      = sg_dist s - d).
  { intros d Hr. pose proof (walk (lat A) (lon A) (lat B) (lon B) d Hla Hne Hna) as W.
    unfold segment_DestinationTo. fold A. rewrite Hb.
    destruct (Destination (lat A) (lon A) d (Bearing (lat A) (lon A) (lat B) (lon B))) as [lw low].
    cbn [lat lon]. destruct W as [W1 W2]. rewrite (Distance_acos (lat A)), (Distance_acos lw), W1, W2, <- Hd.
    unfold half_circumference, sphere_radius in *.
    rewrite !acos_cos by lra. split; field. }
  split; [exact Hpos|]. split; [|split].
  - symmetry. apply Distance_zero. apply (Key 0). lra.
  - apply Distance_zero. destruct (Key (sg_dist s)) as [_ E]; [lra|]. rewrite E. ring.
  - exact Key.
Qed.

(** the equator, one degree *)
Lemma Distance_equator a b : 0 <= b - a <= 180 -> Distance 0 a 0 b = sphere_radius * rad (b - a).
Proof.
  intros H. rewrite Distance_acos. f_equal. unfold dot, place; cbn.
  replace (rad 0) with 0 by (unfold rad; ring). rewrite sin_0, cos_0.
  replace (1 * cos (rad a) * (1 * cos (rad b)) + 1 * sin (rad a) * (1 * sin (rad b)) + 0 * 0)
    with (cos (rad b) * cos (rad a) + sin (rad b) * sin (rad a)) by ring.
  rewrite <- cos_minus. replace (rad b - rad a) with (rad (b - a)) by (unfold rad; ring).
  apply acos_cos. pose proof PI_RGT_0. unfold rad. nra.
Qed.

Lemma degree_positive : 1 <= Distance 0 0 0 1.
Proof.
  rewrite Distance_equator by lra. unfold sphere_radius, rad.
  pose proof PI2_3_2. pose proof PI_RGT_0. unfold PI2 in *. lra.
Qed.
