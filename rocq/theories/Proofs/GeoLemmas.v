(** Package geo over the reals is spherical geometry. *)
From Coq Require Import Reals Lra Lia Psatz.
From Flocq Require Import Core.Raux Core.Zaux.
From Verif.Model Require Import Base Num NumR Geo.
From Verif.Spec Require Import SphereSpec.
Open Scope R_scope.

(** ** trigonometry *)

Lemma sin2_half x : sin (x / 2) * sin (x / 2) = (1 - cos x) / 2.
Proof.
  replace (cos x) with (cos (2 * (x / 2))) by (f_equal; field).
  rewrite cos_2a_sin. field.
Qed.

Lemma cos_per_Z x (k : Z) : cos (x + 2 * IZR k * PI) = cos x.
Proof.
  destruct (Z_le_gt_dec 0 k) as [H|H].
  - rewrite <- (Z2Nat.id k H), <- INR_IZR_INZ. apply cos_period.
  - rewrite <- (cos_period _ (Z.to_nat (- k))), INR_IZR_INZ, Z2Nat.id by lia.
    rewrite opp_IZR. f_equal. ring.
Qed.
Lemma sin_per_Z x (k : Z) : sin (x + 2 * IZR k * PI) = sin x.
Proof.
  destruct (Z_le_gt_dec 0 k) as [H|H].
  - rewrite <- (Z2Nat.id k H), <- INR_IZR_INZ. apply sin_period.
  - rewrite <- (sin_period _ (Z.to_nat (- k))), INR_IZR_INZ, Z2Nat.id by lia.
    rewrite opp_IZR. f_equal. ring.
Qed.

Lemma acos_asin_half c : -1 <= c <= 1 -> 2 * asin (sqrt ((1 - c) / 2)) = acos c.
Proof.
  intros H. pose proof (acos_bound c) as B.
  replace ((1 - c) / 2) with (sin (acos c / 2) * sin (acos c / 2)).
  2:{ rewrite sin2_half, cos_acos by assumption. reflexivity. }
  rewrite sqrt_square by (apply sin_ge_0; lra).
  rewrite asin_sin by lra. field.
Qed.

(** atan2 *)
Lemma atan2_bound y x : - PI < Ratan2 y x <= PI.
Proof.
  pose proof PI_RGT_0 as P. unfold Ratan2.
  destruct (Rlt_bool_spec 0 x).
  { pose proof (atan_bound (y / x)). lra. }
  destruct (Rlt_bool_spec x 0).
  - destruct (Rle_bool_spec 0 y).
    + assert (y / x <= 0).
      { unfold Rdiv. assert (/ x < 0) by now apply Rinv_lt_0_compat. nra. }
      assert (atan (y / x) <= 0).
      { rewrite <- atan_0. destruct (Req_dec (y / x) 0) as [->|]; [lra|].
        left. apply atan_increasing. lra. }
      pose proof (atan_bound (y / x)). lra.
    + assert (0 < y / x).
      { unfold Rdiv. assert (/ x < 0) by now apply Rinv_lt_0_compat. nra. }
      assert (0 < atan (y / x)) by (rewrite <- atan_0; now apply atan_increasing).
      pose proof (atan_bound (y / x)). lra.
  - destruct (Rlt_bool_spec 0 y); [lra|]. destruct (Rlt_bool_spec y 0); lra.
Qed.

Lemma sqrt_scale x y : x <> 0 -> sqrt (1 + (y / x)²) = sqrt (x * x + y * y) / Rabs x.
Proof.
  intros Hx.
  replace (1 + (y / x)²) with ((x * x + y * y) / (x * x)) by (unfold Rsqr; field; exact Hx).
  rewrite sqrt_div_alt by nra. f_equal. apply sqrt_Rsqr_abs.
Qed.

Lemma atan2_polar y x : x <> 0 \/ y <> 0 ->
  sqrt (x * x + y * y) * cos (Ratan2 y x) = x /\ sqrt (x * x + y * y) * sin (Ratan2 y x) = y.
Proof.
  intros Hne. pose proof PI_RGT_0 as P.
  set (r := sqrt (x * x + y * y)).
  assert (Hr : 0 < r) by (apply sqrt_lt_R0; destruct Hne; nra).
  unfold Ratan2.
  assert (Base : x <> 0 -> r * cos (atan (y / x)) = Rabs x /\ r * sin (atan (y / x)) = y / x * Rabs x).
  { intros Hx. rewrite cos_atan, sin_atan, !sqrt_scale by assumption. fold r.
    assert (0 < Rabs x) by now apply Rabs_pos_lt. split; field; lra. }
  destruct (Rlt_bool_spec 0 x) as [Hx|Hx].
  { destruct Base as [-> ->]; [lra|]. rewrite Rabs_right by lra. split; [reflexivity|field; lra]. }
  destruct (Rlt_bool_spec x 0) as [Hx'|Hx'].
  - destruct Base as [B1 B2]; [lra|]. rewrite Rabs_left in * by assumption.
    assert (E : y / x * - x = - y) by (field; lra). rewrite E in B2.
    destruct (Rle_bool_spec 0 y).
    + rewrite neg_cos, neg_sin. lra.
    + unfold Rminus. rewrite cos_plus, sin_plus, cos_neg, sin_neg, cos_PI, sin_PI. nra.
  - assert (x = 0) by lra. subst x. unfold r in *.
    replace (0 * 0 + y * y) with (Rsqr y) in * by (unfold Rsqr; ring). rewrite sqrt_Rsqr_abs in *.
    destruct (Rlt_bool_spec 0 y); [rewrite cos_PI2, sin_PI2, Rabs_right by lra; lra|].
    destruct (Rlt_bool_spec y 0).
    + rewrite cos_neg, sin_neg, cos_PI2, sin_PI2, Rabs_left by lra. lra.
    + exfalso. destruct Hne; lra.
Qed.

(** math.Mod only removes whole turns *)
Lemma Rmod_turns x y : exists k : Z, Rmod x y = x - y * IZR k.
Proof. unfold Rmod. eauto. Qed.

Lemma Rmod_range x y : 0 < y -> 0 <= x -> 0 <= Rmod x y < y.
Proof.
  intros Hy Hx. unfold Rmod. assert (0 <= x / y) by (apply Rle_mult_inv_pos; lra).
  rewrite Ztrunc_floor by assumption.
  pose proof (Zfloor_lb (x / y)) as H1. pose proof (Zfloor_ub (x / y)) as H2.
  assert (E : x = y * (x / y)) by (field; lra).
  rewrite E at 1 3. split; nra.
Qed.

Lemma Rmod_lower x y : 0 < y -> - y < Rmod x y < y.
Proof.
  intros Hy. destruct (Rle_or_lt 0 x) as [Hx|Hx].
  - pose proof (Rmod_range x y Hy Hx). lra.
  - unfold Rmod. assert (x / y <= 0).
    { unfold Rdiv. assert (0 < / y) by now apply Rinv_0_lt_compat. nra. }
    rewrite Ztrunc_ceil by assumption.
    pose proof (Zceil_ub (x / y)) as H1. pose proof (Zceil_lb (x / y)) as H2.
    assert (E : x = y * (x / y)) by (field; lra).
    rewrite E at 1 3. split; nra.
Qed.

(** ** vectors *)

Lemma place_unit la lo : dot (place la lo) (place la lo) = 1.
Proof.
  unfold dot, place; cbn. pose proof (sin2_cos2 (rad la)) as H1. pose proof (sin2_cos2 (rad lo)) as H2.
  unfold Rsqr in *.
  replace (cos (rad la) * cos (rad lo) * (cos (rad la) * cos (rad lo)) +
           cos (rad la) * sin (rad lo) * (cos (rad la) * sin (rad lo)) + sin (rad la) * sin (rad la))
    with (cos (rad la) * cos (rad la) * (sin (rad lo) * sin (rad lo) + cos (rad lo) * cos (rad lo))
          + sin (rad la) * sin (rad la)) by ring.
  rewrite H2. lra.
Qed.

Lemma dot_comm a b : dot a b = dot b a.
Proof. unfold dot. ring. Qed.

Definition det (a b c : vec) : R :=
  vx a * (vy b * vz c - vz b * vy c) - vy a * (vx b * vz c - vz b * vx c)
  + vz a * (vx b * vy c - vy b * vx c).

Lemma gram a b c :
  dot a a * dot b b * dot c c + 2 * dot a b * dot b c * dot c a
  - dot a a * (dot b c * dot b c) - dot b b * (dot c a * dot c a) - dot c c * (dot a b * dot a b)
  = det a b c * det a b c.
Proof. unfold dot, det. ring. Qed.

Lemma dot_self_nonneg a : 0 <= dot a a.
Proof.
  unfold dot. pose proof (Rle_0_sqr (vx a)). pose proof (Rle_0_sqr (vy a)). pose proof (Rle_0_sqr (vz a)).
  unfold Rsqr in *. lra.
Qed.

Lemma cauchy a b : dot a a = 1 -> dot b b = 1 -> -1 <= dot a b <= 1.
Proof.
  intros Ha Hb.
  pose proof (dot_self_nonneg (vadd a b)) as H1.
  pose proof (dot_self_nonneg (vadd a (vscale (-1) b))) as H2.
  assert (E1 : dot (vadd a b) (vadd a b) = dot a a + 2 * dot a b + dot b b) by (unfold dot, vadd; cbn; ring).
  assert (E2 : dot (vadd a (vscale (-1) b)) (vadd a (vscale (-1) b)) = dot a a - 2 * dot a b + dot b b)
    by (unfold dot, vadd, vscale; cbn; ring).
  lra.
Qed.

Lemma dot_one_eq a b : dot a a = 1 -> dot b b = 1 -> dot a b = 1 -> a = b.
Proof.
  intros Ha Hb H.
  assert (E : (vx a - vx b) * (vx a - vx b) + (vy a - vy b) * (vy a - vy b)
              + (vz a - vz b) * (vz a - vz b) = dot a a - 2 * dot a b + dot b b) by (unfold dot; ring).
  rewrite Ha, Hb, H in E.
  pose proof (Rle_0_sqr (vx a - vx b)) as Q1. pose proof (Rle_0_sqr (vy a - vy b)) as Q2.
  pose proof (Rle_0_sqr (vz a - vz b)) as Q3. unfold Rsqr in *.
  assert (vx a - vx b = 0) by (apply Rsqr_0_uniq; unfold Rsqr; lra).
  assert (vy a - vy b = 0) by (apply Rsqr_0_uniq; unfold Rsqr; lra).
  assert (vz a - vz b = 0) by (apply Rsqr_0_uniq; unfold Rsqr; lra).
  assert (vx a = vx b) by lra. assert (vy a = vy b) by lra. assert (vz a = vz b) by lra.
  destruct a, b; cbn in *. congruence.
Qed.

(** ** Distance is the angle between the two places *)

Lemma Haversine_dot la lo lb lob :
  Haversine la lo lb lob = (1 - dot (place la lo) (place lb lob)) / 2.
Proof.
  unfold Haversine. cbn. rewrite Rmult_assoc, !sin2_half.
  fold (rad la) (rad lo) (rad lb) (rad lob).
  replace (cos (rad lb - rad la)) with (cos (rad lb) * cos (rad la) + sin (rad lb) * sin (rad la))
    by (now rewrite cos_minus).
  replace (cos (rad lob - rad lo)) with (cos (rad lob) * cos (rad lo) + sin (rad lob) * sin (rad lo))
    by (now rewrite cos_minus).
  unfold dot, place; cbn. field.
Qed.

Lemma Distance_acos la lo lb lob :
  Distance la lo lb lob = sphere_radius * acos (dot (place la lo) (place lb lob)).
Proof.
  unfold Distance, DistanceFromHaversine. rewrite Haversine_dot. cbn.
  rewrite <- acos_asin_half by (apply cauchy; apply place_unit).
  unfold sphere_radius. lra.
Qed.

Lemma acos_dot_bounds a b : dot a a = 1 -> dot b b = 1 -> 0 <= acos (dot a b) <= PI.
Proof. intros. apply acos_bound. Qed.

Lemma angle_triangle a b c : dot a a = 1 -> dot b b = 1 -> dot c c = 1 ->
  acos (dot a c) <= acos (dot a b) + acos (dot b c).
Proof.
  intros Ha Hb Hc.
  pose proof (cauchy a b Ha Hb) as Cab. pose proof (cauchy b c Hb Hc) as Cbc.
  pose proof (cauchy a c Ha Hc) as Cac.
  pose proof (acos_bound (dot a b)) as Bx. pose proof (acos_bound (dot b c)) as By.
  pose proof (acos_bound (dot a c)) as Bz.
  destruct (Rle_or_lt PI (acos (dot a b) + acos (dot b c))) as [H|H]; [lra|].
  apply Rnot_lt_le. intros Hlt.
  assert (Hcos : cos (acos (dot a c)) < cos (acos (dot a b) + acos (dot b c))).
  { apply cos_decreasing_1; lra. }
  rewrite cos_acos in Hcos by assumption. rewrite cos_plus, !cos_acos in Hcos by assumption.
  rewrite !sin_acos in Hcos by assumption.
  pose proof (gram a b c) as G. rewrite Ha, Hb, Hc, (dot_comm c a) in G.
  set (p := dot a b) in *. set (q := dot b c) in *. set (z := dot a c) in *.
  assert (Hp : 0 <= 1 - p * p) by nra. assert (Hq : 0 <= 1 - q * q) by nra.
  unfold Rsqr in Hcos.
  set (sp := sqrt (1 - p * p)) in *. set (sq := sqrt (1 - q * q)) in *.
  assert (sp * sp = 1 - p * p) by (apply sqrt_sqrt; assumption).
  assert (sq * sq = 1 - q * q) by (apply sqrt_sqrt; assumption).
  assert (0 <= sp) by apply sqrt_pos. assert (0 <= sq) by apply sqrt_pos.
  assert (Hsq : (z - p * q) * (z - p * q) <= (sp * sq) * (sp * sq)).
  { replace ((sp * sq) * (sp * sq)) with ((1 - p * p) * (1 - q * q)) by (rewrite <- H0, <- H1; ring).
    assert (0 <= det a b c * det a b c) by nra. nra. }
  assert (0 <= sp * sq) by now apply Rmult_le_pos.
  nra.
Qed.

(** ** C01 *)

Lemma Distance_sym la lo lb lob : Distance la lo lb lob = Distance lb lob la lo.
Proof. rewrite !Distance_acos. now rewrite dot_comm. Qed.

Lemma Distance_range la lo lb lob : 0 <= Distance la lo lb lob <= half_circumference.
Proof.
  rewrite Distance_acos. unfold half_circumference, sphere_radius.
  pose proof (acos_bound (dot (place la lo) (place lb lob))). lra.
Qed.

Lemma Distance_zero la lo lb lob :
  Distance la lo lb lob = 0 <-> place la lo = place lb lob.
Proof.
  rewrite Distance_acos. unfold sphere_radius.
  pose proof (cauchy _ _ (place_unit la lo) (place_unit lb lob)) as C. split.
  - intros H. assert (acos (dot (place la lo) (place lb lob)) = 0) by lra.
    apply dot_one_eq; try apply place_unit.
    rewrite <- (cos_acos (dot (place la lo) (place lb lob))) by assumption. rewrite H0. apply cos_0.
  - intros ->. rewrite place_unit, acos_1. ring.
Qed.

Lemma Distance_triangle la lo lb lob lc loc :
  Distance la lo lc loc <= Distance la lo lb lob + Distance lb lob lc loc.
Proof.
  rewrite !Distance_acos. unfold sphere_radius.
  pose proof (angle_triangle (place la lo) (place lb lob) (place lc loc)
    (place_unit _ _) (place_unit _ _) (place_unit _ _)). lra.
Qed.

(** ** Destination *)

Lemma rad_deg x : rad (x * (180 / PI)) = x.
Proof. unfold rad. field. apply PI_neq0. Qed.

Lemma frame_dots la lo :
  dot (place la lo) (north la lo) = 0 /\ dot (place la lo) (east lo) = 0 /\
  dot (north la lo) (north la lo) = 1 /\ dot (east lo) (east lo) = 1 /\
  dot (north la lo) (east lo) = 0.
Proof.
  pose proof (sin2_cos2 (rad la)) as H1. pose proof (sin2_cos2 (rad lo)) as H2. unfold Rsqr in *.
  unfold dot, place, north, east; cbn.
  set (sa := sin (rad la)) in *. set (ca := cos (rad la)) in *.
  set (so := sin (rad lo)) in *. set (co := cos (rad lo)) in *.
  repeat split.
  - replace (ca * co * (- sa * co) + ca * so * (- sa * so) + sa * ca)
      with (ca * sa * (1 - (so * so + co * co))) by ring. rewrite H2. ring.
  - ring.
  - replace (- sa * co * (- sa * co) + - sa * so * (- sa * so) + ca * ca)
      with (sa * sa * (so * so + co * co) + ca * ca) by ring. rewrite H2. lra.
  - lra.
  - ring.
Qed.

Lemma direction_unit la lo b :
  dot (direction la lo b) (direction la lo b) = 1 /\ dot (place la lo) (direction la lo b) = 0.
Proof.
  destruct (frame_dots la lo) as (F1 & F2 & F3 & F4 & F5).
  pose proof (sin2_cos2 (rad b)) as H. unfold Rsqr in H. unfold direction.
  set (c := cos (rad b)) in *. set (s := sin (rad b)) in *. split.
  - replace (dot (vadd (vscale c (north la lo)) (vscale s (east lo)))
                 (vadd (vscale c (north la lo)) (vscale s (east lo))))
      with (c * c * dot (north la lo) (north la lo) + 2 * c * s * dot (north la lo) (east lo)
            + s * s * dot (east lo) (east lo)) by (unfold dot, vadd, vscale; cbn; ring).
    rewrite F3, F4, F5. lra.
  - replace (dot (place la lo) (vadd (vscale c (north la lo)) (vscale s (east lo))))
      with (c * dot (place la lo) (north la lo) + s * dot (place la lo) (east lo))
      by (unfold dot, vadd, vscale; cbn; ring).
    rewrite F1, F2. ring.
Qed.

Lemma great_circle_unit la lo m b : dot (great_circle la lo m b) (great_circle la lo m b) = 1.
Proof.
  destruct (direction_unit la lo b) as [D1 D2]. pose proof (place_unit la lo) as U.
  unfold great_circle. pose proof (sin2_cos2 (m / sphere_radius)) as H. unfold Rsqr in H.
  set (c := cos (m / sphere_radius)) in *. set (s := sin (m / sphere_radius)) in *.
  replace (dot (vadd (vscale c (place la lo)) (vscale s (direction la lo b)))
               (vadd (vscale c (place la lo)) (vscale s (direction la lo b))))
    with (c * c * dot (place la lo) (place la lo) + 2 * c * s * dot (place la lo) (direction la lo b)
          + s * s * dot (direction la lo b) (direction la lo b)) by (unfold dot, vadd, vscale; cbn; ring).
  rewrite U, D1, D2. lra.
Qed.

Lemma great_circle_dot la lo m b : dot (place la lo) (great_circle la lo m b) = cos (m / sphere_radius).
Proof.
  destruct (direction_unit la lo b) as [D1 D2]. pose proof (place_unit la lo) as U. unfold great_circle.
  set (c := cos (m / sphere_radius)) in *. set (s := sin (m / sphere_radius)) in *.
  replace (dot (place la lo) (vadd (vscale c (place la lo)) (vscale s (direction la lo b))))
    with (c * dot (place la lo) (place la lo) + s * dot (place la lo) (direction la lo b))
    by (unfold dot, vadd, vscale; cbn; ring).
  rewrite U, D2. ring.
Qed.

(** The place Destination returns: off the poles, the great circle point. *)
Lemma Destination_place la lo m b : 0 < cos (rad la) ->
  let '(la', lo') := Destination la lo m b in place la' lo' = great_circle la lo m b.
Proof.
  intros Hc. unfold Destination. cbn -[Ratan2 Rmod].
  fold (rad la) (rad lo) (rad b). change (IZR 6371000) with sphere_radius.
  set (dl := m / sphere_radius).
  set (s := sin (rad la) * cos dl + cos (rad la) * sin dl * cos (rad b)).
  pose proof (great_circle_unit la lo m b) as GU.
  assert (Ez : vz (great_circle la lo m b) = s).
  { unfold great_circle, direction, place, north, east; cbn. fold dl. unfold s. ring. }
  set (gx := cos (rad la) * cos dl - sin (rad la) * sin dl * cos (rad b)).
  set (gy := sin dl * sin (rad b)).
  assert (Ex : vx (great_circle la lo m b) = gx * cos (rad lo) - gy * sin (rad lo)).
  { unfold great_circle, direction, place, north, east; cbn. fold dl. unfold gx, gy. ring. }
  assert (Ey : vy (great_circle la lo m b) = gx * sin (rad lo) + gy * cos (rad lo)).
  { unfold great_circle, direction, place, north, east; cbn. fold dl. unfold gx, gy. ring. }
  assert (Hn : gx * gx + gy * gy = 1 - s * s).
  { unfold dot in GU. rewrite Ex, Ey, Ez in GU. pose proof (sin2_cos2 (rad lo)) as H. unfold Rsqr in H.
    set (so := sin (rad lo)) in *. set (co := cos (rad lo)) in *.
    replace ((gx * co - gy * so) * (gx * co - gy * so) + (gx * so + gy * co) * (gx * so + gy * co) + s * s)
      with ((gx * gx + gy * gy) * (so * so + co * co) + s * s) in GU by ring. rewrite H in GU. lra. }
  assert (Hs : -1 <= s <= 1) by nra.
  rewrite sin_asin by assumption.
  set (X := cos dl - sin (rad la) * s). set (Y := sin (rad b) * sin dl * cos (rad la)).
  assert (EX : X = cos (rad la) * gx).
  { unfold X, gx, s. pose proof (sin2_cos2 (rad la)) as H. unfold Rsqr in H.
    set (sa := sin (rad la)) in *. set (ca := cos (rad la)) in *.
    replace (cos dl - sa * (sa * cos dl + ca * sin dl * cos (rad b)))
      with ((1 - sa * sa) * cos dl - sa * ca * sin dl * cos (rad b)) by ring.
    replace (1 - sa * sa) with (ca * ca) by lra. ring. }
  assert (EY : Y = cos (rad la) * gy) by (unfold Y, gy; ring).
  destruct (Rmod_turns (rad lo + Ratan2 Y X + 3 * PI) (2 * PI)) as (k & Hk). rewrite Hk.
  unfold place. rewrite !rad_deg.
  replace (rad lo + Ratan2 Y X + 3 * PI - 2 * PI * IZR k - PI)
    with (rad lo + Ratan2 Y X + 2 * IZR (1 - k) * PI) by (rewrite minus_IZR; ring).
  rewrite cos_per_Z, sin_per_Z, cos_plus, sin_plus, sin_asin by assumption.
  rewrite cos_asin by assumption. replace (1 - s²) with (gx * gx + gy * gy) by (unfold Rsqr; lra).
  destruct (Req_dec (gx * gx + gy * gy) 0) as [Hz|Hz].
  - assert (gx = 0) by nra. assert (gy = 0) by nra.
    rewrite Hz, sqrt_0.
    destruct (great_circle la lo m b) as [a1 a2 a3]; cbn in *. subst a1 a2 a3. rewrite H, H0. f_equal; ring.
  - assert (Hr : sqrt (X * X + Y * Y) = cos (rad la) * sqrt (gx * gx + gy * gy)).
    { rewrite EX, EY.
      replace (cos (rad la) * gx * (cos (rad la) * gx) + cos (rad la) * gy * (cos (rad la) * gy))
        with ((cos (rad la))² * (gx * gx + gy * gy)) by (unfold Rsqr; ring).
      rewrite sqrt_mult by (unfold Rsqr; nra). rewrite sqrt_Rsqr by lra. reflexivity. }
    destruct (atan2_polar Y X) as [PX PY].
    { rewrite EX, EY. destruct (Req_dec gx 0) as [Hx|Hx].
      - right. apply Rmult_integral_contrapositive_currified; [lra|]. intros Hy. apply Hz. rewrite Hx, Hy. ring.
      - left. apply Rmult_integral_contrapositive_currified; [lra|exact Hx]. }
    rewrite Hr in PX, PY. pose proof (eq_trans PX EX) as PX'. pose proof (eq_trans PY EY) as PY'.
    assert (P1 : sqrt (gx * gx + gy * gy) * cos (Ratan2 Y X) = gx)
      by (apply (Rmult_eq_reg_l (cos (rad la))); [rewrite <- PX'; ring|lra]).
    assert (P2 : sqrt (gx * gx + gy * gy) * sin (Ratan2 Y X) = gy)
      by (apply (Rmult_eq_reg_l (cos (rad la))); [rewrite <- PY'; ring|lra]).
    set (r := sqrt (gx * gx + gy * gy)) in *.
    destruct (great_circle la lo m b) as [a1 a2 a3]; cbn in *. subst a1 a2 a3. f_equal.
    + replace (r * (cos (rad lo) * cos (Ratan2 Y X) - sin (rad lo) * sin (Ratan2 Y X)))
        with (r * cos (Ratan2 Y X) * cos (rad lo) - r * sin (Ratan2 Y X) * sin (rad lo)) by ring.
      now rewrite P1, P2.
    + replace (r * (sin (rad lo) * cos (Ratan2 Y X) + cos (rad lo) * sin (Ratan2 Y X)))
        with (r * cos (Ratan2 Y X) * sin (rad lo) + r * sin (Ratan2 Y X) * cos (rad lo)) by ring.
      now rewrite P1, P2.
Qed.


Lemma cos_rad_nonneg la : -90 <= la <= 90 -> 0 <= cos (rad la).
Proof.
  intros H. pose proof PI_RGT_0. unfold rad. apply cos_ge_0; nra.
Qed.
Lemma cos_rad_pos la : -90 < la < 90 -> 0 < cos (rad la).
Proof.
  intros H. pose proof PI_RGT_0. unfold rad. apply cos_gt_0; nra.
Qed.

Lemma Destination_dot la lo m b : 0 <= cos (rad la) ->
  let '(la', lo') := Destination la lo m b in
  dot (place la lo) (place la' lo') = cos (m / sphere_radius).
Proof.
  intros Hc. destruct (Rle_lt_or_eq_dec _ _ Hc) as [Hp|Hz].
  - pose proof (Destination_place la lo m b Hp) as H. destruct (Destination la lo m b) as [la' lo'].
    rewrite H. apply great_circle_dot.
  - unfold Destination. cbn -[Ratan2 Rmod].
    fold (rad la) (rad lo) (rad b). change (IZR 6371000) with sphere_radius.
    rewrite <- Hz. unfold dot, place; cbn. rewrite !rad_deg. rewrite <- Hz.
    pose proof (sin2_cos2 (rad la)) as H. rewrite <- Hz in H. unfold Rsqr in H.
    replace (sin (rad la) * cos (m / sphere_radius) + 0 * sin (m / sphere_radius) * cos (rad b))
      with (sin (rad la) * cos (m / sphere_radius)) by ring.
    pose proof (COS_bound (m / sphere_radius)) as B. pose proof (SIN_bound (rad la)) as B'.
    rewrite sin_asin by nra.
    replace (sin (rad la) * (sin (rad la) * cos (m / sphere_radius)))
      with (sin (rad la) * sin (rad la) * cos (m / sphere_radius)) by ring.
    replace (sin (rad la) * sin (rad la)) with 1 by lra. ring.
Qed.

Lemma Destination_distance la lo m b : -90 <= la <= 90 -> 0 <= m <= half_circumference ->
  let '(la', lo') := Destination la lo m b in Distance la lo la' lo' = m.
Proof.
  intros Hla Hm. pose proof (Destination_dot la lo m b (cos_rad_nonneg la Hla)) as H.
  destruct (Destination la lo m b) as [la' lo']. rewrite Distance_acos, H.
  unfold half_circumference, sphere_radius in *. rewrite acos_cos by lra. field.
Qed.

Lemma Bearing_frame la lo lb lob :
  Bearing la lo lb lob =
  Rmod (Ratan2 (dot (east lo) (place lb lob)) (dot (north la lo) (place lb lob)) * (180 / PI) + 360) 360.
Proof.
  unfold Bearing. cbn -[Ratan2 Rmod].
  replace ((lob - lo) * (PI / 180)) with (rad lob - rad lo) by (unfold rad; ring).
  fold (rad la) (rad lb). rewrite cos_minus, sin_minus.
  do 4 f_equal; unfold dot, east, north, place; cbn; ring.
Qed.

Lemma Bearing_range la lo lb lob : 0 <= Bearing la lo lb lob < 360.
Proof.
  rewrite Bearing_frame. apply Rmod_range; [lra|].
  pose proof (atan2_bound (dot (east lo) (place lb lob)) (dot (north la lo) (place lb lob))) as B.
  set (t := Ratan2 _ _) in *. pose proof PI_RGT_0 as P.
  assert (E : -180 = - PI * (180 / PI)) by (field; lra).
  assert (0 < 180 / PI) by (apply Rdiv_lt_0_compat; lra). nra.
Qed.

(** the bearing is the direction of the tangent part of B *)
Lemma Bearing_polar la lo lb lob :
  let x := dot (north la lo) (place lb lob) in
  let y := dot (east lo) (place lb lob) in
  let th := rad (Bearing la lo lb lob) in
  x <> 0 \/ y <> 0 ->
  sqrt (x * x + y * y) * cos th = x /\ sqrt (x * x + y * y) * sin th = y.
Proof.
  intros x y th Hne. unfold th. rewrite Bearing_frame. fold x y.
  destruct (Rmod_turns (Ratan2 y x * (180 / PI) + 360) 360) as (k & ->).
  replace (rad (Ratan2 y x * (180 / PI) + 360 - 360 * IZR k))
    with (Ratan2 y x + 2 * IZR (1 - k) * PI)
    by (unfold rad; rewrite minus_IZR; field; apply PI_neq0).
  rewrite cos_per_Z, sin_per_Z. now apply atan2_polar.
Qed.

Lemma cos_sin_eq x y : cos x = cos y -> sin x = sin y -> exists k : Z, x = y + 2 * IZR k * PI.
Proof.
  intros Hc Hs. assert (H0 : cos (x - y) = 1).
  { rewrite cos_minus, Hc, Hs. pose proof (sin2_cos2 y). unfold Rsqr in *. lra. }
  pose proof (sin2_half (x - y)) as H. rewrite H0 in H.
  assert (Hz : sin ((x - y) / 2) = 0) by nra.
  apply sin_eq_0_0 in Hz. destruct Hz as (k & Hk). exists k. lra.
Qed.

Lemma great_circle_frame la lo m b :
  dot (north la lo) (great_circle la lo m b) = sin (m / sphere_radius) * cos (rad b) /\
  dot (east lo) (great_circle la lo m b) = sin (m / sphere_radius) * sin (rad b).
Proof.
  destruct (frame_dots la lo) as (F1 & F2 & F3 & F4 & F5). unfold great_circle, direction.
  set (c := cos (m / sphere_radius)) in *. set (s := sin (m / sphere_radius)) in *.
  set (cb := cos (rad b)). set (sb := sin (rad b)). split.
  - replace (dot (north la lo) _) with
      (c * dot (place la lo) (north la lo) + s * (cb * dot (north la lo) (north la lo)
        + sb * dot (north la lo) (east lo))) by (unfold dot, vadd, vscale; cbn; ring).
    rewrite F1, F3, F5. ring.
  - replace (dot (east lo) _) with
      (c * dot (place la lo) (east lo) + s * (cb * dot (north la lo) (east lo)
        + sb * dot (east lo) (east lo))) by (unfold dot, vadd, vscale; cbn; ring).
    rewrite F2, F4, F5. ring.
Qed.

Lemma sin_delta_pos m : 0 < m < half_circumference -> 0 < sin (m / sphere_radius).
Proof. unfold half_circumference, sphere_radius. intros. apply sin_gt_0; lra. Qed.

Lemma Destination_bearing la lo m b : -90 < la < 90 -> 0 < m < half_circumference ->
  let '(la', lo') := Destination la lo m b in
  exists k : Z, Bearing la lo la' lo' = b + 360 * IZR k.
Proof.
  intros Hla Hm. pose proof (Destination_place la lo m b (cos_rad_pos la Hla)) as H.
  destruct (Destination la lo m b) as [la' lo'].
  pose proof (sin_delta_pos m Hm) as Hs.
  destruct (great_circle_frame la lo m b) as [G1 G2]. rewrite <- H in G1, G2.
  pose proof (sin2_cos2 (rad b)) as U. unfold Rsqr in U.
  set (s := sin (m / sphere_radius)) in *.
  destruct (Bearing_polar la lo la' lo') as [B1 B2].
  { rewrite G1, G2. destruct (Req_dec (cos (rad b)) 0) as [E|E].
    - right. apply Rmult_integral_contrapositive_currified; [lra|]. intros E'. rewrite E, E' in U. lra.
    - left. apply Rmult_integral_contrapositive_currified; [lra|exact E]. }
  rewrite G1, G2 in B1, B2.
  replace (s * cos (rad b) * (s * cos (rad b)) + s * sin (rad b) * (s * sin (rad b))) with (s²) in B1, B2
    by (unfold Rsqr; transitivity (s * s * (sin (rad b) * sin (rad b) + cos (rad b) * cos (rad b)));
        [rewrite U|]; ring).
  rewrite sqrt_Rsqr in B1, B2 by lra.
  apply Rmult_eq_reg_l in B1; [|lra]. apply Rmult_eq_reg_l in B2; [|lra].
  destruct (cos_sin_eq _ _ B1 B2) as (k & Hk). exists k. unfold rad in Hk.
  assert (P : PI <> 0) by apply PI_neq0.
  apply (Rmult_eq_reg_r (PI / 180)); [rewrite Hk; field|].
  unfold Rdiv. apply Rmult_integral_contrapositive_currified; [exact P|lra].
Qed.

(** ** coordinates *)

Lemma asin_deg x : -90 <= asin x * (180 / PI) <= 90.
Proof.
  pose proof (asin_bound x) as B. pose proof PI_RGT_0 as P.
  assert (E : 90 = PI / 2 * (180 / PI)) by (field; lra).
  assert (0 < 180 / PI) by (apply Rdiv_lt_0_compat; lra). nra.
Qed.

Lemma Destination_lat la lo m b : -90 <= fst (Destination la lo m b) <= 90.
Proof. unfold Destination. cbn -[Ratan2 Rmod]. apply asin_deg. Qed.

Lemma Destination_lon_upper la lo m b : snd (Destination la lo m b) < 180.
Proof.
  unfold Destination. cbn -[Ratan2 Rmod]. pose proof PI_RGT_0 as P.
  match goal with |- (Rmod ?x _ - _) * _ < _ => pose proof (Rmod_lower x (2 * PI) ltac:(lra)) as B end.
  set (t := Rmod _ _) in *.
  assert (E : 180 = PI * (180 / PI)) by (field; lra).
  assert (0 < 180 / PI) by (apply Rdiv_lt_0_compat; lra). nra.
Qed.

Lemma Destination_lon la lo m b : -360 <= lo -> -180 <= snd (Destination la lo m b) < 180.
Proof.
  intros Hlo. split; [|apply Destination_lon_upper].
  unfold Destination. cbn -[Ratan2 Rmod]. pose proof PI_RGT_0 as P.
  match goal with |- context [Ratan2 ?y ?x] => pose proof (atan2_bound y x) as A; set (t := Ratan2 y x) in * end.
  assert (Hx : 0 <= lo * (PI / 180) + t + 3 * PI) by nra.
  pose proof (Rmod_range _ (2 * PI) ltac:(lra) Hx) as B. set (u := Rmod _ _) in *.
  assert (E : 180 = PI * (180 / PI)) by (field; lra).
  assert (0 < 180 / PI) by (apply Rdiv_lt_0_compat; lra). nra.
Qed.

(** places with latitude inside (-90,90) determine their coordinates up to whole turns *)
Lemma place_coordinates la lo lb lob : -90 < la < 90 -> -90 < lb < 90 ->
  (place la lo = place lb lob <-> la = lb /\ exists k : Z, lo = lob + 360 * IZR k).
Proof.
  intros Ha Hb. pose proof PI_RGT_0 as P. split.
  - intros H. unfold place in H. injection H as Hx Hy Hz.
    assert (la = lb).
    { assert (rad la = rad lb).
      { rewrite <- (asin_sin (rad la)), <- (asin_sin (rad lb)) by (unfold rad; split; nra).
        now rewrite Hz. }
      unfold rad in *. nra. }
    subst lb. split; [reflexivity|]. pose proof (cos_rad_pos la Ha).
    apply Rmult_eq_reg_l in Hx; [|lra]. apply Rmult_eq_reg_l in Hy; [|lra].
    destruct (cos_sin_eq _ _ Hx Hy) as (k & Hk). exists k. unfold rad in Hk.
    apply (Rmult_eq_reg_r (PI / 180)); [rewrite Hk; field|].
    unfold Rdiv. apply Rmult_integral_contrapositive_currified; lra.
  - intros [-> (k & ->)]. unfold place.
    replace (rad (lob + 360 * IZR k)) with (rad lob + 2 * IZR k * PI) by (unfold rad; field).
    now rewrite cos_per_Z, sin_per_Z.
Qed.

(** ** walking from A towards B *)

Lemma frame_norm la lo v :
  dot v v = dot (place la lo) v * dot (place la lo) v + dot (north la lo) v * dot (north la lo) v
            + dot (east lo) v * dot (east lo) v.
Proof.
  unfold dot, place, north, east; cbn.
  pose proof (sin2_cos2 (rad la)) as H1. pose proof (sin2_cos2 (rad lo)) as H2. unfold Rsqr in *.
  set (sa := sin (rad la)) in *. set (ca := cos (rad la)) in *.
  set (so := sin (rad lo)) in *. set (co := cos (rad lo)) in *.
  set (a := vx v). set (b := vy v). set (c := vz v).
  symmetry.
  transitivity ((sa * sa + ca * ca) * ((co * a + so * b) * (co * a + so * b) + c * c)
              + (- so * a + co * b) * (- so * a + co * b)); [ring|].
  rewrite H1.
  transitivity ((so * so + co * co) * (a * a + b * b) + c * c); [ring|].
  rewrite H2. ring.
Qed.

Lemma walk la lo lb lob d : -90 < la < 90 ->
  place la lo <> place lb lob -> ~ antipodal (place la lo) (place lb lob) ->
  let '(lw, low) := Destination la lo d (Bearing la lo lb lob) in
  dot (place la lo) (place lw low) = cos (d / sphere_radius) /\
  dot (place lw low) (place lb lob) = cos ((Distance la lo lb lob - d) / sphere_radius).
Proof.
  intros Hla Hne Hna. pose proof (cos_rad_pos la Hla) as Hc.
  pose proof (Destination_place la lo d (Bearing la lo lb lob) Hc) as W.
  destruct (Destination la lo d (Bearing la lo lb lob)) as [lw low]. rewrite W.
  split; [apply great_circle_dot|].
  set (v := place lb lob) in *.
  pose proof (place_unit la lo) as Uu. pose proof (place_unit lb lob) as Uv. fold v in Uv.
  pose proof (cauchy _ _ Uu Uv) as C.
  set (D := dot (place la lo) v) in *.
  assert (HD : -1 < D < 1).
  { split; [destruct (Req_dec D (-1)); [contradiction|lra]|].
    destruct (Req_dec D 1) as [E|]; [exfalso; apply Hne; now apply dot_one_eq|lra]. }
  set (x := dot (north la lo) v). set (y := dot (east lo) v).
  (* v in the frame at A *)
  assert (Hxy : x * x + y * y = 1 - D * D).
  { assert (Hframe : dot v v = D * D + x * x + y * y).
    { apply frame_norm. }
    lra. }
  destruct (Bearing_polar la lo lb lob) as [B1 B2].
  { fold v x y. destruct (Req_dec x 0) as [E|E]; [right|now left]. intros E'. rewrite E, E' in Hxy. nra. }
  fold v x y in B1, B2. rewrite Hxy in B1, B2.
  set (sd := sqrt (1 - D * D)) in *.
  assert (Hsd : sd * sd = 1 - D * D) by (apply sqrt_sqrt; nra).
  assert (0 < sd) by (apply sqrt_lt_R0; nra).
  assert (HDist : Distance la lo lb lob / sphere_radius = acos D).
  { rewrite Distance_acos. fold v D. unfold sphere_radius. field. }
  replace ((Distance la lo lb lob - d) / sphere_radius)
    with (acos D - d / sphere_radius) by (rewrite <- HDist; unfold sphere_radius; field).
  rewrite cos_minus, cos_acos, sin_acos by lra. unfold Rsqr. fold sd.
  unfold great_circle, direction.
  set (cd := cos (d / sphere_radius)). set (sdd := sin (d / sphere_radius)).
  set (ct := cos (rad (Bearing la lo lb lob))) in *. set (st := sin (rad (Bearing la lo lb lob))) in *.
  replace (dot (vadd (vscale cd (place la lo)) (vscale sdd (vadd (vscale ct (north la lo)) (vscale st (east lo))))) v)
    with (cd * D + sdd * (ct * x + st * y)) by (unfold D, x, y, dot, vadd, vscale; cbn; ring).
  assert (ct * x + st * y = sd).
  { apply (Rmult_eq_reg_l sd); [|lra]. rewrite Hsd, <- Hxy, <- B1 at 1. rewrite <- B2 at 1.
    rewrite <- B1 at 2. rewrite <- B2 at 2. nra. }
  rewrite H0. ring.
Qed.

(** ** haversine conversions *)

Lemma haversine_roundtrip m : 0 <= m <= half_circumference ->
  DistanceFromHaversine (DistanceToHaversine m) = m.
Proof.
  unfold half_circumference, sphere_radius. intros Hm. unfold DistanceFromHaversine, DistanceToHaversine. cbn.
  pose proof PI_RGT_0.
  assert (B : 0 <= 1 / 2 * m / 6371000 <= PI / 2) by lra.
  rewrite sqrt_square by (apply sin_ge_0; lra). rewrite asin_sin by lra. field.
Qed.

Lemma haversine_roundtrip' h : 0 <= h <= 1 -> DistanceToHaversine (DistanceFromHaversine h) = h.
Proof.
  intros Hh. unfold DistanceFromHaversine, DistanceToHaversine. cbn.
  replace (1 / 2 * (12742000 * asin (sqrt h)) / 6371000) with (asin (sqrt h)) by field.
  assert (0 <= sqrt h) by apply sqrt_pos.
  assert (sqrt h <= 1) by (rewrite <- sqrt_1; apply sqrt_le_1; lra).
  rewrite sin_asin by lra. apply sqrt_sqrt; lra.
Qed.

Lemma sin_sq_half_turn x (k : Z) : sin (x + IZR k * PI) * sin (x + IZR k * PI) = sin x * sin x.
Proof.
  replace (x + IZR k * PI) with ((2 * x + 2 * IZR k * PI) / 2) by field.
  replace (sin x * sin x) with (sin (2 * x / 2) * sin (2 * x / 2)) by (replace (2 * x / 2) with x by field; ring).
  now rewrite !sin2_half, cos_per_Z.
Qed.

Lemma normalize_haversine m : DistanceToHaversine (NormalizeDistance m) = DistanceToHaversine m.
Proof.
  unfold DistanceToHaversine, NormalizeDistance. cbn -[Rmod].
  destruct (Rmod_turns m (2 * (PI * 6371000))) as (k & ->).
  replace (1 / 2 * (m - 2 * (PI * 6371000) * IZR k) / 6371000)
    with (1 / 2 * m / 6371000 + IZR (- k) * PI) by (rewrite opp_IZR; field).
  apply sin_sq_half_turn.
Qed.

Lemma normalize_range m : 0 <= m -> 0 <= NormalizeDistance m < 2 * half_circumference.
Proof.
  intros Hm. unfold NormalizeDistance, half_circumference, sphere_radius. cbn -[Rmod].
  pose proof PI_RGT_0. apply Rmod_range; lra.
Qed.

Lemma Rmod_small x y : 0 <= x < y -> Rmod x y = x.
Proof.
  intros H. unfold Rmod.
  assert (Hq : 0 <= x / y < 1).
  { split; [apply Rle_mult_inv_pos; lra|]. apply (Rmult_lt_reg_r y); [lra|].
    unfold Rdiv. rewrite Rmult_assoc, Rinv_l by lra. lra. }
  rewrite Ztrunc_floor by tauto. rewrite (Zfloor_imp 0) by (cbn; lra). cbn. ring.
Qed.

Lemma normalize_id m : 0 <= m < 2 * half_circumference -> NormalizeDistance m = m.
Proof.
  intros Hm. unfold NormalizeDistance, half_circumference, sphere_radius in *. cbn -[Rmod].
  apply Rmod_small. lra.
Qed.
