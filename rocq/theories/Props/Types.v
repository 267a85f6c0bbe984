(** C06-C13: generated values, speeds, batteries, offline durations. *)
From Coq Require Import Reals Lra Lia.
From Flocq Require Import Core BinarySingleNaN.
From Verif.Model Require Import Base Num NumR NumF64 Geo Curve PropMap Types TypesSnap Track Route Navigator.
From Verif.Spec Require Import NavSpec RealSpec TypesSpec CurveF64Spec Examples.
From Verif.Proofs Require Import CurveLemmas TypesProofs CurveF64.
Open Scope R_scope.

(** C06. Whatever was shuffled or evaluated before, a curve value lies in the configured range and
    its abscissa is the parameter scaled to the number of control points. *)
Theorem C06_curve_range :
  forall (min max : R) (k mode : Z) (draws : nat -> R) (ops : list (curve_op R)) (t : R),
    min <= max -> unit_draws draws -> Forall unit_op ops -> 0 <= t <= 1 ->
    exists c p c', run_curve (curve_New min max k mode draws) ops = Ret c /\
      curve_Point c t = Ret (p, c') /\ min <= Y p <= max /\
      NumControlPoints c = points_for k /\ X p = t * (IZR (NumControlPoints c) - 1).
Proof. exact C06_proof. Qed.
Print Assumptions C06_curve_range.

Lemma half_draws : unit_draws (fun _ => 1 / 2).
Proof. intro. lra. Qed.

Example C06_example : exists c p c',
  run_curve (curve_New 20 30 4 ModeDefault (fun _ => 1 / 2)) [CPoint 0; CShuffle (fun _ => 1 / 2); CPoint 1] = Ret c /\
  curve_Point c (1 / 2) = Ret (p, c') /\ 20 <= Y p <= 30 /\ X p = 3 / 2.
Proof.
  destruct (C06_curve_range 20 30 4 ModeDefault (fun _ => 1 / 2)
              [CPoint 0; CShuffle (fun _ => 1 / 2); CPoint 1] (1 / 2)) as (c & p & c' & E & E' & H & N & EX).
  - lra.
  - apply half_draws.
  - apply Forall_cons; [exact I|]. apply Forall_cons; [apply half_draws|]. apply Forall_cons; [exact I|apply Forall_nil].
  - lra.
  - exists c, p, c'. repeat (split; [assumption|]). rewrite EX, N. cbn. lra.
Qed.

(** C07. The ends of the curve are its first and last generated values, pinned to the minimum by
    the start and end modes, also after any Shuffle and Point calls. *)
Theorem C07_pinned_ends :
  forall (min max : R) (k mode : Z) (draws : nat -> R) (ops : list (curve_op R)),
    exists c p0 p1 c0 c1, run_curve (curve_New min max k mode draws) ops = Ret c /\
      curve_Point c 0 = Ret (p0, c0) /\ curve_Point c 1 = Ret (p1, c1) /\
      (min_start mode -> Y p0 = min) /\ (min_end mode -> Y p1 = min) /\
      ((1 < points_for k)%Z ->
        (~ min_start mode -> Y p0 = min + latest draws ops O * (max - min)) /\
        (~ min_end mode -> Y p1 = min + latest draws ops (Z.to_nat (points_for k - 1)) * (max - min))).
Proof. exact C07_proof. Qed.
Print Assumptions C07_pinned_ends.

Example C07_example : min_start ModeMinStart /\ min_end (Z.lor ModeMinStart ModeMinEnd) /\
  ~ min_end ModeMinStart /\ ~ min_start ModeDefault /\ (1 < points_for 0)%Z.
Proof. unfold min_start, min_end, points_for. vm_compute. intuition congruence. Qed.

(** C08. In any arithmetic, earlier Point calls have no influence on later ones. *)
Theorem C08_point_pure :
  forall (T : Type) (N : Num T) (c : curve T) (ts : list T) (t : T), cv_points c <> [] ->
    exists c', run_curve c (map CPoint ts) = Ret c' /\ curve_Point c' t = curve_Point c t.
Proof.
  intros T N c ts t H. destruct (C08_total c ts H) as [c' E]. exists c'. split; [exact E|].
  now apply (C08_proof c ts).
Qed.
Print Assumptions C08_point_pure.

Example C08_example :
  let c := curve_New (f64_ofZ 1) (f64_ofZ 500) 4 ModeDefault (fun i => f64_norm (Z.of_nat i) (-2)) in
  List.length (cv_points c) = 4%nat /\
  match curve_Point c (f64_norm 1 (-2)) with
  | Ret (p, c') =>
      Bltb (f64_ofZ 90) (Y p) = true /\
      (* the scratch fields did change *)
      map (fun '(a, b) => Beqb (Y (vp a)) (Y (vp b))) (combine (cv_points c) (cv_points c')) = [true; false; false; false]
  | _ => False
  end.
Proof. vm_compute. auto. Qed.

(** C09 is false: with binary64 arithmetic a curve of the default elevation range 1..500 with four
    control points produces values below 1 (t = 0.05, all draws 0) and above 500 (t = 0.2, all
    draws the largest float64 below 1). *)
Theorem C09_refuted : forall m : MathLib,
  let point d t :=
    match @curve_Point f64 (F64Num m) (@curve_New f64 (F64Num m) (f64_ofZ 1) (f64_ofZ 500) 4 ModeDefault (fun _ => d)) t with
    | Ret (p, _) => Y p
    | _ => f64_nan
    end in
  Bltb (point (f64_ofZ 0) (f64_div (f64_ofZ 5) (f64_ofZ 100))) (f64_ofZ 1) = true /\
  Bltb (f64_ofZ 500) (point (f64_norm (2 ^ 53 - 1) (-53)) (f64_div (f64_ofZ 20) (f64_ofZ 100))) = true.
Proof. intro m. vm_compute. auto. Qed.
Print Assumptions C09_refuted.

(** How far C09 fails: for up to 512 control points and limits up to 2^400, rounding carries a curve value
    out of its range by no more than one part in 2^40 of the larger limit, and the value is never NaN or
    infinite. Missing from the full property: the excess itself, which does occur. *)
Theorem C09_bound_partial :
  forall (m : MathLib) (lo hi : R) (min max : f64) (k mode : Z) (draws : nat -> f64) (ops : list (curve_op f64)) (t : f64) (x : R),
    let N := F64Num m in
    real min lo -> real max hi -> lo <= hi -> Rabs lo <= bpow radix2 400 -> Rabs hi <= bpow radix2 400 ->
    (points_for k <= 512)%Z -> unit_draws64 draws -> Forall unit_op64 ops -> real t x -> 0 <= x <= 1 ->
    exists c p c' v, run_curve (curve_New min max k mode draws) ops = Ret c /\ curve_Point c t = Ret (p, c') /\
      real (Y p) v /\ lo - slack lo hi <= v <= hi + slack lo hi.
Proof. exact C09_bound_proof. Qed.
Print Assumptions C09_bound_partial.

(** The same for a sensor, over any history of Next and Shuffle with at least one Next. *)
Theorem C09_sensor_partial :
  forall (m : MathLib) (lo hi : R) name (min max : f64) (amplitude mode : Z) uuid (draws : nat -> f64) (s : sensor f64) (ops : list (gen_op f64)),
    let N := F64Num m in
    NewSensor name min max amplitude mode uuid draws = GOk s ->
    real min lo -> real max hi -> lo <= hi -> Rabs lo <= bpow radix2 400 -> Rabs hi <= bpow radix2 400 ->
    unit_draws64 draws -> Forall unit_gen64 ops -> Exists is_next ops ->
    exists s' v, run_sensor s ops = Ret s' /\ real (s_valY s') v /\ lo - slack lo hi <= v <= hi + slack lo hi.
Proof. intros m lo hi name min max amplitude mode uuid draws s ops N. exact (C09_sensor_proof m lo hi name min max amplitude mode uuid draws s ops). Qed.
Print Assumptions C09_sensor_partial.

(** The same for a speed: its value is within a billionth of its range, whatever finite limits NewSpeed accepted. *)
Theorem C09_speed_partial :
  forall (m : MathLib) (a b : R) (min max : f64) (amplitude : Z) (draws : nat -> f64) (s : speed f64) (ops : list (gen_op f64)),
    let N := F64Num m in
    NewSpeed min max amplitude draws = GOk s -> real min a -> real max b ->
    unit_draws64 draws -> Forall unit_gen64 ops -> Exists is_next ops ->
    exists s' lo hi v, run_speed s ops = Ret s' /\ real (sp_min s) lo /\ real (sp_max s) hi /\ real (speed_Value s') v /\
      0 <= lo <= hi /\ (lo < hi -> hi <= 1000) /\ lo - / 10 ^ 9 <= v <= hi + / 10 ^ 9.
Proof. intros m a b min max amplitude draws s ops N. exact (C09_speed_proof m a b min max amplitude draws s ops). Qed.
Print Assumptions C09_speed_partial.

Lemma real_half : real (f64_norm 1 (-1)) (1 / 2).
Proof.
  split; [reflexivity|]. rewrite <- SF2R_B2SF. assert (E : B2SF (f64_norm 1 (-1)) = SpecFloat.S754_finite false 4503599627370496 (-53)) by reflexivity.
  rewrite E. unfold SF2R, F2R. cbn [Fnum Fexp cond_Zopp]. change (bpow radix2 (-53)) with (/ 9007199254740992). lra.
Qed.
Lemma half_draws64 : unit_draws64 (fun _ => f64_norm 1 (-1)).
Proof. intro i. exists (1 / 2). split; [exact real_half|lra]. Qed.

(** the default elevation range, 16 control points, a Shuffle and a Point before *)
Example C09_bound_example : exists c p c' v,
  run_curve (curve_New (f64_ofZ 1) (f64_ofZ 500) 16 ModeDefault (fun _ => f64_norm 1 (-1)))
    [CPoint (f64_ofZ 0); CShuffle (fun _ => f64_norm 1 (-1))] = Ret c /\
  curve_Point c (f64_norm 1 (-1)) = Ret (p, c') /\ real (Y p) v /\ 1 - 500 / 2 ^ 39 <= v <= 500 + 500 / 2 ^ 39.
Proof.
  pose proof (bpow_le radix2 (-1000) (-40) ltac:(lia)) as Hb. change (bpow radix2 (-40)) with (/ 1099511627776) in Hb.
  assert (1024 <= bpow radix2 400) by (change 1024 with (bpow radix2 10); apply bpow_le; lia).
  destruct (C09_bound_partial idMath 1 500 (f64_ofZ 1) (f64_ofZ 500) 16 ModeDefault (fun _ => f64_norm 1 (-1))
    [CPoint (f64_ofZ 0); CShuffle (fun _ => f64_norm 1 (-1))] (f64_norm 1 (-1)) (1 / 2)) as (c & p & c' & v & E & E' & R & B).
  - apply (ofZ_real 1). lia.
  - apply (ofZ_real 500). lia.
  - lra.
  - rewrite Rabs_pos_eq; lra.
  - rewrite Rabs_pos_eq; lra.
  - cbn. lia.
  - apply half_draws64.
  - apply Forall_cons; [exact I|]. apply Forall_cons; [apply half_draws64|apply Forall_nil].
  - apply real_half.
  - lra.
  - exists c, p, c', v. split; [exact E|]. split; [exact E'|]. split; [exact R|].
    unfold slack in B. rewrite (Rabs_pos_eq 1), (Rabs_pos_eq 500), Rmax_right in B by lra. lra.
Qed.

Example C09_speed_example : exists s s' v, NewSpeed (f64_ofZ 3) (f64_ofZ 8) 16 (fun _ => f64_norm 1 (-1)) = GOk s /\
  run_speed s [GNext (f64_norm 1 (-1)); GShuffle (fun _ => f64_norm 1 (-1)); GNext (f64_ofZ 0)] = Ret s' /\
  real (speed_Value s') v /\ 3 - / 10 ^ 9 <= v <= 8 + / 10 ^ 9.
Proof.
  pose proof (ofZ_real 3 ltac:(lia)) as R3. pose proof (ofZ_real 8 ltac:(lia)) as R8.
  assert (M : match NewSpeed (f64_ofZ 3) (f64_ofZ 8) 16 (fun _ => f64_norm 1 (-1)) with
              | GOk s => Beqb (sp_min s) (f64_ofZ 3) && Beqb (sp_max s) (f64_ofZ 8)
              | GErr _ => false
              end = true) by (vm_compute; reflexivity).
  destruct (NewSpeed (f64_ofZ 3) (f64_ofZ 8) 16 (fun _ => f64_norm 1 (-1))) as [s|e] eqn:E; [|discriminate].
  destruct (C09_speed_partial idMath 3 8 (f64_ofZ 3) (f64_ofZ 8) 16 (fun _ => f64_norm 1 (-1)) s
    [GNext (f64_norm 1 (-1)); GShuffle (fun _ => f64_norm 1 (-1)); GNext (f64_ofZ 0)] E R3 R8) as (s' & lo & hi & v & E' & L & H & R & _ & _ & B).
  - apply half_draws64.
  - apply Forall_cons; [exists (1 / 2); split; [exact real_half|lra]|]. apply Forall_cons; [apply half_draws64|]. apply Forall_cons; [|apply Forall_nil].
    exists 0. split; [|lra]. apply (ofZ_real 0). lia.
  - apply Exists_cons_hd. exact I.
  - destruct L as (F1 & <-), H as (F2 & <-), R3 as (G3 & E3), R8 as (G8 & E8). apply andb_prop in M. destruct M as (M1 & M2).
    rewrite Beqb_correct in M1, M2 by assumption.
    destruct (Req_bool_spec (B2R (sp_min s)) (B2R (f64_ofZ 3))) as [N1|]; [|discriminate].
    destruct (Req_bool_spec (B2R (sp_max s)) (B2R (f64_ofZ 8))) as [N2|]; [|discriminate].
    exists s, s', v. split; [reflexivity|]. split; [exact E'|]. split; [exact R|]. lra.
Qed.

Example C09_sensor_example : exists s s' v, NewSensor "temperature"%string (f64_ofZ 1) (f64_ofZ 8) 16 ModeDefault "u"%string (fun _ => f64_norm 1 (-1)) = GOk s /\
  run_sensor s [GNext (f64_norm 1 (-1)); GShuffle (fun _ => f64_norm 1 (-1)); GNext (f64_ofZ 0)] = Ret s' /\
  real (s_valY s') v /\ 1 - / 10 ^ 9 <= v <= 8 + / 10 ^ 9.
Proof.
  pose proof (bpow_le radix2 (-1000) (-40) ltac:(lia)) as Hb. change (bpow radix2 (-40)) with (/ 1099511627776) in Hb.
  assert (1024 <= bpow radix2 400) by (change 1024 with (bpow radix2 10); apply bpow_le; lia).
  pose proof (ofZ_real 1 ltac:(lia)) as R1. pose proof (ofZ_real 8 ltac:(lia)) as R8.
  eexists. destruct (C09_sensor_partial idMath 1 8 "temperature"%string (f64_ofZ 1) (f64_ofZ 8) 16 ModeDefault "u"%string (fun _ => f64_norm 1 (-1)) _
    [GNext (f64_norm 1 (-1)); GShuffle (fun _ => f64_norm 1 (-1)); GNext (f64_ofZ 0)] eq_refl R1 R8) as (s' & v & E' & R & B).
  - lra.
  - rewrite Rabs_pos_eq; lra.
  - rewrite Rabs_pos_eq; lra.
  - apply half_draws64.
  - apply Forall_cons; [exists (1 / 2); split; [exact real_half|lra]|]. apply Forall_cons; [apply half_draws64|]. apply Forall_cons; [|apply Forall_nil].
    exists 0. split; [|lra]. apply (ofZ_real 0). lia.
  - apply Exists_cons_hd. exact I.
  - exists s', v. split; [reflexivity|]. split; [exact E'|]. split; [exact R|].
    unfold slack in B. rewrite (Rabs_pos_eq 1), (Rabs_pos_eq 8), Rmax_right in B by lra. lra.
Qed.

(** C10. When NewSpeed fails. *)
Theorem C10_new_speed_fails :
  forall (min max : R) (amplitude : Z) (draws : nat -> R),
    (exists e, NewSpeed min max amplitude draws = GErr e) <->
    (min < 0 \/ max > 1000 \/ (amplitude < 4)%Z \/ (512 < amplitude)%Z \/ 0 < max < min).
Proof. exact C10_fails_proof. Qed.
Print Assumptions C10_new_speed_fails.

(** C10. The range of an accepted speed and of the values it reports. *)
Theorem C10_speed_range :
  forall (min max : R) (amplitude : Z) (draws : nat -> R) (s : speed R) (ops : list (gen_op R)),
    NewSpeed min max amplitude draws = GOk s -> unit_draws draws -> Forall unit_gen ops ->
    exists s', run_speed s ops = Ret s' /\
      sp_min s' = sp_min s /\ sp_max s' = sp_max s /\
      0 <= sp_min s <= sp_max s /\ sp_max s <= Rmax 1000 min /\
      (0 < max -> sp_min s = min /\ sp_max s = max) /\
      (max <= 0 -> 0 < min -> sp_min s = min /\ sp_max s = min) /\
      (max <= 0 -> min = 0 -> sp_min s = 1 /\ sp_max s = 1) /\
      (Exists is_next ops -> sp_min s <= speed_Value s' <= sp_max s) /\
      (sp_min s = sp_max s -> speed_Value s' = sp_min s) /\
      (sp_min s < sp_max s -> ~ Exists is_next ops -> speed_Value s' = 0).
Proof. exact C10_range_proof. Qed.
Print Assumptions C10_speed_range.

Example C10_example : exists s s', NewSpeed 3 8 16 (fun _ => 1 / 2) = GOk s /\
  run_speed s [GNext (1 / 3); GShuffle (fun _ => 1 / 2); GNext 1] = Ret s' /\ 3 <= speed_Value s' <= 8.
Proof.
  destruct (NewSpeed 3 8 16 (fun _ => 1 / 2)) as [s|e] eqn:E.
  - destruct (C10_speed_range 3 8 16 (fun _ => 1 / 2) s [GNext (1 / 3); GShuffle (fun _ => 1 / 2); GNext 1] E)
      as (s' & E' & _ & _ & _ & _ & H & _ & _ & K & _).
    + apply half_draws.
    + apply Forall_cons; [cbn; lra|]. apply Forall_cons; [apply half_draws|]. apply Forall_cons; [cbn; lra|apply Forall_nil].
    + exists s, s'. destruct (H ltac:(lra)) as [E1 E2]. rewrite E1, E2 in K.
      split; [reflexivity|]. split; [exact E'|]. apply K. apply Exists_cons_hd. exact I.
  - exfalso. destruct (C10_new_speed_fails 3 8 16 (fun _ => 1 / 2)) as [H _].
    destruct (H (ex_intro _ e E)) as [K|[K|[K|[K|K]]]]; lra || lia.
Qed.

(** C11. The battery discharges linearly, clamped at its minimum. *)
Theorem C11_battery_law :
  forall (min max : R) (chargeTime : Z) (b : battery R) (ops : list (battery_op R)),
    NewBattery min max chargeTime = GOk b -> chargeTime <> 0%Z ->
    let b' := run_battery b ops in
    let law e := 100 * (1 - e / seconds (charge_time chargeTime)) in
    battery_Value b' = Rmax (b_min b) (law (elapsed ops)) /\
    (battery_IsLow b' = true <-> law (elapsed ops) <= b_min b) /\
    (forall s, 0 <= s -> battery_Value (battery_Next b' s) <= battery_Value b') /\
    battery_Value (battery_Reset b') = 100 /\ b_min b = Rmin min max /\ 0 <= min /\ max <= 100.
Proof. exact C11_proof. Qed.
Print Assumptions C11_battery_law.

Example C11_example : exists b : battery R, NewBattery 10 90 3600000000000 = GOk b /\
  battery_Value (run_battery b [BNext 900; BReset; BNext 1800; BNext 900]) = 25 /\
  battery_IsLow (run_battery b [BNext 3240]) = true.
Proof.
  destruct (NewBattery_spec 10 90 3600000000000) as [[_ H]|[[_ H]|(_ & _ & E)]]; try lra.
  eexists. split; [exact E|]. destruct (C11_battery_law 10 90 3600000000000 _ [BNext 900; BReset; BNext 1800; BNext 900] E) as (-> & _);
    [discriminate|]. destruct (C11_battery_law 10 90 3600000000000 _ [BNext 3240] E) as (_ & -> & _); [discriminate|].
  cbn [b_min]. unfold elapsed, charge_time, seconds. cbn [fold_left Z.ltb Z.compare].
  rewrite Rmin_left by lra. split; [rewrite Rmax_right; lra|lra].
Qed.

(** C11 excludes a zero charge time: then even a fresh battery reports NaN, in binary64. *)
Theorem C11_zero_charge_time_refuted : forall m : MathLib,
  match @NewBattery f64 (F64Num m) (f64_ofZ 0) (f64_ofZ 100) 0 with
  | GOk b => @battery_Value f64 (F64Num m) b = f64_nan /\ @battery_IsLow f64 (F64Num m) b = false
  | GErr _ => False
  end.
Proof. intro m. vm_compute. auto. Qed.
Print Assumptions C11_zero_charge_time_refuted.

(** C12 is false: a battery with maximum 50 starts (and restarts) at 100. *)
Theorem C12_refuted : forall chargeTime : Z, exists b : battery R,
  NewBattery 0 50 chargeTime = GOk b /\ b_max b = 50 /\ battery_Value b = 100.
Proof. exact C12_refuted_proof. Qed.
Print Assumptions C12_refuted.

(** C12, what holds: the charge never exceeds 100. Missing: the configured maximum is ignored. *)
Theorem C12_at_most_100_partial :
  forall (min max : R) (chargeTime : Z) (b : battery R) (ops : list (battery_op R)),
    NewBattery min max chargeTime = GOk b -> chargeTime <> 0%Z ->
    Forall (fun o => match o with BNext s => 0 <= s | BReset => True end) ops ->
    battery_Value (run_battery b ops) <= 100.
Proof. exact C12_partial_proof. Qed.
Print Assumptions C12_at_most_100_partial.

(** C13. Offline durations are drawn from the configured interval, in any arithmetic and after any
    history of navigator calls. *)
Theorem C13_offline_interval :
  forall (T : Type) (N : Num T) (J : JsonLib T) opts uuid draws (n0 : navigator T) ops n draw,
    navigator_New opts uuid draws = GOk n0 -> run_navs n0 ops = Ret n -> uint32 draw ->
    let '(a, b) := eff_offline opts (1%Z, 10%Z) in
    let '(lo, hi) := offline_interval a b in
    exists n', ToOffline n draw = Ret n' /\
      (In SkipOfflineMode opts -> n' = n) /\
      (~ In SkipOfflineMode opts ->
         n' = set_off n (n_off n') /\ (lo <= n_off n' <= hi)%Z /\ ((lo < hi)%Z -> (n_off n' < hi)%Z)).
Proof. exact @C13_proof. Qed.
Print Assumptions C13_offline_interval.

Example C13_example : offline_interval 2 4 = (2, 4)%Z /\ offline_interval 60 30 = (29, 30)%Z /\
  offline_interval 0 0 = (0, 10)%Z /\ uint32 (2 ^ 32 - 1) /\
  match ToOffline ex_nav (2 ^ 32 - 1) with Ret n => n_off n = 3%Z | _ => False end.
Proof. vm_compute. intuition congruence. Qed.

(** C61 is false: NaN limits pass every range check, in binary64, for speeds, batteries, sensors
    and the elevation of a navigator. *)
Theorem C61_refuted : forall (m : MathLib) (draws : nat -> f64),
  match @NewSpeed f64 (F64Num m) f64_nan f64_nan 4 draws with
  | GOk s => sp_min s = f64_nan /\ sp_max s = f64_nan
  | GErr _ => False
  end /\
  match @NewBattery f64 (F64Num m) f64_nan f64_nan 1 with
  | GOk b => b_min b = f64_nan /\ b_max b = f64_nan
  | GErr _ => False
  end /\
  match @NewSensor f64 (F64Num m) "s" f64_nan f64_nan 4 ModeDefault "id" draws with
  | GOk s => s_min s = f64_nan /\ s_max s = f64_nan
  | GErr _ => False
  end /\
  match @navigator_New f64 (F64Num m) [WithElevation f64_nan f64_nan 4 ModeDefault] "id" draws with
  | GOk n => match n_elev n with Some s => s_min s = f64_nan /\ s_max s = f64_nan | None => False end
  | GErr _ => False
  end.
Proof. intros m draws. vm_compute. auto. Qed.
Print Assumptions C61_refuted.
