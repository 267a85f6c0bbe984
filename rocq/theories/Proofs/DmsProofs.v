From Coq Require Import Reals Lra Lia ZArith.
From Flocq Require Import Core BinarySingleNaN.
From Verif.Model Require Import Base Num NumR NumF64 Geo Curve PropMap Types Pb TypesSnap Track Route Navigator Device.
From Verif.Spec Require Import DmsSpec DeviceSpec.
From Verif.Proofs Require Import F64Lemmas DeviceProofs.
Open Scope R_scope.

Lemma trunc_pos x : 0 <= x -> IZR (Ztrunc x) <= x < IZR (Ztrunc x) + 1 /\ (0 <= Ztrunc x)%Z.
Proof.
  intros H. rewrite Ztrunc_floor by exact H. split; [split; [apply Zfloor_lb|apply Zfloor_ub]|]. now apply Zfloor_lub.
Qed.
Lemma trunc_below x k : 0 <= x < IZR k -> (0 <= Ztrunc x <= k - 1)%Z.
Proof.
  intros [H1 H2]. destruct (trunc_pos x H1) as [[A B] C]. split; [exact C|]. apply Z.lt_le_pred. apply lt_IZR. lra.
Qed.

Lemma dms_exact_proof (x : R) pos neg : dms_exact x pos neg (dms_of x pos neg).
Proof.
  unfold dms_exact, dms_of. cbn.
  pose proof (Rabs_pos x) as Hp. destruct (trunc_pos _ Hp) as [A _]. set (g := Ztrunc (Rabs x)) in *.
  assert (F : 0 <= (Rabs x - IZR g) * 60 < 60) by lra.
  destruct (trunc_pos _ (proj1 F)) as [Bm _]. pose proof (trunc_below _ 60 F) as Cm. set (m := Ztrunc ((Rabs x - IZR g) * 60)) in *.
  split; [exact A|]. split; [exact Cm|]. split; [lra|]. split; [lra|].
  split; intros H; [rewrite Rlt_bool_true by exact H|rewrite Rlt_bool_false by exact H]; reflexivity.
Qed.

#[local] Instance prec_pos : Prec_gt_0 53 := eq_refl.
#[local] Instance vexp : Valid_exp fexp64 := FLT_exp_valid (-1074) 53.

(** *** binary64 *)
Lemma frac_fmt x : fmt x -> 0 <= x -> fmt (x - IZR (Ztrunc x)).
Proof.
  intros Fx Hx. pose proof (FLT_format_generic radix2 (-1074) 53 x Fx) as [[m e] E Hm He]. cbn in Hm, He.
  destruct (trunc_pos x Hx) as [[A Bx] G]. set (g := Ztrunc x) in *.
  destruct (Z_le_gt_dec 0 e) as [He0|He0].
  - assert (x = IZR (m * 2 ^ e)) as ->.
    { rewrite E. unfold F2R. cbn. rewrite mult_IZR. f_equal. rewrite <- IZR_Zpower by exact He0. reflexivity. }
    unfold g. rewrite Ztrunc_IZR, Rminus_diag_eq by reflexivity. apply generic_format_0.
  - set (k := (2 ^ (- e))%Z). assert (Ek : IZR k * bpow radix2 e = 1).
    { unfold k. change (2 ^ (- e))%Z with (radix2 ^ (- e))%Z. rewrite IZR_Zpower by lia. rewrite <- bpow_plus. replace (- e + e)%Z with 0%Z by lia. reflexivity. }
    assert (Ey : x - IZR g = F2R (Float radix2 (m - g * k) e)).
    { unfold F2R. cbn. rewrite minus_IZR, mult_IZR. rewrite E. unfold F2R. cbn. rewrite Rmult_minus_distr_r, Rmult_assoc, Ek. lra. }
    apply generic_format_FLT. apply (FLT_spec _ _ _ _ (Float radix2 (m - g * k) e)); [exact Ey| |exact He]. cbn.
    assert (P : 0 < bpow radix2 e) by apply bpow_gt_0.
    assert (0 <= m - g * k)%Z.
    { apply le_IZR. apply Rmult_le_reg_r with (bpow radix2 e); [exact P|]. rewrite Rmult_0_l.
      change (IZR (m - g * k) * bpow radix2 e) with (F2R (Float radix2 (m - g * k) e)). rewrite <- Ey. lra. }
    assert (0 < k)%Z by (unfold k; lia). assert (0 <= g * k)%Z by nia. lia.
Qed.

Lemma val_lt_1_le x : fmt x -> x < 1 -> x <= 1 - bpow radix2 (-53).
Proof.
  intros Fx H. pose proof (pred_ge_gt radix2 fexp64 x 1 Fx) as P.
  assert (F1 : fmt 1) by (apply (fmt_bpow 0); lia). specialize (P F1 H).
  change 1 with (bpow radix2 0) in P at 1. rewrite pred_bpow in P. unfold fexp64, FLT_exp in P. cbn in P. exact P.
Qed.

Lemma rnd60 f : fmt f -> 0 <= f < 1 -> 0 <= rnd (f * 60) < 60 /\ Rabs (rnd (f * 60) - f * 60) <= bpow radix2 (-48).
Proof.
  intros Ff [H0 H2]. pose proof (val_lt_1_le _ Ff H2) as H1. split; [split|].
  - rewrite <- rnd_0. apply rnd_mono. lra.
  - (* 60 - 2^-47 is the float below 60 *)
    assert (Fu : fmt (60 - bpow radix2 (-47))).
    { apply generic_format_FLT. apply (FLT_spec _ _ _ _ (Float radix2 (60 * 2 ^ 47 - 1) (-47))); [|cbn; lia|cbn; lia].
      unfold F2R. cbn [Fnum Fexp]. rewrite minus_IZR, mult_IZR. change (IZR (2 ^ 47)) with (bpow radix2 47).
      rewrite Rmult_minus_distr_r, Rmult_assoc, <- bpow_plus. change (bpow radix2 (47 + -47)) with 1. lra. }
    apply Rle_lt_trans with (60 - bpow radix2 (-47)); [|assert (0 < bpow radix2 (-47)) by apply bpow_gt_0; lra].
    apply round_N_le_midp; [apply FLT_exp_valid; reflexivity|exact Fu|].
    assert (Su : succ radix2 fexp64 (60 - bpow radix2 (-47)) = 60).
    { assert (Hl : 32 <= 60 - bpow radix2 (-47) < 64).
      { assert (bpow radix2 (-47) < bpow radix2 0) by (apply bpow_lt; lia). assert (0 < bpow radix2 (-47)) by apply bpow_gt_0. change (bpow radix2 0) with 1 in *. lra. }
      rewrite succ_eq_pos by lra. rewrite ulp_neq_0 by lra. unfold cexp.
      assert (M : mag radix2 (60 - bpow radix2 (-47)) = 6%Z :> Z).
      { apply mag_unique_pos. change (bpow radix2 (6 - 1)) with 32. change (bpow radix2 6) with 64. exact Hl. }
      rewrite M. change (fexp64 6) with (-47)%Z. lra. }
    rewrite Su. replace (bpow radix2 (-47)) with (64 * bpow radix2 (-53)) by (change 64 with (bpow radix2 6); rewrite <- bpow_plus; reflexivity).
    assert (0 < bpow radix2 (-53)) by apply bpow_gt_0. lra.
  - apply (rnd_err _ 6); [lia|]. rewrite Rabs_pos_eq by lra. change (bpow radix2 6) with 64. lra.
Qed.

Lemma le_big x : Rabs x <= bpow radix2 60 -> Rabs x <= big.
Proof. intros H. eapply Rle_trans; [exact H|]. apply bpow_le. lia. Qed.

Lemma dms_close_proof (m : MathLib) (x : f64) pos neg (N := F64Num m) : is_finite x = true -> Rabs (B2R x) <= bpow radix2 30 ->
  dms_close x pos neg (dms_of x pos neg).
Proof.
  intros Fx Hx. unfold dms_close, dms_of. cbn [dms_degrees dms_minutes dms_seconds dms_direction].
  change (@fabs f64 N) with (@Babs 53 1024). change (@ftrunc f64 N) with (@Btrunc 53 1024). change (@fsub f64 N) with f64_sub.
  change (@fmul f64 N) with f64_mul. change (@fdiv f64 N) with f64_div. change (@fofZ f64 N) with f64_ofZ.
  set (a := Babs x). assert (Va : val a = Rabs (B2R x)) by apply B2R_Babs. assert (Fa : fin a) by (unfold fin, a; now rewrite is_finite_Babs).
  assert (Pa : 0 <= val a) by (rewrite Va; apply Rabs_pos). rewrite <- Va in Hx |- *.
  rewrite !trunc_ok. destruct (trunc_pos _ Pa) as [Gb G0]. set (g := Ztrunc (val a)) in *.
  change (bpow radix2 30) with (IZR (2 ^ 30)) in Hx.
  assert (G30 : (g <= 2 ^ 30)%Z) by (apply le_IZR; lra).
  destruct (ofZ_ok g) as [Vg Fg]; [lia|].
  destruct (sub_ok a (f64_ofZ g) Fa Fg) as [Vf Ff].
  { rewrite Vg. apply le_big. rewrite Rabs_pos_eq by lra. apply Rle_trans with (bpow radix2 0); [change (bpow radix2 0) with 1; lra|apply bpow_le; lia]. }
  pose proof (rnd_fmt _ (frac_fmt _ (fmt_val a) Pa)) as Xf. fold g in Xf. rewrite Vg, Xf in Vf. clear Xf. set (f := f64_sub a (f64_ofZ g)) in *.
  assert (F01 : 0 <= val f < 1) by (rewrite Vf; lra).
  destruct (ofZ_ok 60) as [V60 F60]; [lia|]. destruct (ofZ_ok 3600) as [V3600 F3600]; [lia|].
  destruct (mul_ok f (f64_ofZ 60) Ff F60) as [Vm Fm].
  { rewrite V60. apply le_big. rewrite Rabs_pos_eq by lra. apply Rle_trans with (bpow radix2 6); [change (bpow radix2 6) with 64; lra|apply bpow_le; lia]. }
  rewrite V60 in Vm. destruct (rnd60 (val f) (fmt_val f) F01) as [R60 E60]. rewrite <- Vm in R60, E60. set (y := f64_mul f (f64_ofZ 60)) in *.
  destruct (trunc_pos _ (proj1 R60)) as [Mb M0]. pose proof (trunc_below _ 60 R60) as Mr. set (mi := Ztrunc (val y)) in *.
  destruct (ofZ_ok mi) as [Vi Fi]; [lia|].
  assert (Mi : 0 <= IZR mi <= 59) by (split; [apply (IZR_le 0)|apply (IZR_le mi 59)]; lia).
  destruct (div_ok (f64_ofZ mi) (f64_ofZ 60) Fi) as [Vq Fq]; [rewrite V60; lra| |].
  { rewrite V60, Vi. apply le_big. rewrite Rabs_pos_eq by lra. apply Rle_trans with (bpow radix2 0); [change (bpow radix2 0) with 1; lra|apply bpow_le; lia]. }
  rewrite Vi, V60 in Vq. set (q := f64_div (f64_ofZ mi) (f64_ofZ 60)) in *.
  assert (Eq : Rabs (val q - IZR mi / 60) <= bpow radix2 (-54)).
  { rewrite Vq. apply (rnd_err _ 0); [lia|]. rewrite Rabs_pos_eq by lra. change (bpow radix2 0) with 1. lra. }
  assert (b54 : 0 < bpow radix2 (-54)) by apply bpow_gt_0.
  assert (b48 : bpow radix2 (-48) = 64 * bpow radix2 (-54)) by (change 64 with (bpow radix2 6); rewrite <- bpow_plus; reflexivity).
  assert (b40 : bpow radix2 (-40) = 16384 * bpow radix2 (-54)) by (change 16384 with (bpow radix2 14); rewrite <- bpow_plus; reflexivity).
  assert (b51 : bpow radix2 (-51) = 8 * bpow radix2 (-54)) by (change 8 with (bpow radix2 3); rewrite <- bpow_plus; reflexivity).
  assert (b0 : bpow radix2 (-54) <= / 1048576) by (change (/ 1048576) with (bpow radix2 (-20)); apply bpow_le; lia).
  rewrite b48 in E60. apply Rabs_le_inv in E60. apply Rabs_le_inv in Eq.
  set (u := bpow radix2 (-54)) in *.
  (* the fraction left: between -2u and 1/60 + 2u *)
  assert (D : - 4 * u <= val f - val q <= / 60 + 4 * u) by lra.
  destruct (sub_ok f q Ff Fq) as [Vd Fd].
  { apply le_big. apply Rle_trans with (bpow radix2 0); [change (bpow radix2 0) with 1; apply Rabs_le; lra|apply bpow_le; lia]. }
  set (d := f64_sub f q) in *.
  assert (Ed : Rabs (val d - (val f - val q)) <= u).
  { rewrite Vd. apply (rnd_err _ 0); [lia|]. change (bpow radix2 0) with 1. apply Rabs_lt. lra. }
  apply Rabs_le_inv in Ed.
  destruct (mul_ok d (f64_ofZ 3600) Fd F3600) as [Vs Fs].
  { rewrite V3600. apply le_big. apply Rle_trans with (bpow radix2 6); [change (bpow radix2 6) with 64; apply Rabs_le; lra|apply bpow_le; lia]. }
  rewrite V3600 in Vs. set (s := f64_mul d (f64_ofZ 3600)) in *.
  assert (Es : Rabs (val s - val d * 3600) <= 64 * u).
  { rewrite Vs, <- b48. apply (rnd_err _ 6); [lia|]. change (bpow radix2 6) with 64. apply Rabs_lt. lra. }
  apply Rabs_le_inv in Es. change (B2R s) with (val s). rewrite b40, b51.
  split; [exact Gb|]. split; [exact Mr|]. split; [exact Fs|]. split; [lra|]. split; [apply Rabs_le; lra|].
  assert (E0 : forall b, @flt f64 N f0 x = b -> @Bltb 53 1024 (f64_ofZ 0) x = b) by (intros b H; exact H).
  destruct (ofZ_ok 0) as [V0 F0]; [lia|].
  assert (Ed' : @flt f64 N f0 x = Rlt_bool 0 (B2R x)).
  { change (@flt f64 N f0 x) with (@Bltb 53 1024 (f64_ofZ 0) x). rewrite Bltb_correct by (exact F0 || exact Fx). change (B2R (f64_ofZ 0)) with (val (f64_ofZ 0)). now rewrite V0. }
  rewrite Ed'. split; intros H; [rewrite Rlt_bool_true by exact H|rewrite Rlt_bool_false by exact H]; reflexivity.
Qed.

Lemma published_from {T} {N : Num T} {U : UtmLib T} (ok : T -> string -> string -> pbDMS T -> Prop) (n : navigator T) st st' :
  (ok (lat (n_point n)) "N"%string "S"%string (dms_of (lat (n_point n)) "N" "S")) ->
  (ok (lon (n_point n)) "E"%string "W"%string (dms_of (lon (n_point n)) "E" "W")) ->
  nav_Update n st = Ret st' -> published_dms ok st'.
Proof.
  intros H1 H2 E. apply nav_Update_inv in E. destruct E as (_ & _ & _ & _ & _ & _ & _ & l & e & E1 & _ & E2 & _ & _ & E3 & E4 & _).
  injection E2 as El Eo. exists l, (dms_of (lat (n_point n)) "N" "S"), (dms_of (lon (n_point n)) "E" "W").
  rewrite El, Eo. auto.
Qed.
Lemma C56_real_proof {U : UtmLib R} (n : navigator R) st st' : nav_Update n st = Ret st' -> published_dms dms_exact st'.
Proof. apply published_from; apply dms_exact_proof. Qed.
Definition small (x : f64) : Prop := is_finite x = true /\ Rabs (B2R x) <= bpow radix2 30.
Lemma C56_f64_proof (m : MathLib) (N := F64Num m) {U : UtmLib f64} (n : navigator f64) st st' :
  small (lat (n_point n)) -> small (lon (n_point n)) ->
  nav_Update n st = Ret st' -> published_dms dms_close st'.
Proof. intros [A1 A2] [B1 B2]. apply published_from; now apply dms_close_proof. Qed.
