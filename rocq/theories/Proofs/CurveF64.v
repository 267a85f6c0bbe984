(** Rounding errors of a curve in binary64. *)
From Coq Require Import Reals Lra Lia ZArith List Binomial.
From Flocq Require Import Core BinarySingleNaN Relative.
From Verif.Model Require Import Base Num NumF64 Curve Types.
From Verif.Spec Require Import RealSpec TypesSpec CurveF64Spec.
From Verif.Proofs Require Import CurveLemmas F64Lemmas.
Import ListNotations.
Open Scope R_scope.

(** ** Errors *)
Definition u64 : R := / 9007199254740992.
Definition eta : R := bpow radix2 (-1074).
#[local] Instance prec_pos : Prec_gt_0 53 := eq_refl.
Definition g (k : nat) : R := (1 + u64) ^ k.

Lemma u64_pos : 0 < u64. Proof. unfold u64. lra. Qed.
Lemma u64_bpow : u64 = bpow radix2 (-53). Proof. unfold u64. reflexivity. Qed.
Lemma eta_pos : 0 < eta. Proof. apply bpow_gt_0. Qed.
Lemma g_1 k : 1 <= g k. Proof. apply pow_R1_Rle. pose proof u64_pos. lra. Qed.
Lemma g_add k l : g (k + l) = g k * g l. Proof. apply pow_add. Qed.
Lemma g_S k : g (S k) = (1 + u64) * g k. Proof. reflexivity. Qed.
Lemma g_mono k l : (k <= l)%nat -> g k <= g l.
Proof. intros H. apply Rle_pow; [pose proof u64_pos; lra|exact H]. Qed.
Lemma g_lin k : (k <= 4096)%nat -> g k <= 1 + 2 * INR k * u64.
Proof.
  induction k as [|k IH]; intros H; [unfold g; cbn; lra|]. specialize (IH ltac:(lia)). rewrite g_S, S_INR.
  assert (B : INR k <= 4096) by (rewrite <- (INR_IZR_INZ 4096) || (replace 4096 with (INR 4096) by (rewrite INR_IZR_INZ; reflexivity)); apply le_INR; lia).
  pose proof (pos_INR k). unfold u64 in *. nra.
Qed.
Lemma g_2 k : (k <= 4096)%nat -> g k <= 2.
Proof.
  intros H. pose proof (g_lin k H) as G.
  assert (B : INR k <= 4096) by (replace 4096 with (INR 4096) by (rewrite INR_IZR_INZ; reflexivity); apply le_INR; lia).
  pose proof (pos_INR k). unfold u64 in *. nra.
Qed.

Lemma rnd_u z : Rabs (rnd z - z) <= u64 * Rabs z + eta.
Proof.
  destruct (Req_dec z 0) as [->|Hz].
  { rewrite rnd_0, Rminus_0_r, Rabs_R0. pose proof eta_pos. lra. }
  eapply Rle_trans; [apply error_le_half_ulp; apply FLT_exp_valid; reflexivity|].
  pose proof (ulp_FLT_le radix2 (-1074) 53 z) as L.
  destruct (Rle_or_lt (bpow radix2 (-1074 + 53 - 1)) (Rabs z)) as [H|H].
  - specialize (L H). pose proof eta_pos. fold fexp64 in L.
    replace (bpow radix2 (1 - 53)) with (2 * u64) in L by (change (bpow radix2 (1 - 53)) with (/ 4503599627370496); unfold u64; lra). lra.
  - pose proof (ulp_FLT_small radix2 (-1074) 53 z) as S. fold fexp64 in S. rewrite S.
    + fold eta. pose proof eta_pos. pose proof u64_pos. pose proof (Rabs_pos z). nra.
    + eapply Rlt_le_trans; [exact H|]. apply bpow_le. lia.
Qed.
Lemma rnd_u_normal z : bpow radix2 (-1000) <= Rabs z -> Rabs (rnd z - z) <= u64 * Rabs z.
Proof.
  intros Hz.
  eapply Rle_trans; [apply error_le_half_ulp; apply FLT_exp_valid; reflexivity|].
  pose proof (ulp_FLT_le radix2 (-1074) 53 z) as L. fold fexp64 in L.
  assert (H : bpow radix2 (-1074 + 53 - 1) <= Rabs z) by (eapply Rle_trans; [apply bpow_le|exact Hz]; lia).
  specialize (L H). replace (bpow radix2 (1 - 53)) with (2 * u64) in L by (change (bpow radix2 (1 - 53)) with (/ 4503599627370496); unfold u64; lra). lra.
Qed.

(** [y] approximates [x], which is at most [A]: [k] roundings and an absolute error of [a] *)
Definition near (k : nat) (a A x y : R) : Prop := Rabs (y - x) <= (g k - 1) * A + a /\ Rabs x <= A /\ 0 <= a.

Lemma near_exact A x : Rabs x <= A -> near 0 0 A x x.
Proof. intros H. unfold near, g. cbn. rewrite Rminus_diag_eq, Rabs_R0 by reflexivity. lra. Qed.
Lemma near_weaken k l a b A x y : (k <= l)%nat -> a <= b -> near k a A x y -> near l b A x y.
Proof.
  intros H1 H2 (N1 & N2 & N3). pose proof (g_mono k l H1). pose proof (Rabs_pos x).
  split; [|split; lra]. eapply Rle_trans; [exact N1|]. nra.
Qed.
Lemma near_bound k a A x y : near k a A x y -> Rabs y <= g k * A + a.
Proof.
  intros (N1 & N2 & N3). replace y with ((y - x) + x) by lra. eapply Rle_trans; [apply Rabs_triang|]. lra.
Qed.
Lemma near_rnd k a A x y : near k a A x y -> near (S k) ((1 + u64) * a + eta) A x (rnd y).
Proof.
  intros N0. pose proof (near_bound _ _ _ _ _ N0) as B. destruct N0 as (N1 & N2 & N3).
  pose proof u64_pos. pose proof eta_pos. split; [|split; [lra|nra]].
  replace (rnd y - x) with ((rnd y - y) + (y - x)) by lra. eapply Rle_trans; [apply Rabs_triang|].
  pose proof (rnd_u y). rewrite g_S. nra.
Qed.
Lemma near_rnd_normal k x y : (k <= 4095)%nat -> bpow radix2 (-900) <= x -> near k 0 x x y -> near (S k) 0 x x (rnd y).
Proof.
  intros Hk Hx N0. pose proof (near_bound _ _ _ _ _ N0) as B. destruct N0 as (N1 & N2 & N3).
  pose proof u64_pos. pose proof (bpow_gt_0 radix2 (-900)). rewrite Rplus_0_r in *. split; [|split; [lra|lra]].
  assert (G : g k - 1 <= / 2).
  { pose proof (g_lin k ltac:(lia)). assert (INR k <= 4096) by (replace 4096 with (INR 4096) by (rewrite INR_IZR_INZ; reflexivity); apply le_INR; lia).
    pose proof (pos_INR k). unfold u64 in *. nra. }
  assert (Y : bpow radix2 (-1000) <= Rabs y).
  { assert (x - Rabs (y - x) <= Rabs y).
    { pose proof (Rabs_triang_inv x (x - y)) as T. replace (x - (x - y)) with y in T by lra.
      rewrite (Rabs_minus_sym y x). rewrite (Rabs_pos_eq x) in T by lra. exact T. }
    assert (bpow radix2 (-1000) <= bpow radix2 (-900) * / 2).
    { change (/ 2) with (bpow radix2 (-1)). rewrite <- bpow_plus. apply bpow_le. lia. }
    nra. }
  replace (rnd y - x) with ((rnd y - y) + (y - x)) by lra. eapply Rle_trans; [apply Rabs_triang|].
  pose proof (rnd_u_normal y Y). rewrite g_S. nra.
Qed.
Lemma near_mul k l a b A B x y x' y' : near k a A x y -> near l b B x' y' ->
  near (k + l) (a * (g l * B) + b * (g k * A + a)) (A * B) (x * x') (y * y').
Proof.
  intros N0 N0'. pose proof (near_bound _ _ _ _ _ N0) as P. destruct N0 as (N1 & N2 & N3). destruct N0' as (M1 & M2 & M3).
  pose proof (g_1 k). pose proof (g_1 l). pose proof (Rabs_pos x). pose proof (Rabs_pos x'). pose proof (Rabs_pos y).
  split; [|split].
  - replace (y * y' - x * x') with (y * (y' - x') + x' * (y - x)) by ring. eapply Rle_trans; [apply Rabs_triang|].
    rewrite !Rabs_mult, g_add.
    assert (E1 : Rabs y * Rabs (y' - x') <= (g k * A + a) * ((g l - 1) * B + b)) by (apply Rmult_le_compat; auto using Rabs_pos).
    assert (E2 : Rabs x' * Rabs (y - x) <= B * ((g k - 1) * A + a)) by (apply Rmult_le_compat; auto using Rabs_pos).
    eapply Rle_trans; [apply Rplus_le_compat; [exact E1|exact E2]|]. apply Req_le. ring.
  - rewrite Rabs_mult. apply Rmult_le_compat; auto using Rabs_pos.
  - apply Rplus_le_le_0_compat; repeat apply Rmult_le_pos; try lra.
Qed.
Lemma near_add k a b A B x y x' y' : near k a A x y -> near k b B x' y' -> near k (a + b) (A + B) (x + x') (y + y').
Proof.
  intros (N1 & N2 & N3) (M1 & M2 & M3). split; [|split; [|lra]].
  - replace (y + y' - (x + x')) with ((y - x) + (y' - x')) by lra. eapply Rle_trans; [apply Rabs_triang|]. lra.
  - eapply Rle_trans; [apply Rabs_triang|]. lra.
Qed.

(** ** Floats *)
Definition is (k : nat) (a A x : R) (f : f64) : Prop := fin f /\ near k a A x (val f).

Lemma is_exact A f : fin f -> Rabs (val f) <= A -> is 0 0 A (val f) f.
Proof. intros F H. split; [exact F|]. now apply near_exact. Qed.
Lemma is_weaken k l a b A x f : (k <= l)%nat -> a <= b -> is k a A x f -> is l b A x f.
Proof. intros H1 H2 (F & H). split; [exact F|]. eapply near_weaken; eauto. Qed.
Lemma is_mul k l a b A B x x' f f' : is k a A x f -> is l b B x' f' -> (g k * A + a) * (g l * B + b) <= big ->
  is (S (k + l)) ((1 + u64) * (a * (g l * B) + b * (g k * A + a)) + eta) (A * B) (x * x') (f64_mul f f').
Proof.
  intros (F & H) (F' & H') L. destruct (mul_ok f f' F F') as (E & E2).
  { rewrite Rabs_mult. eapply Rle_trans; [|exact L]. apply Rmult_le_compat; auto using Rabs_pos; eapply near_bound; eauto. }
  split; [exact E2|]. rewrite E. apply near_rnd. now apply near_mul.
Qed.
Lemma is_add k a b A B x x' f f' : is k a A x f -> is k b B x' f' -> (g k * A + a) + (g k * B + b) <= big ->
  is (S k) ((1 + u64) * (a + b) + eta) (A + B) (x + x') (f64_add f f').
Proof.
  intros (F & H) (F' & H') L. destruct (add_ok f f' F F') as (E & E2).
  { eapply Rle_trans; [apply Rabs_triang|]. pose proof (near_bound _ _ _ _ _ H). pose proof (near_bound _ _ _ _ _ H'). lra. }
  split; [exact E2|]. rewrite E. apply near_rnd. now apply near_add.
Qed.

Lemma big_1 : 1000000000 <= big.
Proof. unfold big. apply Rle_trans with (bpow radix2 30); [change (bpow radix2 30) with 1073741824; lra|apply bpow_le; lia]. Qed.
Lemma eta_small : eta <= / 1000000000000000000000000.
Proof.
  unfold eta. apply Rle_trans with (bpow radix2 (-80)); [apply bpow_le; lia|].
  change (bpow radix2 (-80)) with (/ 1208925819614629174706176). apply Rinv_le; lra.
Qed.
Lemma INR_le_of k z : (Z.of_nat k <= z)%Z -> INR k <= IZR z.
Proof. intros H. rewrite INR_IZR_INZ. now apply IZR_le. Qed.

(** ** Binomial coefficients *)
Lemma rsum_in {A} (f : A -> R) l x : (forall y, In y l -> 0 <= f y) -> In x l -> f x <= rsum (map f l).
Proof.
  induction l as [|z l IH]; intros P H; [destruct H|]. cbn [map]. rewrite rsum_cons.
  assert (0 <= rsum (map f l)).
  { clear - P. induction l as [|w l IH]; cbn [map]; [rewrite rsum_nil; lra|]. rewrite rsum_cons.
    apply Rplus_le_le_0_compat; [apply P; cbn; auto|]. apply IH. intros y [->|Hy]; apply P; cbn; auto. }
  destruct H as [->|H]; [lra|]. specialize (IH (fun y Hy => P y (or_intror Hy)) H). pose proof (P z (or_introl eq_refl)). lra.
Qed.
Lemma C_le m i : (i <= m)%nat -> C m i <= 2 ^ m.
Proof.
  intros H. replace (2 ^ m) with (rsum (map (fun i => C m i) (seq 0 (S m)))).
  - apply rsum_in; [intros; apply C_pos|]. apply in_seq. lia.
  - rewrite rsum_f_R0. replace 2 with (1 + 1) by lra. rewrite (binomial 1 1 m). apply sum_eq. intros j _. rewrite !pow1. ring.
Qed.
Lemma C_ge m i : (i <= m)%nat -> 1 <= C m i.
Proof.
  revert i; induction m as [|m IH]; intros i H.
  - replace i with 0%nat by lia. rewrite C_0. lra.
  - destruct i as [|i]; [rewrite C_0; lra|]. destruct (Nat.eq_dec i m) as [->|D]; [rewrite C_full; lra|].
    rewrite <- pascal by lia. pose proof (IH i ltac:(lia)). pose proof (C_pos m (S i)). lra.
Qed.

Lemma grown k A X a b : (k <= 4096)%nat -> 0 <= A <= X -> 0 <= a <= b -> 0 <= g k * A + a <= 2 * X + b.
Proof.
  intros Hk HA Ha. pose proof (g_1 k). pose proof (g_2 k Hk). split; [nra|]. assert (g k * A <= 2 * X) by (apply Rmult_le_compat; lra). lra.
Qed.
Lemma below_big a b A B : 0 <= a <= A -> 0 <= b <= B -> A * B <= big -> a * b <= big.
Proof. intros H1 H2 H. eapply Rle_trans; [|exact H]. apply Rmult_le_compat; lra. Qed.

(** one more rounding of an absolute error of [c] units *)
Lemma round_abs x c e : 0 < e -> x <= c * e -> 0 <= c <= 1000000000 -> eta <= e -> (1 + u64) * x + eta <= (c + 2) * e.
Proof.
  intros He Hx Hc Hn. pose proof u64_pos.
  assert (Q : u64 * c <= 1) by (unfold u64; lra).
  assert ((1 + u64) * x <= (1 + u64) * (c * e)) by (apply Rmult_le_compat_l; lra).
  assert (u64 * c * e <= 1 * e) by (apply Rmult_le_compat_r; lra). lra.
Qed.

(** ** The loops *)
Section Loops.
Variables (m : nat) (M : R) (y : nat -> R) (t : f64).
Hypotheses (Hm : (m <= 511)%nat) (HM : 0 <= M <= bpow radix2 401) (Hy : forall i, Rabs (y i) <= M)
  (Ft : fin t) (Ht : 0 <= val t <= 1).
Let W : R := bpow radix2 512.
Let B0 : R := M * W + 1.
Let T := val t.
Variable ml : MathLib.
#[local] Instance N64 : Num f64 := F64Num ml.

Lemma B0_1 : 1 <= B0.
Proof. unfold B0, W. pose proof (bpow_gt_0 radix2 512). nra. Qed.
Lemma B0_big : B0 * 1000000000000000 <= big.
Proof.
  unfold B0, W. assert (M * bpow radix2 512 <= bpow radix2 913).
  { change 913%Z with (401 + 512)%Z. rewrite bpow_plus. apply Rmult_le_compat_r; [apply bpow_ge_0|lra]. }
  assert (1 <= bpow radix2 913) by (change 1 with (bpow radix2 0); apply bpow_le; lia).
  apply Rle_trans with (bpow radix2 913 * 2 * bpow radix2 50).
  - apply Rmult_le_compat; try lra. 
    + pose proof (bpow_ge_0 radix2 512). nra.
    + change (bpow radix2 50) with 1125899906842624. lra.
  - change 2 with (bpow radix2 1). rewrite <- !bpow_plus. apply bpow_le. lia.
Qed.
Lemma B0_eta : eta * B0 <= / 1000000000000000000000000.
Proof.
  unfold B0, W, eta. assert (M * bpow radix2 512 <= bpow radix2 913).
  { change 913%Z with (401 + 512)%Z. rewrite bpow_plus. apply Rmult_le_compat_r; [apply bpow_ge_0|lra]. }
  assert (1 <= bpow radix2 913) by (change 1 with (bpow radix2 0); apply bpow_le; lia).
  apply Rle_trans with (bpow radix2 (-1074) * (bpow radix2 913 * bpow radix2 1)).
  - apply Rmult_le_compat_l; [apply bpow_ge_0|]. change (bpow radix2 1) with 2. lra.
  - rewrite <- !bpow_plus. apply Rle_trans with (bpow radix2 (-80)); [apply bpow_le; lia|].
    change (bpow radix2 (-80)) with (/ 1208925819614629174706176). apply Rinv_le; lra.
Qed.
Lemma C_W i : (i <= m)%nat -> 1 <= C m i <= W.
Proof.
  intros H. split; [now apply C_ge|]. eapply Rle_trans; [now apply C_le|]. unfold W.
  apply Rle_trans with (2 ^ 512); [apply Rle_pow; [lra|lia]|]. apply Req_le. rewrite bpow_powerRZ. reflexivity.
Qed.
Lemma pow_01 x i : 0 <= x <= 1 -> 0 <= x ^ i <= 1.
Proof. intros H. split; [apply pow_le; lra|]. rewrite <- (pow1 i). apply pow_incr. lra. Qed.

(** powers of t *)
Lemma power_t i f : (1 <= i <= 511)%nat -> is i (2 * INR i * eta) (T ^ i) (T ^ i) f ->
  is (S i) (2 * INR (S i) * eta) (T ^ S i) (T ^ S i) (f64_mul f t).
Proof.
  intros Hi H. pose proof (pow_01 T i Ht) as P. pose proof (is_exact T t Ft ltac:(rewrite Rabs_pos_eq; unfold T; lra)) as Et.
  pose proof (INR_le_of i 511 ltac:(lia)) as Ii. pose proof (pos_INR i). pose proof eta_pos. pose proof eta_small. pose proof u64_pos.
  pose proof (g_1 i). pose proof (g_2 i ltac:(lia)). pose proof big_1.
  assert (g 0 = 1) as G0 by (unfold g; cbn; lra).
  eapply is_weaken; [| |replace (T ^ S i) with (T ^ i * T) by (cbn; ring); eapply is_mul; [exact H|exact Et|]].
  - lia.
  - rewrite G0, Rmult_0_l, Rplus_0_r, S_INR. fold T in Ht |- *. 
    assert (2 * INR i * eta * (1 * T) <= 2 * INR i * eta) by (assert (0 <= 2 * INR i * eta) by nra; nra).
    replace (2 * (INR i + 1)) with (2 * INR i + 2) by lra. apply round_abs; lra.
  - eapply below_big; [apply grown with (X := 1) (b := 1)|apply grown with (X := 1) (b := 0)|]; try lia; try lra; try nra. exact Ht.
Qed.

(** powers of 1 - t *)
Let T1 := 1 - T.
Lemma T1_01 : 0 <= T1 <= 1. Proof. unfold T1, T. lra. Qed.
Lemma is_t1 : is 1 eta T1 T1 (f64_sub (f64_ofZ 1) t).
Proof.
  destruct (ofZ_ok 1 ltac:(lia)) as (E1 & F1). pose proof T1_01. pose proof big_1. pose proof eta_pos.
  destruct (sub_ok (f64_ofZ 1) t F1 Ft) as (E & F); rewrite E1 in *.
  { fold T. fold T1. rewrite Rabs_pos_eq; lra. }
  split; [exact F|]. rewrite E. fold T. fold T1. eapply near_weaken; [|apply Req_le|apply near_rnd, near_exact]; [lia|lra|].
  rewrite Rabs_pos_eq; lra.
Qed.
Lemma power_t1 j f : (1 <= j <= 511)%nat -> is (2 * j) (8 * INR j * eta) (T1 ^ j) (T1 ^ j) f ->
  is (2 * S j) (8 * INR (S j) * eta) (T1 ^ S j) (T1 ^ S j) (f64_mul f (f64_sub (f64_ofZ 1) t)).
Proof.
  intros Hi H. pose proof T1_01 as P1. pose proof (pow_01 T1 j P1) as P. pose proof is_t1 as E1.
  pose proof (INR_le_of j 511 ltac:(lia)) as Ii. pose proof (pos_INR j). pose proof eta_pos. pose proof eta_small. pose proof u64_pos.
  pose proof big_1. assert (Q : 0 <= 8 * INR j * eta <= 8 * 511 * eta) by (split; [nra|]; apply Rmult_le_compat_r; lra).
  eapply is_weaken; [| |replace (T1 ^ S j) with (T1 ^ j * T1) by (cbn; ring); eapply is_mul; [exact H|exact E1|]].
  - lia.
  - rewrite S_INR. replace (8 * (INR j + 1)) with ((8 * INR j + 6) + 2) by lra. apply round_abs; try lra.
    assert (G1 : g 1 * T1 <= 1 + u64) by (unfold g; rewrite pow_1; nra).
    assert (8 * INR j * eta * (g 1 * T1) <= 8 * INR j * eta * (1 + u64)) by (apply Rmult_le_compat_l; lra).
    assert (8 * INR j * u64 <= 1) by (unfold u64; lra).
    pose proof (grown (2 * j) (T1 ^ j) 1 (8 * INR j * eta) 1 ltac:(lia) P ltac:(lra)) as G2.
    assert (eta * (g (2 * j) * T1 ^ j + 8 * INR j * eta) <= eta * 3) by (apply Rmult_le_compat_l; lra).
    assert (8 * INR j * u64 * eta <= 1 * eta) by (apply Rmult_le_compat_r; lra). lra.
  - eapply below_big; [apply grown with (X := 1) (b := 1)|apply grown with (X := 1) (b := 1)|]; try lia; try lra.
Qed.

(** the weights *)
Lemma weight i w : (i < m)%nat -> is (2 * i) 0 (C m i) (C m i) w ->
  is (2 * S i) 0 (C m (S i)) (C m (S i)) (f64_mul w (f64_div (f64_ofZ (Z.of_nat (S m) - Z.of_nat (S i))) (f64_ofZ (Z.of_nat (S i))))).
Proof.
  intros Hi (Fw & Hw). destruct (ofZ_ok (Z.of_nat (S m) - Z.of_nat (S i)) ltac:(lia)) as (E1 & F1).
  destruct (ofZ_ok (Z.of_nat (S i)) ltac:(lia)) as (E2 & F2).
  set (q := INR (m - i) / INR (S i)).
  assert (Eq : IZR (Z.of_nat (S m) - Z.of_nat (S i)) / IZR (Z.of_nat (S i)) = q).
  { unfold q. rewrite !INR_IZR_INZ. do 2 f_equal. lia. }
  assert (L1 : 1 <= INR (S i) <= 512).
  { split; [change 1 with (INR 1); apply le_INR; lia|]. apply INR_le_of. lia. }
  assert (L2 : 1 <= INR (m - i) <= 512).
  { split; [change 1 with (INR 1); apply le_INR; lia|]. apply INR_le_of. lia. }
  assert (Lq : / 512 <= q <= 512).
  { unfold q. assert (/ 512 <= / INR (S i) <= 1).
    { split; [apply Rinv_le; lra|]. rewrite <- Rinv_1. apply Rinv_le; lra. }
    unfold Rdiv. split; nra. }
  pose proof big_1.
  destruct (div_ok _ (f64_ofZ (Z.of_nat (S i))) F1) as (Ed & Fd).
  { rewrite E2. rewrite <- INR_IZR_INZ. lra. }
  { rewrite E1, E2, Eq, Rabs_pos_eq; lra. }
  rewrite E1, E2, Eq in Ed.
  assert (Nd : near 1 0 q q (val (f64_div (f64_ofZ (Z.of_nat (S m) - Z.of_nat (S i))) (f64_ofZ (Z.of_nat (S i)))))).
  { rewrite Ed. apply near_rnd_normal; [lia| |apply near_exact; rewrite Rabs_pos_eq; lra].
    apply Rle_trans with (bpow radix2 (-10)); [apply bpow_le; lia|]. change (bpow radix2 (-10)) with (/ 1024). lra. }
  pose proof (near_mul _ _ _ _ _ _ _ _ _ _ Hw Nd) as Nm. assert (Cq : C m (S i) = C m i * q) by (apply C_step; exact Hi). rewrite <- Cq in Nm.
  pose proof (C_W (S i) ltac:(lia)) as CW. pose proof B0_big as BB.
  destruct (mul_ok _ _ Fw Fd) as (Em & Fm).
  { apply near_bound in Nm. eapply Rle_trans; [exact Nm|]. rewrite !Rmult_0_l, !Rplus_0_r.
    pose proof (g_2 (2 * i + 1) ltac:(lia)). pose proof (g_1 (2 * i + 1)).
    apply Rle_trans with (2 * W); [apply Rmult_le_compat; lra|]. unfold W, big. change 2 with (bpow radix2 1). rewrite <- bpow_plus. apply bpow_le. lia. }
  split; [exact Fm|]. rewrite Em. replace (2 * S i)%nat with (S (2 * i + 1)) by lia. apply near_rnd_normal; [lia| |].
  - apply Rle_trans with (bpow radix2 0); [apply bpow_le; lia|]. cbn. lra.
  - eapply near_weaken; [apply le_n| |exact Nm]. lra.
Qed.

Definition is_weight i w : Prop := is (2 * i) 0 (C m i) (C m i) w.
Lemma is_one : is 0 0 1 1 (f64_ofZ 1).
Proof.
  destruct (ofZ_ok 1 ltac:(lia)) as (E & F). pose proof (is_exact 1 (f64_ofZ 1) F) as H. rewrite E in H. apply H. rewrite Rabs_pos_eq; lra.
Qed.
Lemma next_weight_is i w : (i <= m)%nat -> (forall j, i = S j -> is_weight j w) -> is_weight i (next_weight (S m) i w).
Proof.
  intros Hi Hw. destruct i as [|[|i]].
  - unfold is_weight. rewrite C_0. exact is_one.
  - unfold is_weight. rewrite (C_step m 0) by lia. rewrite C_0, Nat.sub_0_r. change (INR 1) with 1.
    replace (1 * (INR m / 1)) with (INR m) by field.
    cbn [next_weight]. change fsub with f64_sub. change (@fofZ f64 _) with f64_ofZ. change (@f1 f64 _) with (f64_ofZ 1).
    destruct (ofZ_ok 1 ltac:(lia)) as (E1 & F1). destruct (ofZ_ok (Z.of_nat (S m)) ltac:(lia)) as (E2 & F2).
    destruct (sub_ok _ _ F2 F1) as (E & F); rewrite E1, E2 in *.
    { rewrite <- minus_IZR. replace (Z.of_nat (S m) - 1)%Z with (Z.of_nat m) by lia. rewrite <- INR_IZR_INZ, Rabs_pos_eq by apply pos_INR.
      pose proof big_1. pose proof (INR_le_of m 511 ltac:(lia)). lra. }
    rewrite <- minus_IZR in E. replace (Z.of_nat (S m) - 1)%Z with (Z.of_nat m) in E by lia. rewrite (rnd_fmt _ (fmt_IZR (Z.of_nat m) ltac:(lia))) in E.
    eapply is_weaken; [| |]; [| |split; [exact F|rewrite E, <- INR_IZR_INZ; apply near_exact; rewrite Rabs_pos_eq by apply pos_INR; apply Rle_refl]]; [lia|lra].
  - apply weight; [lia|]. now apply Hw.
Qed.

Definition vertex_ok (j : nat) (p : ctrl f64) : Prop := fin (Y (vp p)) /\ val (Y (vp p)) = y j.
Definition cp_ok (j : nat) (p : ctrl f64) : Prop := is (2 * j + 1) eta (M * C m j) (y j * C m j) (Y (cp p)).
Definition vp_ok (j : nat) (p : ctrl f64) : Prop :=
  is (3 * j + 2) (4096 * (eta * B0)) (M * C m j * T ^ j) (y j * C m j * T ^ j) (Y (vp p)).

Lemma MC i : (i <= m)%nat -> 0 <= M * C m i <= B0.
Proof. intros H. pose proof (C_W i H). unfold B0. split; [apply Rmult_le_pos; lra|]. assert (M * C m i <= M * W) by (apply Rmult_le_compat_l; lra). lra. Qed.

Lemma weigh_is k : forall i w l, (i + k <= S m)%nat -> (forall j, i = S j -> is_weight j w) -> Forall2 vertex_ok (seq i k) l ->
  Forall2 cp_ok (seq i k) (weigh (S m) i w l).
Proof.
  induction k as [|k IH]; intros i w l L Hw F; inversion F as [|j p js r (Fp & Ep) Fr]; subst; [constructor|].
  cbn [weigh]. pose proof (next_weight_is i w ltac:(lia) Hw) as Wi. constructor.
  - unfold cp_ok. cbn [cp Y]. change fmul with f64_mul.
    pose proof (is_exact M (Y (vp p)) Fp) as H. rewrite Ep in H. specialize (H (Hy i)).
    assert (G0 : g 0 = 1) by (unfold g; cbn; lra). pose proof eta_pos.
    eapply is_weaken; [| |eapply is_mul; [exact H|exact Wi|]].
    + lia.
    + rewrite !Rmult_0_l. lra.
    + rewrite !Rplus_0_r, G0, Rmult_1_l. pose proof (MC i ltac:(lia)). pose proof (g_2 (2 * i) ltac:(lia)). pose proof (g_1 (2 * i)).
      replace (M * (g (2 * i) * C m i)) with (g (2 * i) * (M * C m i)) by ring. pose proof B0_big. pose proof B0_1.
      apply Rle_trans with (2 * B0); [apply Rmult_le_compat; lra|lra].
  - apply IH; [lia| |exact Fr]. intros j E. injection E as <-. exact Wi.
Qed.

Lemma eval_is k : forall i u l, (1 <= i)%nat -> (i + k <= S m)%nat -> is i (2 * INR i * eta) (T ^ i) (T ^ i) u -> Forall2 cp_ok (seq i k) l ->
  Forall2 vp_ok (seq i k) (eval_vp t u l).
Proof.
  induction k as [|k IH]; intros i u l Hi L Hu F; inversion F as [|j p js r Hp Fr]; subst; [constructor|].
  cbn [eval_vp]. constructor.
  - unfold vp_ok. cbn [vp Y]. change fmul with f64_mul. unfold cp_ok in Hp.
    pose proof (MC i ltac:(lia)) as P. pose proof (pow_01 T i Ht) as Q. pose proof eta_pos. pose proof eta_small. pose proof B0_1. pose proof B0_big. pose proof B0_eta.
    pose proof (INR_le_of i 511 ltac:(lia)) as Ii. pose proof (pos_INR i).
    assert (Q2 : 0 <= 2 * INR i * eta <= 2 * 511 * eta) by (split; [nra|]; apply Rmult_le_compat_r; lra).
    assert (EB : eta * 1 <= eta * B0) by (apply Rmult_le_compat_l; lra).
    eapply is_weaken; [| |eapply is_mul; [exact Hp|exact Hu|]].
    + lia.
    + replace 4096 with (4094 + 2) by lra. apply round_abs; try lra.
      pose proof (grown (2 * i + 1) (M * C m i) B0 eta 1 ltac:(lia) P ltac:(lra)) as G1.
      pose proof (grown i (T ^ i) 1 0 0 ltac:(lia) Q ltac:(lra)) as G2. rewrite !Rplus_0_r in G2.
      assert (eta * (g i * T ^ i) <= eta * 2) by (apply Rmult_le_compat_l; lra).
      assert (2 * INR i * eta * (g (2 * i + 1) * (M * C m i) + eta) <= 2 * 511 * eta * (2 * B0 + 1)) by (apply Rmult_le_compat; lra).
      lra.
    + eapply below_big; [apply grown with (X := B0) (b := 1)|apply grown with (X := 1) (b := 1)|]; try lia; try lra.
  - apply IH; [lia|lia| |exact Fr]. apply power_t; [lia|exact Hu].
Qed.

Definition tail (f : nat -> R) (s : nat) : R := rsum (map f (seq s (S m - s))).
Lemma tail_S f s : (s <= m)%nat -> tail f s = f s + tail f (S s).
Proof. intros H. unfold tail. replace (S m - s)%nat with (S (S m - S s)) by lia. cbn [seq map]. apply rsum_cons. Qed.

Definition Bt : R := 65536 * (eta * B0).
Lemma bern_le_1 i : (i <= m)%nat -> 0 <= bern m T i <= 1.
Proof.
  intros H. split; [now apply bern_pos|]. rewrite <- (bern_sum m T). apply rsum_in; [intros; now apply bern_pos|]. apply in_seq. lia.
Qed.
Lemma tail_le f s : (s <= S m)%nat -> (forall i, (i <= m)%nat -> 0 <= f i) -> 0 <= tail f s <= rsum (map f (seq 0 (S m))).
Proof.
  intros Hs P. revert Hs. induction s as [|s IH]; intros Hs.
  - unfold tail. rewrite Nat.sub_0_r. split; [|lra].
    assert (forall l, (forall i, In i l -> 0 <= f i) -> 0 <= rsum (map f l)) as Q.
    { induction l as [|x l IHl]; intros Hl; cbn [map]; [rewrite rsum_nil; lra|]. rewrite rsum_cons. apply Rplus_le_le_0_compat; [apply Hl; cbn; auto|apply IHl; intros; apply Hl; cbn; auto]. }
    apply Q. intros i Hi. apply in_seq in Hi. apply P. lia.
  - specialize (IH ltac:(lia)). rewrite tail_S in IH by lia. pose proof (P s ltac:(lia)). split; [|lra].
    unfold tail. assert (forall l, (forall i, In i l -> 0 <= f i) -> 0 <= rsum (map f l)) as Q.
    { induction l as [|x l IHl]; intros Hl; cbn [map]; [rewrite rsum_nil; lra|]. rewrite rsum_cons. apply Rplus_le_le_0_compat; [apply Hl; cbn; auto|apply IHl; intros; apply Hl; cbn; auto]. }
    apply Q. intros i Hi. apply in_seq in Hi. apply P. lia.
Qed.

Lemma sum_is s : forall rl tt p, (s <= m)%nat -> Forall2 vp_ok (rev (seq 0 s)) rl ->
  is (2 * S (m - s)) (8 * INR (S (m - s)) * eta) (T1 ^ S (m - s)) (T1 ^ S (m - s)) tt ->
  is (3 * m + 3 + (m - s)) (4 * INR (S (m - s)) * Bt) (M * tail (bern m T) s) (tail (fun i => y i * bern m T i) s) (Y p) ->
  is (3 * m + 3 + m) (4 * INR (S m) * Bt) M (rsum (map (fun i => y i * bern m T i) (seq 0 (S m)))) (Y (sum_back (f64_sub (f64_ofZ 1) t) tt p rl)).
Proof.
  induction s as [|s IH]; intros rl tt p Hs F Ht1 Hp.
  - inversion F; subst. cbn [sum_back]. replace (m - 0)%nat with m in * by lia.
    unfold tail in Hp. rewrite Nat.sub_0_r, bern_sum, Rmult_1_r in Hp. exact Hp.
  - rewrite seq_S, Nat.add_0_l, rev_app_distr in F. cbn [rev app] in F. inversion F as [|j q js r Hq Fr]; subst.
    cbn [sum_back]. change fmul with f64_mul in *. change fadd with f64_add in *.
    replace (S (m - S s)) with (m - s)%nat in * by lia.
    pose proof eta_pos. pose proof eta_small. pose proof B0_1. pose proof B0_big. pose proof B0_eta. pose proof T1_01 as P1.
    pose proof (pow_01 T1 (m - s) P1) as P. pose proof (pow_01 T s Ht) as Q. pose proof (MC s ltac:(lia)) as R0.
    assert (EB : eta * 1 <= eta * B0) by (apply Rmult_le_compat_l; lra).
    pose proof (INR_le_of (m - s) 511 ltac:(lia)) as Ij. pose proof (pos_INR (m - s)).
    assert (Q2 : 0 <= 8 * INR (m - s) * eta <= 8 * 511 * eta) by (split; [nra|]; apply Rmult_le_compat_r; lra).
    assert (A1 : 0 <= M * C m s * T ^ s <= B0) by (split; [apply Rmult_le_pos; lra|]; rewrite <- (Rmult_1_r B0); apply Rmult_le_compat; lra).
    assert (HT : is (3 * m + 3) Bt (M * bern m T s) (y s * bern m T s) (f64_mul (Y (vp q)) tt)).
    { eapply is_weaken; [| |replace (M * bern m T s) with (M * C m s * T ^ s * T1 ^ (m - s)) by (unfold bern, T1; ring);
        replace (y s * bern m T s) with (y s * C m s * T ^ s * T1 ^ (m - s)) by (unfold bern, T1; ring); eapply is_mul; [exact Hq|exact Ht1|]].
      - lia.
      - unfold Bt. replace 65536 with (65534 + 2) by lra. apply round_abs; try lra.
        pose proof (grown (3 * s + 2) _ B0 (4096 * (eta * B0)) 1 ltac:(lia) A1 ltac:(lra)) as G1.
        pose proof (grown (2 * (m - s)) _ 1 0 0 ltac:(lia) P ltac:(lra)) as G2. rewrite !Rplus_0_r in G2.
        assert (4096 * (eta * B0) * (g (2 * (m - s)) * T1 ^ (m - s)) <= 4096 * (eta * B0) * 2) by (apply Rmult_le_compat_l; lra).
        assert (8 * INR (m - s) * eta * (g (3 * s + 2) * (M * C m s * T ^ s) + 4096 * (eta * B0)) <= 8 * 511 * eta * (2 * B0 + 1)) by (apply Rmult_le_compat; lra).
        lra.
      - eapply below_big; [apply grown with (X := B0) (b := 1)|apply grown with (X := 1) (b := 1)|]; try lia; try lra. }
    apply IH; [lia|exact Fr| |].
    + destruct (Nat.eq_dec (m - s) 0) as [E|E]; [lia|]. apply power_t1; [lia|exact Ht1].
    + cbn [Y]. rewrite (tail_S (bern m T)), (tail_S (fun i => y i * bern m T i)) by lia. rewrite Rmult_plus_distr_l.
      rewrite (Rplus_comm (M * bern m T s)), (Rplus_comm (y s * bern m T s)).
      assert (Bp : 0 < Bt) by (unfold Bt; apply Rmult_lt_0_compat; [lra|apply Rmult_lt_0_compat; lra]).
      eapply is_weaken; [| |eapply is_add; [exact Hp|eapply is_weaken; [| |exact HT]; [lia|apply Rle_refl]|]].
      * lia.
      * rewrite S_INR. replace (4 * (INR (m - s) + 1)) with ((4 * INR (m - s) + 2) + 2) by lra. apply round_abs; try lra. unfold Bt. lra.
      * pose proof (bern_le_1 s ltac:(lia)). pose proof (tail_le (bern m T) (S s) ltac:(lia) (fun i Hi => proj1 (bern_le_1 i Hi))) as TL. rewrite bern_sum in TL.
        assert (BM : 0 <= M <= B0) by (pose proof (C_W 0 ltac:(lia)) as C0; rewrite C_0 in C0; unfold B0; split; [lra|]; assert (M * 1 <= M * W) by (apply Rmult_le_compat_l; lra); lra).
        assert (Bs : Bt <= 1) by (unfold Bt; lra).
        assert (0 <= M * tail (bern m T) (S s) <= B0) by (split; [apply Rmult_le_pos; lra|]; rewrite <- (Rmult_1_r B0); apply Rmult_le_compat; lra).
        assert (0 <= M * bern m T s <= B0) by (split; [apply Rmult_le_pos; lra|]; rewrite <- (Rmult_1_r B0); apply Rmult_le_compat; lra).
        assert (0 <= 4 * INR (m - s) * Bt <= 2044) by (split; [nra|]; rewrite <- (Rmult_1_r 2044); apply Rmult_le_compat; lra).
        pose proof (grown (3 * m + 3 + (m - S s)) (M * tail (bern m T) (S s)) B0 (4 * INR (m - s) * Bt) 2044 ltac:(lia) ltac:(eassumption) ltac:(lra)).
        pose proof (grown (3 * m + 3 + (m - S s)) (M * bern m T s) B0 Bt 1 ltac:(lia) ltac:(eassumption) ltac:(lra)). lra.
Qed.
End Loops.

(** ** The control points of a curve after any calls, in any arithmetic *)
Section Any.
Context {T : Type} {N : Num T}.
Definition generated_by (min max : T) (mode : Z) (n : nat) (draws : nat -> T) (c : curve T) : Prop :=
  (0 < n)%nat /\ cv_mode c = mode /\ cv_min c = min /\ cv_max c = max /\
  map (@cp T) (cv_points c) = map (@cp T) (weigh n 0 f0 (vertices min max mode n draws)).

Lemma weigh_length n i w l : List.length (weigh n i w l) = List.length l.
Proof. revert i w; induction l as [|p l IH]; intros; cbn; auto. Qed.
Lemma generated_by_length min max mode n draws c : generated_by min max mode n draws c -> List.length (cv_points c) = n.
Proof.
  intros (_ & _ & _ & _ & H). apply (f_equal (@List.length _)) in H.
  rewrite !map_length, weigh_length in H. unfold vertices in H. now rewrite map_length, seq_length in H.
Qed.
Lemma run_generated_by min max mode n draws c ops : generated_by min max mode n draws c ->
  exists c', run_curve c ops = Ret c' /\ generated_by min max mode n (latest draws ops) c'.
Proof.
  revert c draws; induction ops as [|[d|t] ops IH]; intros c draws G; cbn [run_curve run_curve1 latest].
  - now exists c.
  - cbn [bind]. apply IH. pose proof (generated_by_length _ _ _ _ _ _ G) as L. destruct G as (Hn & Em & E1 & E2 & _).
    unfold curve_Shuffle. rewrite L, Em, E1, E2. split; [assumption|]. cbn [cv_mode cv_min cv_max cv_points]. repeat split.
  - pose proof (generated_by_length _ _ _ _ _ _ G) as L. destruct G as (Hn & Em & E1 & E2 & E). unfold curve_Point.
    destruct (cv_points c) as [|p0 rest] eqn:Ep; [cbn in L; lia|].
    destruct (rev (mkCtrl (cp p0) (cp p0) :: eval_vp t t rest)) as [|last back] eqn:Er.
    { apply (f_equal (@List.length _)) in Er. rewrite rev_length in Er. discriminate. }
    cbn [bind]. apply IH. split; [assumption|]. cbn [cv_mode cv_min cv_max cv_points]. repeat split; auto.
    cbn [map]. rewrite eval_cp. exact E.
Qed.
Lemma New_generated_by min max k mode draws :
  generated_by min max mode (Z.to_nat (points_for k)) draws (curve_New min max k mode draws).
Proof.
  unfold curve_New, points_for, defaultControlPoint.
  replace (if (0 <? k)%Z then k else 4%Z) with (if (k <=? 0)%Z then 4%Z else k)
    by (rewrite Z.leb_antisym; destruct (0 <? k)%Z; reflexivity).
  split; [|cbn [cv_mode cv_min cv_max cv_points]; repeat split].
  destruct (Z.leb_spec k 0); lia.
Qed.
End Any.

Lemma Forall2_rev {A B} (P : A -> B -> Prop) l l' : Forall2 P l l' -> Forall2 P (rev l) (rev l').
Proof. induction 1; cbn; [constructor|]. apply Forall2_app; [assumption|]. constructor; [assumption|constructor]. Qed.
Lemma Forall2_cons_iff {A B} (P : A -> B -> Prop) a b l l' : Forall2 P (a :: l) (b :: l') <-> P a b /\ Forall2 P l l'.
Proof. split; [intros H; inversion H; auto|intros (H1 & H2); constructor; auto]. Qed.
Lemma Forall2_through {A B D} (P : A -> D -> Prop) (h : B -> D) l l' :
  Forall2 (fun a b => P a (h b)) l l' <-> Forall2 P l (map h l').
Proof.
  split; revert l'; induction l as [|a l IH]; intros l' H; destruct l'; inversion H; subst; cbn; constructor; auto.
Qed.

(** ** The value of a curve *)
Lemma Point_is m M y t ml (c : curve f64) : (m <= 511)%nat -> 0 <= M <= bpow radix2 401 -> (forall i, Rabs (y i) <= M) ->
  fin t -> 0 <= val t <= 1 -> Forall2 (cp_ok m M y) (seq 0 (S m)) (cv_points c) ->
  exists p c', @curve_Point f64 (F64Num ml) c t = Ret (p, c') /\
    is (3 * m + 3 + m) (4 * INR (S m) * Bt M) M (rsum (map (fun i => y i * bern m (val t) i) (seq 0 (S m)))) (Y p).
Proof.
  intros Hm HM Hy Ft Ht F. unfold curve_Point. cbn [seq] in F. inversion F as [|z p0 zs rest H0 Fr Ez Ep]; subst. clear F.
  pose proof eta_pos. pose proof eta_small. pose proof (B0_1 M HM). pose proof (B0_eta m M Hm HM).
  assert (EB : eta * 1 <= eta * (M * bpow radix2 512 + 1)) by (apply Rmult_le_compat_l; lra).
  assert (V : Forall2 (vp_ok m M y t) (seq 0 (S m)) (mkCtrl (cp p0) (cp p0) :: @eval_vp f64 (F64Num ml) t t rest)).
  { cbn [seq]. constructor.
    - unfold vp_ok, cp_ok in *. cbn [vp Y]. rewrite pow_O, !Rmult_1_r. eapply is_weaken; [| |exact H0]; [lia|lra].
    - eapply eval_is; eauto; try lia. eapply is_weaken; [| |rewrite pow_1; apply is_exact; [exact Ft|]]; [lia|change (INR 1) with 1; lra|].
      rewrite Rabs_pos_eq; lra. }
  apply Forall2_rev in V. rewrite seq_S, Nat.add_0_l, rev_app_distr in V. change (rev [m] ++ rev (seq 0 m)) with (m :: rev (seq 0 m)) in V.
  destruct (rev (mkCtrl (cp p0) (cp p0) :: @eval_vp f64 (F64Num ml) t t rest)) as [|last back] eqn:Er; [inversion V|].
  apply Forall2_cons_iff in V. destruct V as (Hl & Fb).
  do 2 eexists. split; [reflexivity|]. apply (sum_is m M y t Hm HM Ft Ht ml m back _ (vp last) (le_n m) Fb).
  - rewrite Nat.sub_diag. eapply is_weaken; [| |rewrite pow_1; eapply is_t1; eauto]; [lia|change (INR 1) with 1; lra].
  - rewrite Nat.sub_diag. unfold tail. replace (S m - m)%nat with 1%nat by lia. cbn [seq map].
    change (rsum [?a]) with (a + 0). rewrite !Rplus_0_r. unfold vp_ok in Hl.
    unfold bern. rewrite Nat.sub_diag, pow_O, <- !Rmult_assoc, !Rmult_1_r. eapply is_weaken; [| |exact Hl]; [lia|].
    unfold Bt. change (INR 1) with 1. lra.
Qed.

(** ** The vertices *)
Definition drift (A : R) : R := A / 2 ^ 48 + bpow radix2 (-1010).
Lemma control_y_is ml min max mode n i r lo hi x A : real min lo -> real max hi -> lo <= hi -> Rabs lo <= A -> Rabs hi <= A -> A <= bpow radix2 400 ->
  real r x -> 0 <= x < 1 -> let y := @control_y f64 (F64Num ml) min max mode n i r in
  fin y /\ lo - drift A <= val y <= hi + drift A.
Proof.
  intros (F1 & E1) (F2 & E2) L A1 A2 HA (Fr & Er) Hx. cbv zeta.
  assert (D0 : 0 <= drift A).
  { unfold drift. pose proof (bpow_gt_0 radix2 (-1010)). pose proof (Rabs_pos lo). lra. }
  assert (P : fin min /\ lo - drift A <= val min <= hi + drift A) by (split; [exact F1|]; unfold val; rewrite E1; lra).
  unfold control_y. destruct (_ && _); [exact P|]. destruct (_ && _); [exact P|]. clear P.
  unfold randomFloat. change fmul with f64_mul. change fadd with f64_add. change fsub with f64_sub.
  assert (Bg : 1000 * A + 1000 <= big).
  { pose proof (Rabs_pos lo). apply Rle_trans with (bpow radix2 10 * bpow radix2 401).
    - assert (1 <= bpow radix2 400) by (change 1 with (bpow radix2 0); apply bpow_le; lia).
      change 401%Z with (1 + 400)%Z. rewrite bpow_plus. change (bpow radix2 10) with 1024. change (bpow radix2 1) with 2. lra.
    - rewrite <- bpow_plus. apply bpow_le. lia. }
  pose proof (Rabs_pos lo). pose proof eta_pos. pose proof eta_small. pose proof big_1.
  apply Rabs_le_inv in A1. apply Rabs_le_inv in A2.
  set (D := hi - lo). assert (HD : 0 <= D <= 2 * A) by (unfold D; lra).
  destruct (sub_ok max min F2 F1) as (Ed & Fd).
  { unfold val. rewrite E1, E2. fold D. rewrite Rabs_pos_eq; lra. }
  assert (Id : is 1 eta D D (f64_sub max min)).
  { split; [exact Fd|]. rewrite Ed. unfold val. rewrite E1, E2. fold D. eapply near_weaken; [| |apply near_rnd, near_exact]; [lia|lra|].
    rewrite Rabs_pos_eq; lra. }
  assert (Ir : is 0 0 1 x r).
  { replace x with (val r) by (unfold val; exact Er). apply is_exact; [exact Fr|]. unfold val. rewrite Er, Rabs_pos_eq; lra. }
  assert (G0 : g 0 = 1) by (unfold g; cbn; lra).
  assert (Ip : is 2 (3 * eta) D (x * D) (f64_mul r (f64_sub max min))).
  { cut (is 2 (3 * eta) (1 * D) (x * D) (f64_mul r (f64_sub max min))); [now rewrite Rmult_1_l|].
    eapply is_weaken; [| |eapply is_mul; [exact Ir|exact Id|]].
    - lia.
    - rewrite G0, Rmult_0_l, Rplus_0_l. replace 3 with (1 + 2) by lra. apply round_abs; lra.
    - eapply below_big; [apply grown with (X := 1) (b := 0)|apply grown with (X := 2 * A) (b := 1)|]; try lia; try lra. }
  assert (Im : is 2 0 A lo min).
  { eapply is_weaken; [| |replace lo with (val min) by (unfold val; exact E1); apply is_exact; [exact F1|]]; [lia|lra|].
    unfold val. rewrite E1. apply Rabs_le. lra. }
  assert (Iy : is 3 (5 * eta) (A + D) (lo + x * D) (f64_add min (f64_mul r (f64_sub max min)))).
  { eapply is_weaken; [| |eapply is_add; [exact Im|exact Ip|]].
    - lia.
    - replace 5 with (3 + 2) by lra. apply round_abs; lra.
    - pose proof (grown 2 A A 0 0 ltac:(lia) ltac:(lra) ltac:(lra)). pose proof (grown 2 D (2 * A) (3 * eta) 1 ltac:(lia) ltac:(lra) ltac:(lra)). lra. }
  destruct Iy as (Fy & Ny & _ & _). split; [exact Fy|].
  assert (G3 : g 3 - 1 <= 6 * u64) by (pose proof (g_lin 3 ltac:(lia)) as G; cbn [INR] in G; lra).
  assert (Q : (g 3 - 1) * (A + D) + 5 * eta <= drift A).
  { unfold drift. assert ((g 3 - 1) * (A + D) <= 6 * u64 * (3 * A)) by (pose proof (g_1 3); apply Rmult_le_compat; lra).
    assert (5 * eta <= bpow radix2 (-1010)).
    { apply Rle_trans with (bpow radix2 3 * eta); [change (bpow radix2 3) with 8; lra|]. unfold eta. rewrite <- bpow_plus. apply bpow_le. lia. }
    assert (6 * u64 * (3 * A) <= A / 2 ^ 48) by (unfold u64; lra). lra. }
  assert (0 <= x * D <= D) by nra. apply Rabs_le_inv in Ny. unfold D in *. lra.
Qed.

Lemma Point_generated_by {T} {N : Num T} min max mode n draws (c : curve T) t p c' : generated_by min max mode n draws c ->
  curve_Point c t = Ret (p, c') -> generated_by min max mode n draws c'.
Proof.
  intros G E. destruct (run_generated_by _ _ _ _ _ _ [CPoint t] G) as (c2 & E2 & G2). cbn [run_curve run_curve1] in E2. rewrite E in E2.
  cbn in E2. injection E2 as <-. exact G2.
Qed.

Lemma generated_value ml (lo hi : R) (min max : f64) mode n d (c : curve f64) t x :
  let N := F64Num ml in
  real min lo -> real max hi -> lo <= hi -> Rabs lo <= bpow radix2 400 -> Rabs hi <= bpow radix2 400 -> (n <= 512)%nat ->
  unit_draws64 d -> generated_by min max mode n d c -> real t x -> 0 <= x <= 1 ->
  exists p c' v, curve_Point c t = Ret (p, c') /\ real (Y p) v /\ lo - slack lo hi <= v <= hi + slack lo hi.
Proof.
  intros N R1 R2 L A1 A2 Hk Hl (Hn & _ & _ & _ & Ep) (Ft & Et) Hx.
  set (A := Rmax (Rabs lo) (Rabs hi)).
  assert (HA : A <= bpow radix2 400) by (apply Rmax_lub; assumption).
  assert (A0 : 0 <= A) by (eapply Rle_trans; [apply Rabs_pos|apply Rmax_l]).
  set (y := fun i => val (control_y min max mode n i (d i))).
  assert (Y0 : forall i, fin (control_y min max mode n i (d i)) /\ lo - drift A <= y i <= hi + drift A).
  { intros i. destruct (Hl i) as (r & Rr & Hr). unfold y. eapply control_y_is; eauto; [apply Rmax_l|apply Rmax_r]. }
  set (M := A + drift A).
  pose proof (bpow_gt_0 radix2 (-1010)) as Z0.
  assert (Z1 : bpow radix2 (-1010) <= / 1000000000000000000000000).
  { apply Rle_trans with (bpow radix2 (-80)); [apply bpow_le; lia|]. change (bpow radix2 (-80)) with (/ 1208925819614629174706176). apply Rinv_le; lra. }
  assert (D0 : 0 <= drift A) by (unfold drift; lra).
  assert (HM : 0 <= M <= bpow radix2 401).
  { unfold M. split; [lra|]. assert (1 <= bpow radix2 400) by (change 1 with (bpow radix2 0); apply bpow_le; lia).
    change 401%Z with (1 + 400)%Z. rewrite bpow_plus. change (bpow radix2 1) with 2. unfold drift. lra. }
  assert (B1 : - A <= lo <= A /\ - A <= hi <= A).
  { split; apply Rabs_le_inv; [apply Rmax_l|apply Rmax_r]. }
  assert (Hy : forall i, Rabs (y i) <= M) by (intros i; apply Rabs_le; unfold M; destruct (Y0 i); lra).
  destruct n as [|m]; [lia|].
  assert (Hm : (m <= 511)%nat) by lia.
  assert (F : Forall2 (cp_ok m M y) (seq 0 (S m)) (cv_points c)).
  { apply (Forall2_through (fun j q => is (2 * j + 1) eta (M * C m j) (y j * C m j) (Y q)) (@cp f64)). rewrite Ep.
    apply Forall2_through. apply (weigh_is m M y Hm HM Hy ml (S m) 0); [lia|intros ? ?; discriminate|]. unfold vertices.
    generalize (seq 0 (S m)). intros l. induction l as [|i l IH]; [constructor|]. cbn [map]. constructor; [|exact IH].
    unfold vertex_ok. cbn [vp Y]. split; [apply Y0|reflexivity]. }
  destruct (Point_is m M y t ml c Hm HM Hy Ft) as (p & c' & Epc & Fp & Np & _); [unfold val; rewrite Et; exact Hx|exact F|].
  exists p, c', (val (Y p)). split; [exact Epc|]. split; [split; [exact Fp|reflexivity]|].
  assert (Mix : lo - drift A <= rsum (map (fun i => y i * bern m (val t) i) (seq 0 (S m))) <= hi + drift A).
  { apply bern_mix; [unfold val; rewrite Et; exact Hx|]. intros i. apply Y0. }
  assert (G : g (3 * m + 3 + m) - 1 <= / 2 ^ 41).
  { pose proof (g_lin (3 * m + 3 + m) ltac:(lia)) as G. pose proof (INR_le_of (3 * m + 3 + m) 2047 ltac:(lia)) as I.
    pose proof (pos_INR (3 * m + 3 + m)).
    assert (2 * INR (3 * m + 3 + m) * u64 <= 2 * 2047 * u64) by (apply Rmult_le_compat_r; [unfold u64; lra|lra]). unfold u64 in *. lra. }
  assert (Q : 4 * INR (S m) * Bt M <= M / 2 ^ 60 + bpow radix2 (-1010)).
  { unfold Bt. pose proof (INR_le_of (S m) 512 ltac:(lia)). pose proof eta_pos.
    assert (E1 : eta * bpow radix2 512 * bpow radix2 27 <= / 2 ^ 60).
    { unfold eta. rewrite <- !bpow_plus. apply Rle_trans with (bpow radix2 (-60)); [apply bpow_le; lia|]. apply Req_le.
      change (bpow radix2 (-60)) with (/ 1152921504606846976). f_equal. lra. }
    assert (E2 : eta * bpow radix2 27 <= bpow radix2 (-1010)) by (unfold eta; rewrite <- !bpow_plus; apply bpow_le; lia).
    change (bpow radix2 27) with 134217728 in *.
    assert (E3 : 0 <= 65536 * (eta * (M * bpow radix2 512 + 1))).
    { pose proof (bpow_ge_0 radix2 512). apply Rmult_le_pos; [lra|]. apply Rmult_le_pos; [lra|]. apply Rplus_le_le_0_compat; [apply Rmult_le_pos; lra|lra]. }
    apply Rle_trans with (4 * 512 * (65536 * (eta * (M * bpow radix2 512 + 1)))); [apply Rmult_le_compat_r; lra|].
    assert (M * (eta * bpow radix2 512 * 134217728) <= M * / 2 ^ 60) by (apply Rmult_le_compat_l; lra). lra. }
  assert (G2 : (g (3 * m + 3 + m) - 1) * M <= / 2 ^ 41 * M) by (apply Rmult_le_compat_r; lra).
  assert (S : drift A + / 2 ^ 41 * M + (M / 2 ^ 60 + bpow radix2 (-1010)) <= slack lo hi).
  { unfold slack. fold A. unfold M, drift. replace (bpow radix2 (-1000)) with (1024 * bpow radix2 (-1010)).
    - lra.
    - change 1024 with (bpow radix2 10). rewrite <- bpow_plus. reflexivity. }
  apply Rabs_le_inv in Np. lra.
Qed.

Lemma latest64 draws ops : unit_draws64 draws -> Forall unit_op64 ops -> unit_draws64 (latest draws ops).
Proof.
  intros Hd Ho. revert draws Hd. induction Ho as [|o ops P Q IH]; intros draws Hd; [exact Hd|]. destruct o; cbn; apply IH; auto.
Qed.

Lemma C09_bound_proof ml (lo hi : R) (min max : f64) (k mode : Z) (draws : nat -> f64) (ops : list (curve_op f64)) (t : f64) (x : R) :
  let N := F64Num ml in
  real min lo -> real max hi -> lo <= hi -> Rabs lo <= bpow radix2 400 -> Rabs hi <= bpow radix2 400 -> (points_for k <= 512)%Z ->
  unit_draws64 draws -> Forall unit_op64 ops -> real t x -> 0 <= x <= 1 ->
  exists c p c' v, run_curve (curve_New min max k mode draws) ops = Ret c /\ curve_Point c t = Ret (p, c') /\
    real (Y p) v /\ lo - slack lo hi <= v <= hi + slack lo hi.
Proof.
  intros N R1 R2 L A1 A2 Hk Hd Ho Rt Hx.
  destruct (run_generated_by min max mode _ draws _ ops (New_generated_by min max k mode draws)) as (c & Ec & G).
  destruct (generated_value ml lo hi min max mode (Z.to_nat (points_for k)) _ c t x R1 R2 L A1 A2 ltac:(lia) (latest64 _ _ Hd Ho) G Rt Hx) as (p & c' & v & E & R & B).
  exists c, p, c', v. auto.
Qed.

(** ** Speeds and sensors *)
Section Gen.
Variable ml : MathLib.
#[local] Instance M64 : Num f64 := F64Num ml.

Definition curve_ok64 (lo hi : R) (min max : f64) (c : curve f64) : Prop :=
  real min lo /\ real max hi /\ lo <= hi /\ Rabs lo <= bpow radix2 400 /\ Rabs hi <= bpow radix2 400 /\
  exists mode n d, (n <= 512)%nat /\ unit_draws64 d /\ generated_by min max mode n d c.

Lemma Shuffle_ok64 lo hi min max c d : curve_ok64 lo hi min max c -> unit_draws64 d -> curve_ok64 lo hi min max (curve_Shuffle c d).
Proof.
  intros (R1 & R2 & L & A1 & A2 & mode & n & d0 & Hn & Hd & G) H. repeat (split; [assumption|]). exists mode, n, d. split; [exact Hn|]. split; [exact H|].
  destruct (run_generated_by _ _ _ _ _ _ [CShuffle d] G) as (c2 & E2 & G2). cbn in E2. injection E2 as <-. exact G2.
Qed.
Lemma Point_ok64 lo hi min max c t : curve_ok64 lo hi min max c -> (exists x, real t x /\ 0 <= x <= 1) ->
  exists p c' v, curve_Point c t = Ret (p, c') /\ curve_ok64 lo hi min max c' /\ real (Y p) v /\ lo - slack lo hi <= v <= hi + slack lo hi.
Proof.
  intros (R1 & R2 & L & A1 & A2 & mode & n & d & Hn & Hd & G) (x & Rt & Hx).
  destruct (generated_value ml lo hi min max mode n d c t x R1 R2 L A1 A2 Hn Hd G Rt Hx) as (p & c' & v & E & R & B).
  exists p, c', v. split; [exact E|]. split; [|auto]. repeat (split; [assumption|]). exists mode, n, d. split; [exact Hn|]. split; [exact Hd|].
  eapply Point_generated_by; eauto.
Qed.

Lemma run_sensor64 lo hi (s : sensor f64) ops : curve_ok64 lo hi (s_min s) (s_max s) (s_gen s) -> Forall unit_gen64 ops ->
  exists s', run_sensor s ops = Ret s' /\
    (Exists is_next ops \/ (exists v, real (s_valY s) v /\ lo - slack lo hi <= v <= hi + slack lo hi) ->
     exists v, real (s_valY s') v /\ lo - slack lo hi <= v <= hi + slack lo hi).
Proof.
  intros H F. revert s H. induction F as [|o ops Ho F IH]; intros s H; cbn [run_sensor].
  { exists s. split; [reflexivity|]. intros [K|K]; [inversion K|exact K]. }
  destruct o as [d|t].
  - destruct (IH (sensor_Shuffle s d)) as (s' & E & K).
    { cbn. now apply Shuffle_ok64. }
    exists s'. split; [exact E|]. intros [Q|Q]; apply K; [|now right]. inversion Q; subst; [contradiction|now left].
  - destruct (Point_ok64 _ _ _ _ _ t H Ho) as (p & c' & v & E & G & R & B).
    unfold sensor_Next. rewrite E. cbn [bind].
    destruct (IH (mkSensor (s_id s) (s_name s) (s_min s) (s_max s) (X p) (Y p) c')) as (s' & E' & K); [exact G|].
    exists s'. split; [exact E'|]. intros _. apply K. right. exists v. auto.
Qed.
Lemma C09_sensor_proof lo hi name min max amp mode uuid draws (s : sensor f64) ops :
  NewSensor name min max amp mode uuid draws = GOk s ->
  real min lo -> real max hi -> lo <= hi -> Rabs lo <= bpow radix2 400 -> Rabs hi <= bpow radix2 400 ->
  unit_draws64 draws -> Forall unit_gen64 ops -> Exists is_next ops ->
  exists s' v, run_sensor s ops = Ret s' /\ real (s_valY s') v /\ lo - slack lo hi <= v <= hi + slack lo hi.
Proof.
  intros E R1 R2 L A1 A2 Hd F X. unfold NewSensor, validateAmplitude in E.
  destruct (Z.ltb_spec amp 4); [discriminate|]. destruct (Z.ltb_spec 512 amp); [discriminate|].
  destruct (_ =? 0)%Z; [discriminate|]. injection E as <-.
  match goal with |- context [run_sensor ?s0 _] => destruct (run_sensor64 lo hi s0 ops) as (s' & E' & K) end.
  - cbn [s_min s_max s_gen]. repeat (split; [assumption|]). do 3 eexists. split; [|split; [exact Hd|apply New_generated_by]].
    unfold points_for. destruct (Z.ltb_spec 0 amp); lia.
  - exact F.
  - destruct (K (or_introl X)) as (v & R & B). exists s', v. auto.
Qed.

Definition speed_ok64 (lo hi : R) (s : speed f64) : Prop := curve_ok64 lo hi (sp_min s) (sp_max s) (sp_gen s).
Lemma static_real lo hi (s : speed f64) : real (sp_min s) lo -> real (sp_max s) hi -> speed_isStatic s = true <-> lo = hi.
Proof.
  intros (F1 & E1) (F2 & E2). unfold speed_isStatic. change feq with (@Beqb 53 1024). rewrite Beqb_correct by assumption. rewrite E1, E2.
  destruct (Req_bool_spec lo hi); split; intros; congruence.
Qed.
Lemma slack_pos lo hi : 0 <= slack lo hi.
Proof.
  unfold slack. pose proof (bpow_ge_0 radix2 (-1000)). assert (0 <= Rmax (Rabs lo) (Rabs hi)) by (eapply Rle_trans; [apply Rabs_pos|apply Rmax_l]). lra.
Qed.
Lemma run_speed64 lo hi (s : speed f64) ops : speed_ok64 lo hi s -> Forall unit_gen64 ops ->
  exists s', run_speed s ops = Ret s' /\ sp_min s' = sp_min s /\ sp_max s' = sp_max s /\
    (Exists is_next ops \/ (exists v, real (sp_val s) v /\ lo - slack lo hi <= v <= hi + slack lo hi) ->
     lo = hi \/ exists v, real (sp_val s') v /\ lo - slack lo hi <= v <= hi + slack lo hi).
Proof.
  intros H F. revert s H. induction F as [|o ops Ho F IH]; intros s H; cbn [run_speed].
  { exists s. repeat (split; [reflexivity|]). intros [K|K]; [inversion K|right; exact K]. }
  destruct o as [d|t].
  - destruct (IH (speed_Shuffle s d)) as (s' & E & E1 & E2 & K).
    { unfold speed_ok64. cbn. now apply Shuffle_ok64. }
    exists s'. split; [exact E|]. split; [exact E1|]. split; [exact E2|]. intros [Q|Q]; apply K; [|now right]. inversion Q; subst; [contradiction|now left].
  - destruct (Point_ok64 _ _ _ _ _ t H Ho) as (p & c' & v & E & G & R & B).
    pose proof H as (R1 & R2 & _). pose proof (static_real lo hi s R1 R2) as S.
    unfold speed_Next. destruct (speed_isStatic s).
    + cbn [bind]. destruct (IH s H) as (s' & E' & E1 & E2 & K). exists s'. split; [exact E'|]. split; [exact E1|]. split; [exact E2|].
      intros _. left. now apply S.
    + rewrite E. cbn [bind]. destruct (IH (mkSpeed (sp_min s) (sp_max s) (Y p) c')) as (s' & E' & E1 & E2 & K); [exact G|].
      exists s'. split; [exact E'|]. split; [exact E1|]. split; [exact E2|]. intros _. apply K. right. exists v. auto.
Qed.
Lemma flt_real x y a b : real x a -> real y b -> flt x y = Rlt_bool a b.
Proof. intros (F1 & E1) (F2 & E2). change flt with (@Bltb 53 1024). rewrite Bltb_correct by assumption. now rewrite E1, E2. Qed.
Lemma fle_real x y a b : real x a -> real y b -> fle x y = Rle_bool a b.
Proof. intros (F1 & E1) (F2 & E2). change fle with (@Bleb 53 1024). rewrite Bleb_correct by assumption. now rewrite E1, E2. Qed.
Lemma feq_real x y a b : real x a -> real y b -> feq x y = Req_bool a b.
Proof. intros (F1 & E1) (F2 & E2). change feq with (@Beqb 53 1024). rewrite Beqb_correct by assumption. now rewrite E1, E2. Qed.
Lemma ofZ_real z : (Z.abs z <= 2 ^ 53)%Z -> real (f64_ofZ z) (IZR z).
Proof. intros H. destruct (ofZ_ok z H). split; assumption. Qed.

Lemma C09_speed_proof a b min max amp draws (s : speed f64) ops :
  NewSpeed min max amp draws = GOk s -> real min a -> real max b -> unit_draws64 draws -> Forall unit_gen64 ops -> Exists is_next ops ->
  exists s' lo hi v, run_speed s ops = Ret s' /\ real (sp_min s) lo /\ real (sp_max s) hi /\ real (speed_Value s') v /\
    0 <= lo <= hi /\ (lo < hi -> hi <= 1000) /\ lo - / 10 ^ 9 <= v <= hi + / 10 ^ 9.
Proof.
  intros E Ra Rb Hd F X. unfold NewSpeed, validateAmplitude in E.
  pose proof (ofZ_real 0 ltac:(lia)) as R0. pose proof (ofZ_real 1 ltac:(lia)) as R1. pose proof (ofZ_real 1000 ltac:(lia)) as R1000.
  change (@f0 f64 _) with (f64_ofZ 0) in E. change (@f1 f64 _) with (f64_ofZ 1) in E. change (@fofZ f64 _ 1000) with (f64_ofZ 1000) in E.
  rewrite (flt_real _ _ _ _ Ra R0), (flt_real _ _ _ _ R1000 Rb), (fle_real _ _ _ _ Rb R0) in E.
  destruct (Rlt_bool_spec a 0) as [|La]; [discriminate|]. destruct (Rlt_bool_spec 1000 b) as [|Lb]; [discriminate|].
  assert (Q : exists mx mb, (if Rle_bool b 0 then min else max) = mx /\ real mx mb /\ (mb = a \/ mb <= 1000)).
  { destruct (Rle_bool b 0); do 2 eexists; split; eauto. }
  destruct Q as (mx & mb & Ex & Rx & Hx). cbv zeta in E. rewrite Ex in E. rewrite (flt_real _ _ _ _ Rx Ra), (feq_real _ _ _ _ Ra R0), (feq_real _ _ _ _ Rx R0) in E.
  destruct (Rlt_bool_spec mb a) as [|Lm]; [discriminate|].
  assert (P : exists p q lo hi, (if Req_bool a 0 && Req_bool mb 0 then (f64_ofZ 1, f64_ofZ 1) else (min, mx)) = (p, q) /\ real p lo /\ real q hi /\
              0 <= lo <= hi /\ (lo < hi -> hi <= 1000)).
  { destruct (Req_bool a 0 && Req_bool mb 0); do 4 eexists; (split; [reflexivity|]); (split; [eassumption|]); (split; [eassumption|]); split; lra. }
  destruct P as (p & q & lo & hi & Ep & Rp & Rq & Hl & Hh). rewrite Ep in E.
  destruct (Z.ltb_spec amp 4); [discriminate|]. destruct (Z.ltb_spec 512 amp); [discriminate|]. injection E as <-.
  destruct (Rle_lt_or_eq_dec lo hi ltac:(lra)) as [Hlt|Heq].
  - match goal with |- context [run_speed ?s0 _] => destruct (run_speed64 lo hi s0 ops) as (s' & E' & E1 & E2 & K) end.
    + unfold speed_ok64. cbn [sp_min sp_max sp_gen]. specialize (Hh Hlt).
      assert (1000 <= bpow radix2 400) by (apply Rle_trans with (bpow radix2 10); [change (bpow radix2 10) with 1024; lra|apply bpow_le; lia]).
      split; [exact Rp|]. split; [exact Rq|]. split; [lra|]. split; [rewrite Rabs_pos_eq; lra|]. split; [rewrite Rabs_pos_eq; lra|].
      do 3 eexists. split; [|split; [exact Hd|apply New_generated_by]]. unfold points_for. destruct (Z.ltb_spec 0 amp); lia.
    + exact F.
    + cbn [sp_min sp_max] in *. destruct (K (or_introl X)) as [Q|(v & R & B)]; [lra|].
      exists s', lo, hi, v. split; [exact E'|]. split; [exact Rp|]. split; [exact Rq|]. split.
      * unfold speed_Value. pose proof (static_real lo hi s') as S. rewrite E1, E2 in S. specialize (S Rp Rq). destruct (speed_isStatic s'); [|exact R].
        destruct S as [S _]. specialize (S eq_refl). lra.
      * split; [exact Hl|]. split; [exact Hh|]. specialize (Hh Hlt).
        assert (slack lo hi <= / 10 ^ 9).
        { unfold slack. assert (Rmax (Rabs lo) (Rabs hi) <= 1000) by (apply Rmax_lub; rewrite Rabs_pos_eq; lra).
          assert (bpow radix2 (-1000) <= / 1000000000000000000000000).
          { apply Rle_trans with (bpow radix2 (-80)); [apply bpow_le; lia|]. change (bpow radix2 (-80)) with (/ 1208925819614629174706176). apply Rinv_le; lra. }
          lra. }
        lra.
  - assert (St : forall s0, sp_min s0 = p -> sp_max s0 = q -> exists s', run_speed s0 ops = Ret s' /\ sp_min s' = p /\ sp_max s' = q).
    { clear - F Rp Rq Heq. induction F as [|o ops Ho F IH]; intros s0 E1 E2; cbn [run_speed]; [eauto|]. destruct o as [d|t].
      - apply IH; assumption.
      - unfold speed_Next. pose proof (static_real lo hi s0) as S. rewrite E1, E2 in S. specialize (S Rp Rq). rewrite (proj2 S Heq). cbn [bind]. now apply IH. }
    match goal with |- context [run_speed ?s0 _] => destruct (St s0 eq_refl eq_refl) as (s' & E' & E1 & E2) end.
    exists s', lo, hi, lo. split; [exact E'|]. split; [exact Rp|]. split; [exact Rq|]. split; [|lra].
    unfold speed_Value. pose proof (static_real lo hi s') as S. rewrite E1, E2 in S. specialize (S Rp Rq). rewrite (proj2 S Heq), E1. exact Rp.
Qed.
End Gen.
