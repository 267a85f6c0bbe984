(** binary64 operations as rounded real operations. *)
From Coq Require Import Reals Lra Lia ZArith.
From Flocq Require Import Core BinarySingleNaN Relative.
From Verif.Model Require Import Base Num NumF64.
Open Scope R_scope.

Definition fexp64 : Z -> Z := FLT_exp (-1074) 53.
Definition rnd (x : R) : R := round radix2 fexp64 ZnearestE x.
Definition val (x : f64) : R := B2R x.
Definition fin (x : f64) : Prop := is_finite x = true.
Definition big : R := bpow radix2 1000.
Definition fmt (x : R) : Prop := generic_format radix2 fexp64 x.

#[local] Instance prec_pos : Prec_gt_0 53 := eq_refl.
#[local] Instance vexp : Valid_exp fexp64 := FLT_exp_valid (-1074) 53.

Lemma fexp_eq : SpecFloat.fexp 53 1024 = fexp64.
Proof. reflexivity. Qed.
Lemma fmt_val x : fmt (val x).
Proof. unfold fmt, val. rewrite <- fexp_eq. apply generic_format_B2R. Qed.
Lemma fmt_bpow e : (-1074 <= e)%Z -> fmt (bpow radix2 e).
Proof. intros H. apply generic_format_FLT_bpow; [apply prec_pos|exact H]. Qed.
Lemma rnd_big x : Rabs x <= big -> Rabs (rnd x) <= big.
Proof.
  intros H. unfold rnd. apply abs_round_le_generic; [apply vexp|apply valid_rnd_N| |exact H]. apply fmt_bpow. lia.
Qed.
Lemma big_lt : big < bpow radix2 1024.
Proof. apply bpow_lt. lia. Qed.

Ltac use_correct thm :=
  match type of thm with
  | if Rlt_bool ?a ?b then _ else _ =>
      rewrite (Rlt_bool_true a b) in thm
  end.

Lemma add_ok x y : fin x -> fin y -> Rabs (val x + val y) <= big -> val (f64_add x y) = rnd (val x + val y) /\ fin (f64_add x y).
Proof.
  intros Fx Fy H. pose proof (@Bplus_correct 53 1024 prec53 emax1024 mode_NE x y Fx Fy) as C.
  rewrite Rlt_bool_true in C; [|eapply Rle_lt_trans; [apply rnd_big; exact H|apply big_lt]]. destruct C as (C1 & C2 & _). split; [exact C1|exact C2].
Qed.
Lemma sub_ok x y : fin x -> fin y -> Rabs (val x - val y) <= big -> val (f64_sub x y) = rnd (val x - val y) /\ fin (f64_sub x y).
Proof.
  intros Fx Fy H. pose proof (@Bminus_correct 53 1024 prec53 emax1024 mode_NE x y Fx Fy) as C.
  rewrite Rlt_bool_true in C; [|eapply Rle_lt_trans; [apply rnd_big; exact H|apply big_lt]]. destruct C as (C1 & C2 & _). split; [exact C1|exact C2].
Qed.
Lemma mul_ok x y : fin x -> fin y -> Rabs (val x * val y) <= big -> val (f64_mul x y) = rnd (val x * val y) /\ fin (f64_mul x y).
Proof.
  intros Fx Fy H. pose proof (@Bmult_correct 53 1024 prec53 emax1024 mode_NE x y) as C.
  rewrite Rlt_bool_true in C; [|eapply Rle_lt_trans; [apply rnd_big; exact H|apply big_lt]]. destruct C as (C1 & C2 & _). split; [exact C1|].
  unfold fin, f64_mul. rewrite C2. unfold fin in *. now rewrite Fx, Fy.
Qed.
Lemma div_ok x y : fin x -> val y <> 0 -> Rabs (val x / val y) <= big -> val (f64_div x y) = rnd (val x / val y) /\ fin (f64_div x y).
Proof.
  intros Fx Hy H. pose proof (@Bdiv_correct 53 1024 prec53 emax1024 mode_NE x y Hy) as C.
  rewrite Rlt_bool_true in C; [|eapply Rle_lt_trans; [apply rnd_big; exact H|apply big_lt]]. destruct C as (C1 & C2 & _). split; [exact C1|].
  unfold fin, f64_div. rewrite C2. exact Fx.
Qed.
Lemma fmt_IZR z : (Z.abs z <= 2 ^ 53)%Z -> fmt (IZR z).
Proof.
  intros H. destruct (Z.eq_dec (Z.abs z) (2 ^ 53)) as [E|E].
  - assert (z = 2 ^ 53 \/ z = - 2 ^ 53)%Z as [->| ->] by lia.
    + change (IZR (2 ^ 53)) with (bpow radix2 53). apply fmt_bpow. lia.
    + replace (IZR (- 2 ^ 53)) with (- bpow radix2 53) by (rewrite opp_IZR; reflexivity). apply generic_format_opp, fmt_bpow. lia.
  - apply generic_format_FLT. apply (FLT_spec _ _ _ _ (Float radix2 z 0)); unfold F2R; cbn; try lia; try lra.
Qed.
Lemma rnd_fmt x : fmt x -> rnd x = x.
Proof. apply round_generic. apply valid_rnd_N. Qed.
Lemma ofZ_ok z : (Z.abs z <= 2 ^ 53)%Z -> val (f64_ofZ z) = IZR z /\ fin (f64_ofZ z).
Proof.
  intros H. pose proof (@binary_normalize_correct 53 1024 prec53 emax1024 mode_NE z 0 false) as C. cbv zeta in C.
  assert (E : F2R (Float radix2 z 0) = IZR z) by (unfold F2R; cbn; lra). rewrite E in C.
  change (round radix2 (SpecFloat.fexp 53 1024) (round_mode mode_NE) (IZR z)) with (rnd (IZR z)) in C. rewrite (rnd_fmt _ (fmt_IZR z H)) in C.
  rewrite Rlt_bool_true in C; [destruct C as (C1 & C2 & _); split; [exact C1|exact C2]|].
  rewrite <- abs_IZR. apply Rle_lt_trans with (IZR (2 ^ 53)); [now apply IZR_le|]. change (IZR (2 ^ 53)) with (bpow radix2 53). apply bpow_lt. lia.
Qed.
Lemma trunc_ok x : Btrunc x = Ztrunc (val x).
Proof.
  apply eq_IZR. rewrite Btrunc_correct. unfold round, scaled_mantissa, cexp, FIX_exp, F2R. cbn -[Ztrunc]. rewrite !Rmult_1_r. reflexivity. exact emax1024.
Qed.
Lemma rnd_mono x y : x <= y -> rnd x <= rnd y.
Proof. apply round_le; [apply vexp|apply valid_rnd_N]. Qed.
Lemma rnd_0 : rnd 0 = 0.
Proof. apply round_0. apply valid_rnd_N. Qed.

(** error of one rounding below 2^e *)
Lemma rnd_err x e : (-1020 <= e)%Z -> Rabs x < bpow radix2 e -> Rabs (rnd x - x) <= bpow radix2 (e - 54).
Proof.
  intros He H. destruct (Req_dec x 0) as [->|Hx].
  { rewrite rnd_0, Rminus_0_r, Rabs_R0. apply bpow_ge_0. }
  eapply Rle_trans; [apply error_le_half_ulp; apply vexp|].
  assert (U : ulp radix2 fexp64 x <= bpow radix2 (e - 53)).
  { rewrite ulp_neq_0 by exact Hx. apply bpow_le. unfold cexp, fexp64, FLT_exp.
    assert (mag radix2 x <= e)%Z by (apply mag_le_bpow; assumption). lia. }
  replace (e - 54)%Z with (-1 + (e - 53))%Z by lia. rewrite bpow_plus. change (bpow radix2 (-1)) with (/ 2). lra.
Qed.
