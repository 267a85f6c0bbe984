(** C86: the clock of a running generator. *)
From Coq Require Import Reals Lra Lia ZArith Sorting.Sorted.
From Flocq Require Import Core BinarySingleNaN.
From Verif.Model Require Import Base Num NumF64 NumR Geo Curve PropMap Pb Types Clock.
From Verif.Spec Require Import ListSpec ClockSpec RealSpec.
From Verif.Proofs Require Import BaseLemmas F64Lemmas CurveF64.
Open Scope R_scope.

(** ** The real-number reading *)
Lemma seconds_R d : @duration_Seconds R RNum d = IZR d / 1000000000.
Proof.
  unfold duration_Seconds. cbn [fofZ fadd fdiv RNum]. pose proof (Z.quot_rem' d 1000000000) as E.
  rewrite E at 3. rewrite plus_IZR, mult_IZR. field.
Qed.
Lemma tick_R last t : @tick_of R RNum last t = Rmax 1 (Rabs (seconds last t)).
Proof.
  unfold tick_of. rewrite seconds_R. cbn [fabs flt RNum]. unfold f1. cbn [fofZ RNum].
  assert (E : Rabs (IZR (last - t) / 1000000000) = Rabs (seconds last t)).
  { unfold seconds. rewrite <- Rabs_Ropp. f_equal. replace (t - last)%Z with (- (last - t))%Z by lia. rewrite opp_IZR. field. }
  rewrite E. unfold Rmax. destruct (Rlt_bool_spec (Rabs (seconds last t)) 1), (Rle_dec 1 (Rabs (seconds last t))); lra.
Qed.
Lemma seconds_add a b c : seconds a c = seconds a b + seconds b c.
Proof. unfold seconds. replace (c - a)%Z with ((b - a) + (c - b))%Z by lia. rewrite plus_IZR. field. Qed.
Lemma seconds_nonneg a b : (a <= b)%Z -> 0 <= seconds a b.
Proof. intros H. unfold seconds. apply Rmult_le_pos; [apply (IZR_le 0); lia|lra]. Qed.
Lemma seconds_self a : seconds a a = 0.
Proof. unfold seconds. rewrite Z.sub_diag. field. Qed.
Lemma seconds_ge a b : (a + 1000000000 <= b)%Z -> 1 <= seconds a b.
Proof. intros H. unfold seconds. assert (1000000000 <= IZR (b - a)) by (apply (IZR_le 1000000000); lia). lra. Qed.
Lemma seconds_le a b : (b <= a + 1000000000)%Z -> seconds a b <= 1.
Proof. intros H. unfold seconds. assert (IZR (b - a) <= 1000000000) by (apply (IZR_le _ 1000000000); lia). lra. Qed.

Lemma last_cons {A} (a b d : A) (l : list A) : List.last (a :: b :: l) d = List.last (b :: l) d.
Proof. reflexivity. Qed.
Lemma last_default {A} (a : A) l d e : List.last (a :: l) d = List.last (a :: l) e.
Proof. revert a. induction l as [|b l IH]; intros a; [reflexivity|]. cbn. apply IH. Qed.

Lemma C86_never_behind_proof ts : forall start, apart 0 (start :: ts) ->
  seconds start (List.last ts start) <= rsum (run_ticks start ts).
Proof.
  induction ts as [|t ts IH]; intros start H; cbn [run_ticks].
  - cbn. rewrite seconds_self. lra.
  - inversion H as [|? ? H1 H2]; subst. inversion H2 as [|? ? Hst _]; subst. cbv beta in Hst. specialize (IH t H1).
    change (rsum (tick_of start t :: run_ticks t ts)) with (tick_of start t + rsum (run_ticks t ts)). rewrite tick_R.
    assert (L : List.last (t :: ts) start = List.last ts t). { destruct ts as [|b ts]; [reflexivity|]. rewrite last_cons. apply last_default. }
    rewrite L, (seconds_add start t (List.last ts t)). assert (0 <= seconds start t) by (apply seconds_nonneg; lia).
    rewrite Rabs_pos_eq by lra. pose proof (Rmax_r 1 (seconds start t)). lra.
Qed.
Lemma C86_keeps_up_proof ts : forall start, apart 1000000000 (start :: ts) ->
  rsum (run_ticks start ts) = seconds start (List.last ts start).
Proof.
  induction ts as [|t ts IH]; intros start H; cbn [run_ticks].
  - cbn. rewrite seconds_self. reflexivity.
  - inversion H as [|? ? H1 H2]; subst. inversion H2 as [|? ? Hst _]; subst. cbv beta in Hst. specialize (IH t H1).
    change (rsum (tick_of start t :: run_ticks t ts)) with (tick_of start t + rsum (run_ticks t ts)). rewrite tick_R.
    assert (L : List.last (t :: ts) start = List.last ts t). { destruct ts as [|b ts]; [reflexivity|]. rewrite last_cons. apply last_default. }
    rewrite L, (seconds_add start t (List.last ts t)), IH. pose proof (seconds_ge _ _ Hst). rewrite Rabs_pos_eq by lra.
    rewrite Rmax_right by lra. reflexivity.
Qed.

(** ** The ticker *)
Definition held_list (h : option Z) : list Z := match h with Some t => [t] | None => [] end.
Inductive sub {A} : list A -> list A -> Prop :=
| sub_nil l : sub [] l
| sub_keep x l m : sub l m -> sub (x :: l) (x :: m)
| sub_skip x l m : sub l m -> sub l (x :: m).
Lemma sub_in {A} (l m : list A) x : sub l m -> In x l -> In x m.
Proof. induction 1; cbn; intuition. Qed.
Lemma sub_apart gap l m : sub l m -> apart gap m -> apart gap l.
Proof.
  induction 1 as [l|x l m S IH|x l m S IH]; intros H; [constructor| |]; inversion H as [|? ? H1 H2]; subst; [|now apply IH].
  constructor; [now apply IH|]. rewrite Forall_forall in *. intros y Hy. apply H2. now apply (sub_in l).
Qed.
Lemma ticker_sub evs : forall h, sub (ticker h evs) (held_list h ++ fires evs).
Proof.
  induction evs as [|[t|] evs IH]; intros h; cbn; [constructor| |].
  - destruct h as [b|]; cbn.
    + pose proof (IH (Some b)) as S. cbn in S. inversion S as [|x l m S'|x l m S']; subst; [constructor|apply sub_keep, sub_skip; assumption|apply sub_skip, sub_skip; assumption].
    + apply (IH (Some t)).
  - destruct h as [b|]; cbn; [apply sub_keep|]; apply (IH None).
Qed.
Lemma C86_ticker_proof start evs : apart 1000000000 (start :: fires evs) ->
  rsum (run_ticks start (ticker None evs)) = seconds start (List.last (ticker None evs) start).
Proof. intros H. apply C86_keeps_up_proof. refine (sub_apart _ _ _ _ H). apply sub_keep. apply (ticker_sub evs None). Qed.

(** ** Short intervals *)
Lemma C86_interval_proof interval n : (0 <= interval <= 1000000000)%Z -> forall k,
  rsum (run_ticks (Z.of_nat k * interval) (map (fun k => (Z.of_nat k * interval)%Z) (seq (Datatypes.S k) n))) = INR n.
Proof.
  intros HI. induction n as [|n IH]; intros k; [reflexivity|]. cbn [seq map run_ticks].
  change (rsum (?a :: ?l)) with (a + rsum l). rewrite IH, tick_R, S_INR.
  assert (D : (Z.of_nat (Datatypes.S k) * interval = Z.of_nat k * interval + interval)%Z) by lia.
  assert (0 <= seconds (Z.of_nat k * interval) (Z.of_nat (Datatypes.S k) * interval)) by (apply seconds_nonneg; lia).
  pose proof (seconds_le (Z.of_nat k * interval) (Z.of_nat (Datatypes.S k) * interval) ltac:(lia)).
  rewrite Rabs_pos_eq by lra. rewrite Rmax_left by lra. lra.
Qed.

(** ** Late start *)
Lemma ticker_full b l r : ticker (Some b) (map Fire l ++ r) = ticker (Some b) r.
Proof. induction l as [|t l IH]; cbn; [reflexivity|exact IH]. Qed.
Lemma C86_late_proof interval more start t : (interval <= start)%Z -> (start <= t)%Z ->
  seconds start t + 2 * seconds interval start <= rsum (run_ticks start (ticker None (Fire interval :: map Fire more ++ [Recv; Fire t; Recv]))).
Proof.
  intros H1 H2. cbn [ticker]. rewrite ticker_full. cbn [ticker run_ticks].
  change (rsum [?a; ?b]) with (a + (b + 0)). rewrite !tick_R.
  assert (E : Rabs (seconds start interval) = seconds interval start).
  { pose proof (seconds_add start interval start) as Q. rewrite seconds_self in Q. pose proof (seconds_nonneg interval start H1).
    rewrite <- Rabs_Ropp, Rabs_pos_eq; lra. }
  rewrite E. pose proof (seconds_nonneg interval t ltac:(lia)). rewrite (Rabs_pos_eq (seconds interval t)) by lra.
  pose proof (seconds_add interval start t). pose proof (Rmax_r 1 (seconds interval start)). pose proof (Rmax_r 1 (seconds interval t)). lra.
Qed.

(** ** binary64 *)
Section F.
Context (m : MathLib).
#[local] Instance NFc : Num f64 := F64Num m.
Definition ns : R := 1000000000.
Lemma u_small : 0 < u64 <= / 1000000.
Proof. unfold u64. lra. Qed.
Lemma rnd_u' z : (z = 0 \/ / 10000000000 <= Rabs z) -> Rabs (rnd z - z) <= u64 * Rabs z.
Proof.
  intros [->|H]; [rewrite rnd_0, Rminus_0_r, Rabs_R0; lra|]. apply rnd_u_normal. refine (Rle_trans _ _ _ _ H).
  apply Rle_trans with (bpow radix2 (-40)); [apply bpow_le; lia|]. change (bpow radix2 (-40)) with (/ 1099511627776). lra.
Qed.
Lemma seconds_f64 d : (Z.abs d < 2 ^ 63)%Z ->
  fin (@duration_Seconds f64 NFc d) /\ Rabs (val (@duration_Seconds f64 NFc d) - IZR d / ns) <= / 2 ^ 51 * (Rabs (IZR d) / ns).
Proof.
  intros H. unfold duration_Seconds. cbn [fofZ fadd fdiv NFc F64Num].
  set (q := Z.quot d 1000000000). set (r := Z.rem d 1000000000).
  assert (E : d = (1000000000 * q + r)%Z) by apply Z.quot_rem'.
  assert (Sg : (0 <= q /\ 0 <= r < 1000000000 \/ q <= 0 /\ -1000000000 < r <= 0)%Z).
  { unfold q, r. destruct (Z_le_gt_dec 0 d).
    - left. split; [apply Z.quot_pos; lia|]. apply Z.rem_bound_pos; lia.
    - right. split; [apply Z.opp_nonneg_nonpos; rewrite <- Z.quot_opp_l by lia; apply Z.quot_pos; lia|].
      pose proof (Z.rem_bound_pos (- d) 1000000000 ltac:(lia) ltac:(lia)) as B. rewrite Z.rem_opp_l in B by lia. lia. }
  assert (Q : (Z.abs q <= 2 ^ 53)%Z) by lia. assert (Rr : (Z.abs r <= 2 ^ 53)%Z) by lia.
  destruct (ofZ_ok q Q) as [Vq Fq], (ofZ_ok r Rr) as [Vr Fr], (ofZ_ok 1000000000 ltac:(lia)) as [Vn Fn].
  assert (Rb : Rabs (IZR r) <= ns) by (rewrite <- abs_IZR; apply (IZR_le _ 1000000000); lia).
  assert (Qb : Rabs (IZR q) <= 10000000000) by (rewrite <- abs_IZR; apply (IZR_le _ 10000000000); lia).
  assert (Bg : 100000000000 <= big). { apply Rle_trans with (bpow radix2 40); [change (bpow radix2 40) with 1099511627776; lra|apply bpow_le; lia]. }
  assert (X1 : Rabs (IZR r / ns) <= 1).
  { unfold Rdiv. rewrite Rabs_mult, (Rabs_pos_eq (/ ns)); unfold ns in *; lra. }
  destruct (div_ok (f64_ofZ r) (f64_ofZ 1000000000) Fr) as [Vd Fd]; [rewrite Vn; lra|rewrite Vr, Vn; change 1000000000 with ns; lra|].
  rewrite Vr, Vn in Vd. change (IZR 1000000000) with ns in Vd.
  set (x := IZR r / ns) in *.
  assert (Ex : Rabs (rnd x - x) <= u64 * Rabs x).
  { apply rnd_u'. destruct (Z.eq_dec r 0) as [->|Hr]; [left; unfold x; lra|right].
    unfold x, Rdiv. rewrite Rabs_mult, (Rabs_pos_eq (/ ns)) by (unfold ns; lra). rewrite <- abs_IZR.
    assert (1 <= IZR (Z.abs r)) by (apply (IZR_le 1); lia). unfold ns. lra. }
  pose proof u_small as U.
  set (w := rnd x) in *.
  assert (D : IZR d / ns = IZR q + x). { rewrite E, plus_IZR, mult_IZR. unfold x, ns. field. }
  assert (Dabs : Rabs (IZR d) / ns = Rabs (IZR q) + Rabs x).
  { replace (Rabs (IZR d) / ns) with (Rabs (IZR d / ns)).
    2:{ unfold Rdiv. rewrite Rabs_mult, (Rabs_pos_eq (/ ns)); unfold ns; lra. }
    rewrite D. assert (SS : 0 <= IZR q /\ 0 <= x \/ IZR q <= 0 /\ x <= 0).
    { unfold x, ns. destruct Sg as [[A B]|[A B]]; [left|right].
      - split; [now apply (IZR_le 0)|]. assert (0 <= IZR r) by (apply (IZR_le 0); lia). lra.
      - split; [now apply (IZR_le _ 0)|]. assert (IZR r <= 0) by (apply (IZR_le _ 0); lia). lra. }
    destruct SS as [[A B]|[A B]].
    - rewrite !Rabs_pos_eq by lra. reflexivity.
    - rewrite !Rabs_left1 by lra. lra. }
  assert (Wb : Rabs (IZR q + w) <= big).
  { eapply Rle_trans; [apply Rabs_triang|]. assert (Rabs w <= Rabs x + u64 * Rabs x). { replace w with (x + (w - x)) by lra. eapply Rle_trans; [apply Rabs_triang|]. lra. }
    nra. }
  destruct (add_ok (f64_ofZ q) (f64_div (f64_ofZ r) (f64_ofZ 1000000000)) Fq Fd) as [Vs Fs]; [rewrite Vq, Vd; exact Wb|].
  rewrite Vq, Vd in Vs. split; [exact Fs|]. rewrite Vs.
  set (z := IZR q + w) in *.
  assert (Zd : Rabs (z - (IZR q + x)) <= u64 * Rabs x) by (unfold z; replace (IZR q + w - (IZR q + x)) with (w - x) by lra; exact Ex).
  assert (Zl : Rabs z <= Rabs (IZR q) + Rabs x + u64 * Rabs x).
  { replace z with (IZR q + (x + (z - (IZR q + x)))) by lra. eapply Rle_trans; [apply Rabs_triang|].
    pose proof (Rabs_triang x (z - (IZR q + x))). lra. }
  assert (Ez : Rabs (rnd z - z) <= u64 * Rabs z).
  { apply rnd_u'. destruct (Z.eq_dec d 0) as [Hd|Hd].
    - left. assert (q = 0 /\ r = 0)%Z as [-> Hr] by lia. unfold z, w, x. rewrite Hr. replace (0 / ns) with 0 by (unfold ns; field). rewrite rnd_0. lra.
    - right. assert (1 <= Rabs (IZR d)) by (rewrite <- abs_IZR; apply (IZR_le 1); lia).
      assert (/ ns <= Rabs (IZR q) + Rabs x) by (rewrite <- Dabs; unfold ns in *; lra).
      assert (L : Rabs (IZR q + x) <= Rabs z + u64 * Rabs x).
      { replace (IZR q + x) with (z - (z - (IZR q + x))) by lra. eapply Rle_trans; [apply Rabs_triang|]. rewrite Rabs_Ropp. lra. }
      rewrite <- D in L. assert (L2 : Rabs (IZR d / ns) = Rabs (IZR d) / ns).
      { unfold Rdiv. rewrite Rabs_mult, (Rabs_pos_eq (/ ns)); unfold ns; lra. }
      rewrite L2, Dabs in L. unfold ns in *. pose proof (Rabs_pos (IZR q)). pose proof (Rabs_pos x). nra. }
  rewrite D, Dabs. pose proof (Rabs_pos (IZR q)). pose proof (Rabs_pos x).
  replace (rnd z - (IZR q + x)) with ((rnd z - z) + (z - (IZR q + x))) by lra. eapply Rle_trans; [apply Rabs_triang|].
  assert (/ 2 ^ 51 = 4 * u64) by (unfold u64; lra). nra.
Qed.

Lemma f1_val : val (@f1 f64 NFc) = 1 /\ fin (@f1 f64 NFc).
Proof. exact (ofZ_ok 1 ltac:(lia)). Qed.
Lemma ltb_val x y : fin x -> fin y -> Bltb x y = Rlt_bool (val x) (val y).
Proof. intros Fx Fy. apply Bltb_correct; assumption. Qed.
Lemma C86_tick_proof last t : (Z.abs (last - t) < 2 ^ 63)%Z ->
  let x := @tick_of f64 NFc last t in let exact := Rmax 1 (Rabs (seconds last t)) in
  fin x /\ 1 <= val x /\ Rabs (val x - exact) <= / 2 ^ 51 * exact.
Proof.
  intros H. cbv zeta. unfold tick_of. destruct (seconds_f64 _ H) as [F B]. set (s := @duration_Seconds f64 NFc (last - t)) in *.
  cbn [fabs flt NFc F64Num]. destruct f1_val as [V1 F1].
  assert (Fa : fin (Babs s)) by (unfold fin in *; now rewrite is_finite_Babs).
  assert (Va : val (Babs s) = Rabs (val s)) by apply B2R_Babs.
  rewrite (ltb_val _ _ Fa F1), Va, V1.
  assert (E : Rabs (seconds last t) = Rabs (IZR (last - t)) / ns).
  { unfold seconds, ns, Rdiv. rewrite Rabs_mult, (Rabs_pos_eq (/ 1000000000)) by lra. rewrite <- (Rabs_Ropp (IZR (last - t))), <- opp_IZR. do 3 f_equal. lia. }
  rewrite E. set (D := Rabs (IZR (last - t)) / ns) in *.
  assert (Dd : Rabs (IZR (last - t) / ns) = D).
  { unfold D, Rdiv. rewrite Rabs_mult, (Rabs_pos_eq (/ ns)); unfold ns; lra. }
  assert (D0 : 0 <= D) by (rewrite <- Dd; apply Rabs_pos).
  assert (C : Rabs (Rabs (val s) - D) <= / 2 ^ 51 * D).
  { rewrite <- Dd at 1. eapply Rle_trans; [apply Rabs_triang_inv2|exact B]. }
  apply Rabs_le_inv in C. assert (P : 0 < / 2 ^ 51 < / 1000) by lra. revert P C. generalize (/ 2 ^ 51). intros k P C.
  destruct (Rlt_bool_spec (Rabs (val s)) 1) as [L|L].
  - split; [exact F1|]. rewrite V1. split; [lra|]. apply Rabs_le. unfold Rmax. destruct (Rle_dec 1 D); nra.
  - split; [exact Fa|]. rewrite Va. split; [lra|]. apply Rabs_le. unfold Rmax. destruct (Rle_dec 1 D); nra.
Qed.

Lemma val_whole k : (Z.abs k <= 2 ^ 53)%Z -> val (@duration_Seconds f64 NFc (k * 1000000000)) = IZR k /\ fin (@duration_Seconds f64 NFc (k * 1000000000)).
Proof.
  intros H. unfold duration_Seconds. rewrite Z.quot_mul, Z.rem_mul by lia. cbn [fofZ fadd fdiv NFc F64Num].
  destruct (ofZ_ok k H) as [Vk Fk], (ofZ_ok 0 ltac:(lia)) as [V0 F0], (ofZ_ok 1000000000 ltac:(lia)) as [Vn Fn].
  assert (Bg : bpow radix2 53 <= big) by (apply bpow_le; lia).
  assert (B0 : 0 < big) by apply bpow_gt_0.
  destruct (div_ok (f64_ofZ 0) (f64_ofZ 1000000000) F0) as [Vd Fd]; [rewrite Vn; lra|rewrite V0, Vn; replace (0 / 1000000000) with 0 by field; rewrite Rabs_R0; lra|].
  rewrite V0, Vn in Vd. replace (0 / 1000000000) with 0 in Vd by field. rewrite rnd_0 in Vd.
  destruct (add_ok (f64_ofZ k) (f64_div (f64_ofZ 0) (f64_ofZ 1000000000)) Fk Fd) as [Vs Fs].
  { rewrite Vk, Vd, Rplus_0_r, <- abs_IZR. eapply Rle_trans; [|exact Bg]. change (bpow radix2 53) with (IZR (2 ^ 53)). now apply IZR_le. }
  split; [|exact Fs]. rewrite Vs, Vk, Vd, Rplus_0_r. apply rnd_fmt. now apply fmt_IZR.
Qed.
Lemma C86_whole_proof last k : (1 <= k <= 2 ^ 53)%Z -> val (@tick_of f64 NFc last (last + k * 1000000000)) = IZR k.
Proof.
  intros H. unfold tick_of. replace (last - (last + k * 1000000000))%Z with ((- k) * 1000000000)%Z by lia.
  destruct (val_whole (- k) ltac:(lia)) as [V F]. set (s := duration_Seconds _) in *. cbn [fabs flt NFc F64Num].
  destruct f1_val as [V1 F1].
  assert (Fa : fin (Babs s)) by (unfold fin in *; now rewrite is_finite_Babs).
  assert (Va : val (Babs s) = IZR k).
  { unfold val. rewrite B2R_Babs. change (B2R s) with (val s). rewrite V, opp_IZR, Rabs_Ropp. apply Rabs_pos_eq, (IZR_le 0). lia. }
  rewrite (ltb_val _ _ Fa F1), Va, V1. rewrite Rlt_bool_false; [exact Va|]. apply (IZR_le 1). lia.
Qed.
End F.
