(** Curves over the reals: the control weights are binomial coefficients, Point is a Bernstein
    polynomial. *)
From Coq Require Import Reals Lra Lia List Binomial.
From Verif.Model Require Import Base Num NumR Curve.
From Verif.Spec Require Import RealSpec TypesSpec.
Import ListNotations.
Open Scope R_scope.

(** ** Sums *)
Lemma rsum_nil : rsum [] = 0.
Proof. reflexivity. Qed.
Lemma rsum_cons x l : rsum (x :: l) = x + rsum l.
Proof. reflexivity. Qed.
Lemma rsum_app a b : rsum (a ++ b) = rsum a + rsum b.
Proof. induction a as [|x a IH]; cbn [app]; rewrite ?rsum_nil, ?rsum_cons, ?IH; lra. Qed.

Lemma rsum_seq_S f k : rsum (map f (seq 0 (S k))) = rsum (map f (seq 0 k)) + f k.
Proof. rewrite seq_S, map_app, rsum_app. cbn [map Nat.add]. rewrite rsum_cons, rsum_nil. lra. Qed.

Lemma rsum_f_R0 f k : rsum (map f (seq 0 (S k))) = sum_f_R0 f k.
Proof.
  induction k as [|k IH]; [cbn; lra|].
  rewrite rsum_seq_S, IH. reflexivity.
Qed.

Lemma rsum_le {A} (f g : A -> R) l : (forall x, In x l -> f x <= g x) -> rsum (map f l) <= rsum (map g l).
Proof.
  induction l as [|x l IH]; intro H; cbn; [lra|].
  apply Rplus_le_compat; [apply H; now left| apply IH; intros; apply H; now right].
Qed.
Lemma rsum_ext {A} (f g : A -> R) l : (forall x, In x l -> f x = g x) -> rsum (map f l) = rsum (map g l).
Proof.
  induction l as [|x l IH]; intro H; cbn; [lra|].
  f_equal; [apply H; now left| apply IH; intros; apply H; now right].
Qed.
Lemma rsum_scal {A} c (f : A -> R) l : rsum (map (fun x => c * f x) l) = c * rsum (map f l).
Proof. induction l as [|x l IH]; cbn [map]; rewrite ?rsum_nil, ?rsum_cons, ?IH; lra. Qed.

(** ** Bernstein polynomials *)
Definition bern (m : nat) (t : R) (i : nat) : R := C m i * t ^ i * (1 - t) ^ (m - i).

Lemma C_pos m i : 0 <= C m i.
Proof.
  unfold C. apply Rmult_le_pos; [apply pos_INR|].
  apply Rlt_le, Rinv_0_lt_compat, Rmult_lt_0_compat; apply INR_fact_lt_0.
Qed.
Lemma C_0 m : C m 0 = 1.
Proof. unfold C. rewrite Nat.sub_0_r. cbn [fact]. change (INR 1) with 1. field. apply INR_fact_neq_0. Qed.
Lemma C_full m : C m m = 1.
Proof. unfold C. rewrite Nat.sub_diag. cbn [fact]. change (INR 1) with 1. field. apply INR_fact_neq_0. Qed.

Lemma fact_S k : INR (fact (S k)) = INR (S k) * INR (fact k).
Proof. now rewrite fact_simpl, mult_INR. Qed.

Lemma C_step m i : (i < m)%nat -> C m (S i) = C m i * (INR (m - i) / INR (S i)).
Proof.
  intro H. unfold C.
  replace (m - i)%nat with (S (m - S i)) by lia.
  rewrite !fact_S. pose proof (INR_fact_neq_0 i). pose proof (INR_fact_neq_0 (m - S i)).
  pose proof (not_0_INR (S i) ltac:(lia)). pose proof (not_0_INR (S (m - S i)) ltac:(lia)).
  field. repeat split; assumption.
Qed.
Lemma C_absorb m i : (i <= m)%nat -> INR (S i) * C (S m) (S i) = INR (S m) * C m i.
Proof.
  intro H. unfold C. replace (S m - S i)%nat with (m - i)%nat by lia.
  rewrite !fact_S. pose proof (INR_fact_neq_0 i). pose proof (INR_fact_neq_0 (m - i)).
  pose proof (not_0_INR (S i) ltac:(lia)).
  field. repeat split; assumption.
Qed.

Lemma bern_pos m t i : 0 <= t <= 1 -> 0 <= bern m t i.
Proof.
  intro H. unfold bern. apply Rmult_le_pos; [apply Rmult_le_pos; [apply C_pos|]|]; apply pow_le; lra.
Qed.
Lemma bern_sum m t : rsum (map (bern m t) (seq 0 (S m))) = 1.
Proof.
  rewrite rsum_f_R0. pose proof (binomial t (1 - t) m) as B. unfold bern. rewrite <- B.
  replace (t + (1 - t)) with 1 by lra. apply pow1.
Qed.
Lemma bern_mean m t : rsum (map (fun i => INR i * bern m t i) (seq 0 (S m))) = t * INR m.
Proof.
  destruct m as [|m].
  { cbn. lra. }
  rewrite <- cons_seq. cbn [map]. rewrite <- seq_shift, map_map.
  change (rsum (?a :: ?l)) with (a + rsum l). change (INR 0) with 0. rewrite Rmult_0_l, Rplus_0_l.
  rewrite (rsum_ext _ (fun i => (t * INR (S m)) * bern m t i)).
  - rewrite rsum_scal, bern_sum. lra.
  - intros i Hi. apply in_seq in Hi. unfold bern. replace (S m - S i)%nat with (m - i)%nat by lia.
    rewrite <- !Rmult_assoc. rewrite (C_absorb m i) by lia. cbn [pow]. ring.
Qed.

(** ** Weights *)
Lemma next_weight_binomial n i w : (i < n)%nat -> (forall j, i = S j -> w = C (n - 1) j) ->
  next_weight n i w = C (n - 1) i.
Proof.
  intros H W. destruct i as [|[|i]].
  - cbn. now rewrite C_0.
  - cbn -[C]. rewrite (C_step (n - 1) 0) by lia. rewrite C_0, Nat.sub_0_r.
    rewrite minus_INR by lia. rewrite INR_IZR_INZ. change (INR 1) with 1. unfold f1. cbn. lra.
  - unfold next_weight. rewrite (W (S i) eq_refl). rewrite (C_step (n - 1) (S i)) by lia.
    change fmul with Rmult. change fdiv with Rdiv. change (@fofZ R RNum) with IZR.
    f_equal. f_equal; rewrite INR_IZR_INZ; f_equal; lia.
Qed.

Definition weighed (n : nat) (p : ctrl R) (i : nat) : ctrl R :=
  mkCtrl (vp p) (mkPt (X (vp p) * C (n - 1) i) (Y (vp p) * C (n - 1) i)).

Lemma weigh_binomial n g k i w : (i + k <= n)%nat -> (forall j, i = S j -> w = C (n - 1) j) ->
  weigh n i w (map g (seq i k)) = map (fun j => weighed n (g j) j) (seq i k).
Proof.
  revert i w; induction k as [|k IH]; intros i w H W; [reflexivity|].
  cbn [seq map weigh]. rewrite next_weight_binomial by (auto; lia).
  rewrite (IH (S i)); [reflexivity | lia | intros j E; now injection E as <-].
Qed.

(** ** Evaluation *)
Fixpoint ev (t u : R) (l : list R) : list R :=
  match l with [] => [] | c :: r => c * u :: ev t (u * t) r end.
Fixpoint sb (t1 tt p : R) (rl : list R) : R :=
  match rl with [] => p | q :: r => sb t1 (tt * t1) (p + q * tt) r end.
Fixpoint horner_back (t1 : R) (rl : list R) : R :=
  match rl with [] => 0 | q :: r => q + t1 * horner_back t1 r end.

Lemma sb_horner t1 tt p rl : sb t1 tt p rl = p + tt * horner_back t1 rl.
Proof. revert tt p; induction rl as [|q rl IH]; intros; cbn; [lra|]. rewrite IH. lra. Qed.
Lemma horner_app t1 a b : horner_back t1 (a ++ b) = horner_back t1 a + t1 ^ List.length a * horner_back t1 b.
Proof. induction a as [|x a IH]; cbn; [lra|]. rewrite IH. lra. Qed.

Lemma ev_length t u l : List.length (ev t u l) = List.length l.
Proof. revert u; induction l; intros; cbn; auto. Qed.

(** the value of the loops on the control values [l] *)
Lemma horner_ev t1 t u l k (f : nat -> R) : l = map f (seq k (List.length l)) ->
  horner_back t1 (rev (ev t u l)) =
  u * rsum (map (fun j => f (k + j)%nat * t ^ j * t1 ^ (List.length l - 1 - j)) (seq 0 (List.length l))).
Proof.
  revert u k; induction l as [|c l IH]; intros u k E; [cbn; lra|].
  cbn [List.length seq map] in E. injection E as Ec El.
  cbn [ev rev]. rewrite horner_app, rev_length, ev_length.
  rewrite (IH (u * t) (S k) El).
  cbn [List.length]. replace (S (List.length l) - 1)%nat with (List.length l) by lia.
  rewrite <- cons_seq. cbn [map]. rewrite <- seq_shift, map_map.
  change (rsum (?a :: ?l)) with (a + rsum l). rewrite Nat.add_0_r, Nat.sub_0_r, <- Ec.
  cbn [horner_back pow].
  rewrite (rsum_ext (fun x => f (k + S x)%nat * (t * t ^ x) * t1 ^ (List.length l - S x))
             (fun x => t * (f (S k + x)%nat * t ^ x * t1 ^ (List.length l - 1 - x)))).
  - rewrite rsum_scal. lra.
  - intros x Hx. apply in_seq in Hx. replace (k + S x)%nat with (S k + x)%nat by lia.
    replace (List.length l - S x)%nat with (List.length l - 1 - x)%nat by lia. lra.
Qed.

Lemma eval_Y t u l : map (fun q => Y (vp q)) (eval_vp t u l) = ev t u (map (fun q => Y (cp q)) l).
Proof. revert u; induction l as [|c l IH]; intros; cbn; [reflexivity|]. f_equal. apply IH. Qed.
Lemma eval_X t u l : map (fun q => X (vp q)) (eval_vp t u l) = ev t u (map (fun q => X (cp q)) l).
Proof. revert u; induction l as [|c l IH]; intros; cbn; [reflexivity|]. f_equal. apply IH. Qed.
Lemma eval_cp {T} {N : Num T} t u (l : list (ctrl T)) : map (@cp T) (eval_vp t u l) = map (@cp T) l.
Proof. revert u; induction l as [|c l IH]; intros; cbn; [reflexivity|]. f_equal. apply IH. Qed.
Lemma sum_back_Y t1 tt p l : Y (sum_back t1 tt p l) = sb t1 tt (Y p) (map (fun q => Y (vp q)) l).
Proof. revert tt p; induction l as [|c l IH]; intros; cbn; [reflexivity|]. now rewrite IH. Qed.
Lemma sum_back_X t1 tt p l : X (sum_back t1 tt p l) = sb t1 tt (X p) (map (fun q => X (vp q)) l).
Proof. revert tt p; induction l as [|c l IH]; intros; cbn; [reflexivity|]. now rewrite IH. Qed.

(** the control points a (re)generated curve has, up to the scratch fields *)
Definition generated (min max : R) (mode : Z) (n : nat) (draws : nat -> R) (c : curve R) : Prop :=
  (0 < n)%nat /\ cv_mode c = mode /\ cv_min c = min /\ cv_max c = max /\
  map (@cp R) (cv_points c) =
  map (fun i => mkPt (INR i * C (n - 1) i) (control_y min max mode n i (draws i) * C (n - 1) i)) (seq 0 n).

Lemma generated_length min max mode n draws c : generated min max mode n draws c ->
  List.length (cv_points c) = n.
Proof.
  intros (_ & _ & _ & _ & H). apply (f_equal (@List.length _)) in H.
  now rewrite !map_length, seq_length in H.
Qed.

Lemma vertices_weigh min max mode n draws :
  map (@cp R) (weigh n 0 f0 (vertices min max mode n draws)) =
  map (fun i => mkPt (INR i * C (n - 1) i) (control_y min max mode n i (draws i) * C (n - 1) i)) (seq 0 n).
Proof.
  unfold vertices. rewrite weigh_binomial by (try lia; intros; discriminate).
  rewrite map_map. apply map_ext. intro i. cbn -[C control_y]. f_equal. now rewrite INR_IZR_INZ.
Qed.

Lemma New_generated min max k mode draws :
  generated min max mode (Z.to_nat (points_for k)) draws (curve_New min max k mode draws).
Proof.
  unfold curve_New, points_for, defaultControlPoint.
  replace (if (0 <? k)%Z then k else 4%Z) with (if (k <=? 0)%Z then 4%Z else k)
    by (rewrite Z.leb_antisym; destruct (0 <? k)%Z; reflexivity).
  split; [|cbn [cv_mode cv_min cv_max cv_points]; repeat split; apply vertices_weigh].
  destruct (Z.leb_spec k 0); lia.
Qed.

Lemma Shuffle_generated min max mode n draws draws' c : generated min max mode n draws c ->
  generated min max mode n draws' (curve_Shuffle c draws').
Proof.
  intro G. pose proof (generated_length _ _ _ _ _ _ G) as L. destruct G as (Hn & Em & E1 & E2 & _).
  unfold curve_Shuffle. rewrite L, Em, E1, E2.
  split; [assumption|]. cbn [cv_mode cv_min cv_max cv_points]. repeat split. apply vertices_weigh.
Qed.

Lemma Point_generated min max mode n draws c t : generated min max mode n draws c ->
  exists p c', curve_Point c t = Ret (p, c') /\ generated min max mode n draws c' /\
    Y p = rsum (map (fun i => control_y min max mode n i (draws i) * bern (n - 1) t i) (seq 0 n)) /\
    X p = t * INR (n - 1).
Proof.
  intro G. pose proof (generated_length _ _ _ _ _ _ G) as L. destruct G as (Hn & Em & E1 & E2 & E).
  unfold curve_Point. destruct (cv_points c) as [|p0 rest] eqn:Ep; [cbn in L; lia|].
  set (pts := mkCtrl (cp p0) (cp p0) :: eval_vp t t rest).
  assert (HY : map (fun q => Y (vp q)) pts = ev t 1 (map (fun q => Y (cp q)) (p0 :: rest))).
  { cbn [pts map ev vp]. rewrite eval_Y. now rewrite Rmult_1_r, Rmult_1_l. }
  assert (HX : map (fun q => X (vp q)) pts = ev t 1 (map (fun q => X (cp q)) (p0 :: rest))).
  { cbn [pts map ev vp]. rewrite eval_X. now rewrite Rmult_1_r, Rmult_1_l. }
  destruct (rev pts) as [|last back] eqn:Er.
  { apply (f_equal (@List.length _)) in Er. rewrite rev_length in Er. discriminate. }
  change (@fsub R RNum f1 t) with (1 - t).
  exists (sum_back (1 - t) (1 - t) (vp last) back), (mkCurve pts (cv_mode c) (cv_min c) (cv_max c)).
  split; [reflexivity|].
  assert (Lc : List.length (p0 :: rest) = n) by exact L.
  split; [|split].
  - split; [assumption|]. cbn [cv_mode cv_min cv_max cv_points]. repeat split; auto.
    cbn [pts map]. rewrite eval_cp. exact E.
  - rewrite sum_back_Y, sb_horner.
    assert (Hb : Y (vp last) + (1 - t) * horner_back (1 - t) (map (fun q => Y (vp q)) back)
                 = horner_back (1 - t) (rev (map (fun q => Y (vp q)) pts))).
    { rewrite <- map_rev, Er. reflexivity. }
    rewrite Hb, HY.
    rewrite (horner_ev (1 - t) t 1 _ 0 (fun i => control_y min max mode n i (draws i) * C (n - 1) i)).
    + rewrite map_length, Lc, Rmult_1_l. apply rsum_ext. intros i Hi. rewrite Nat.add_0_l. unfold bern. ring.
    + rewrite map_length, Lc. rewrite <- (map_map (@cp R) (@Y R)), E, map_map. reflexivity.
  - rewrite sum_back_X, sb_horner.
    assert (Hb : X (vp last) + (1 - t) * horner_back (1 - t) (map (fun q => X (vp q)) back)
                 = horner_back (1 - t) (rev (map (fun q => X (vp q)) pts))).
    { rewrite <- map_rev, Er. reflexivity. }
    rewrite Hb, HX.
    rewrite (horner_ev (1 - t) t 1 _ 0 (fun i => INR i * C (n - 1) i)).
    + rewrite map_length, Lc, Rmult_1_l.
      rewrite (rsum_ext _ (fun i => INR i * bern (n - 1) t i)).
      * destruct n as [|m]; [lia|]. replace (S m - 1)%nat with m by lia. apply bern_mean.
      * intros i Hi. rewrite Nat.add_0_l. unfold bern. ring.
    + rewrite map_length, Lc. rewrite <- (map_map (@cp R) (@X R)), E, map_map. reflexivity.
Qed.

Lemma run_generated min max mode n draws c ops : generated min max mode n draws c ->
  exists c', run_curve c ops = Ret c' /\ generated min max mode n (latest draws ops) c'.
Proof.
  revert c draws; induction ops as [|[d|t] ops IH]; intros c draws G; cbn [run_curve run_curve1 latest].
  - now exists c.
  - cbn [bind]. apply IH. eapply Shuffle_generated; eassumption.
  - destruct (Point_generated _ _ _ _ _ _ t G) as (p & c' & -> & G' & _). cbn [bind]. now apply IH.
Qed.

(** ** Values *)
Lemma control_y_range min max mode n i r : min <= max -> 0 <= r < 1 ->
  min <= control_y min max mode n i r <= max.
Proof.
  intros H Hr. unfold control_y, randomFloat.
  destruct (_ && _); [lra|]. destruct (_ && _); [lra|].
  change (min <= min + r * (max - min) <= max). nra.
Qed.

Lemma bern_mix f m t lo hi : 0 <= t <= 1 -> (forall i, lo <= f i <= hi) ->
  lo <= rsum (map (fun i => f i * bern m t i) (seq 0 (S m))) <= hi.
Proof.
  intros Ht H. split.
  - rewrite <- (Rmult_1_r lo), <- (bern_sum m t), <- rsum_scal. apply rsum_le. intros i _.
    apply Rmult_le_compat_r; [now apply bern_pos|apply H].
  - rewrite <- (Rmult_1_r hi), <- (bern_sum m t) at 1. rewrite <- rsum_scal. apply rsum_le. intros i _.
    apply Rmult_le_compat_r; [now apply bern_pos|apply H].
Qed.

Lemma bern_0 m i : bern m 0 i = if Nat.eqb i 0 then 1 else 0.
Proof.
  unfold bern. destruct i as [|i]; cbn [Nat.eqb].
  - rewrite C_0, Rminus_0_r, pow1. cbn. lra.
  - rewrite pow_ne_zero by lia. lra.
Qed.
Lemma bern_1 m i : (i <= m)%nat -> bern m 1 i = if Nat.eqb i m then 1 else 0.
Proof.
  intro H. unfold bern. rewrite pow1. destruct (Nat.eqb_spec i m) as [->|D].
  - rewrite C_full, Nat.sub_diag. cbn. lra.
  - replace (1 - 1) with 0 by lra. rewrite pow_ne_zero by lia. lra.
Qed.

Lemma rsum_zero {A} (f : A -> R) l : (forall x, In x l -> f x = 0) -> rsum (map f l) = 0.
Proof.
  intro H. induction l as [|x l IH]; cbn [map]; rewrite ?rsum_nil, ?rsum_cons; [reflexivity|].
  rewrite IH, H by (intros; try apply H; cbn; auto). lra.
Qed.
Lemma value_at_0 f m : rsum (map (fun i => f i * bern m 0 i) (seq 0 (S m))) = f 0%nat.
Proof.
  rewrite <- cons_seq. cbn [map]. change (rsum (?a :: ?l)) with (a + rsum l).
  rewrite rsum_zero; [rewrite bern_0; cbn; lra|].
  intros i Hi. apply in_seq in Hi. rewrite bern_0. destruct i; [lia|]. cbn. lra.
Qed.
Lemma value_at_1 f m : rsum (map (fun i => f i * bern m 1 i) (seq 0 (S m))) = f m.
Proof.
  rewrite rsum_seq_S, rsum_zero.
  - rewrite bern_1, Nat.eqb_refl by lia. lra.
  - intros i Hi. apply in_seq in Hi. rewrite bern_1 by lia. destruct (Nat.eqb_spec i m); [lia|lra].
Qed.

Lemma has_mode_testbit mode k : (0 <= k)%Z -> has_mode mode (2 ^ k) = Z.testbit mode k.
Proof.
  intro Hk. unfold has_mode. destruct (Z.testbit mode k) eqn:E.
  - apply Bool.negb_true_iff, Z.eqb_neq. intro H.
    assert (B : Z.testbit (Z.land mode (2 ^ k)) k = false) by (rewrite H; apply Z.bits_0).
    rewrite Z.land_spec, E, Z.pow2_bits_true in B by assumption. discriminate.
  - apply Bool.negb_false_iff, Z.eqb_eq. apply Z.bits_inj'. intros j Hj.
    rewrite Z.land_spec, Z.bits_0, Z.pow2_bits_eqb by assumption.
    destruct (Z.eqb_spec k j) as [<-|]; [now rewrite E | apply Bool.andb_false_r].
Qed.
