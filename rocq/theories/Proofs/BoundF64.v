(** C81: how far the progress of a journey can exceed the lengths in binary64. *)
From Coq Require Import Reals Lra Lia ZArith.
From Flocq Require Import Core BinarySingleNaN Relative Plus_error.
From Verif.Model Require Import Base Num NumF64 Geo Curve PropMap Types TypesSnap Track Route Navigator.
From Verif.Spec Require Import ListSpec TrackSpec RouteSpec NavSpec NumLaws RealSpec JourneySpec.
From Verif.Proofs Require Import BaseLemmas TrackLemmas RouteLemmas F64Lemmas NavLemmas NavSteps NavProofs NavProofs2
  NavReal NavReal3 NavReal6 JourneyHist JourneyAny JourneyF64 VisitF64.
Open Scope R_scope.

#[local] Instance prec_pos : Prec_gt_0 53 := eq_refl.
#[local] Instance vexp : Valid_exp fexp64 := FLT_exp_valid (-1074) 53.

Definition eps53 : R := / 2 ^ 53.
Definition g51 : R := 1 + / 2 ^ 51.

Lemma eps_small : 0 < eps53 < / 1000 /\ 1 <= g51 /\ 1 + eps53 <= g51 * (1 - eps53).
Proof. unfold eps53, g51. lra. Qed.

Lemma rnd_sum x y : fmt x -> fmt y -> 0 <= x + y -> (x + y) * (1 - eps53) <= rnd (x + y) <= (x + y) * (1 + eps53).
Proof.
  intros Fx Fy H.
  destruct (FLT_plus_error_N_ex radix2 (-1074) 53 (fun x => negb (Z.even x)) x y Fx Fy) as (e & He & E).
  change (rnd (x + y) = (x + y) * (1 + e)) in E. rewrite E.
  assert (U : u_ro radix2 53 = eps53).
  { unfold u_ro, eps53. change (/ 2 * / IZR (Z.pow_pos 2 52) = / 2 ^ 53).
    replace (IZR (Z.pow_pos 2 52)) with (2 ^ 52) by (rewrite (pow_IZR 2 52); reflexivity).
    replace (2 ^ 53) with (2 * 2 ^ 52) by ring. field. }
  rewrite U in He. destruct eps_small as (P & _).
  assert (B : eps53 / (1 + eps53) <= eps53).
  { apply Rmult_le_reg_r with (1 + eps53); [lra|]. unfold Rdiv. rewrite Rmult_assoc, Rinv_l by lra. nra. }
  apply Rabs_le_inv in He. split; apply Rmult_le_compat_l; lra.
Qed.

Lemma growth_S k : growth (S k) = g51 * growth k. Proof. reflexivity. Qed.
Lemma growth_ge k : 1 <= growth k.
Proof. induction k; [unfold growth; cbn; lra|]. rewrite growth_S. destruct eps_small as (_ & G & _). nra. Qed.
Lemma growth_mono k j : (k <= j)%nat -> growth k <= growth j.
Proof.
  induction 1; [lra|]. rewrite growth_S. destruct eps_small as (_ & G & _). pose proof (growth_ge m). nra.
Qed.

(** a counter [p] that lags behind by no more than rounding errors *)
Lemma add_up A B c d p total : 1 <= A -> 0 <= B -> 0 <= val c -> 0 <= val d -> fin p -> fin d ->
  0 <= val p <= A * (B + val c) -> B + rnd (val c + val d) <= total -> A * g51 * total <= big ->
  fin (f64_add p d) /\ 0 <= val (f64_add p d) <= g51 * A * (B + rnd (val c + val d)).
Proof.
  intros HA HB Hc Hd Fp Fd Hp Ht Hbig. destruct eps_small as (P & G & E).
  destruct (rnd_sum (val c) (val d) (fmt_val c) (fmt_val d) ltac:(lra)) as [L _].
  destruct (rnd_sum (val p) (val d) (fmt_val p) (fmt_val d) ltac:(lra)) as [L0 U].
  set (q := rnd (val c + val d)) in *.
  assert (S0 : val p + val d <= A * (B + (val c + val d))) by nra.
  assert (S1 : (1 - eps53) * (B + (val c + val d)) <= B + q) by nra.
  assert (S2 : (1 + eps53) * (B + (val c + val d)) <= g51 * (B + q)).
  { apply Rle_trans with (g51 * ((1 - eps53) * (B + (val c + val d)))); [|apply Rmult_le_compat_l; lra].
    rewrite <- Rmult_assoc. apply Rmult_le_compat_r; [lra|lra]. }
  assert (S3 : (1 + eps53) * (val p + val d) <= g51 * A * (B + q)).
  { apply Rle_trans with ((1 + eps53) * (A * (B + (val c + val d)))); [apply Rmult_le_compat_l; lra|].
    replace ((1 + eps53) * (A * (B + (val c + val d)))) with (A * ((1 + eps53) * (B + (val c + val d)))) by ring.
    replace (g51 * A * (B + q)) with (A * (g51 * (B + q))) by ring. apply Rmult_le_compat_l; lra. }
  assert (S4 : g51 * A * (B + q) <= big).
  { eapply Rle_trans; [|exact Hbig]. replace (A * g51 * total) with (g51 * A * total) by ring.
    apply Rmult_le_compat_l; [nra|exact Ht]. }
  destruct (add_ok p d Fp Fd) as [V F].
  { rewrite Rabs_pos_eq by lra. assert (val p + val d <= (1 + eps53) * (val p + val d)) by nra. lra. }
  split; [exact F|]. rewrite V. split; [|lra]. assert (0 <= (val p + val d) * (1 - eps53)) by nra. lra.
Qed.

Section S.
Context (m : MathLib).
#[local] Instance NF4 : Num f64 := F64Num m.
Context {J : JsonLib f64}.
Implicit Types n : navigator f64.

Definition ln (s : segment f64) : R := val (sg_dist s).
Definition mark : R := val (@fdec f64 NF4 1 10).

Definition ps n : R := before ln (cur_segs n) (n_si n) + val (n_csd n).
Definition pt n : R := before exact_track (cur_tracks n) (n_ti n) + ps n.
Definition pr n : R := before exact_route (n_routes n) (n_ri n) + pt n.

Definition lens n : Prop := Forall (lengths_ok length_ok) (n_routes n).

Lemma length_ok_val x : length_ok x = true -> fin x /\ 0 <= val x.
Proof.
  unfold length_ok. intros H. apply andb_prop in H as [F H]. split; [exact F|].
  destruct (ofZ_ok 0) as [V0 F0]; [lia|]. rewrite <- V0. exact (leb_fin _ _ F0 F H).
Qed.

Lemma ln_nonneg t : Forall (fun s => length_ok (sg_dist s) = true) (tk_segments t) -> Forall (fun s => 0 <= ln s) (tk_segments t).
Proof. intros H. eapply Forall_impl; [|exact H]. intros s Hs. now apply length_ok_val in Hs. Qed.

Lemma track_nonneg t : Forall (fun s => length_ok (sg_dist s) = true) (tk_segments t) -> 0 <= exact_track t.
Proof. intros H. apply ln_nonneg in H. unfold exact_track. apply rsum_nonneg. rewrite Forall_map. exact H. Qed.
Lemma route_nonneg r : lengths_ok length_ok r -> 0 <= exact_route r.
Proof.
  intros H. apply rsum_nonneg. rewrite Forall_map. eapply Forall_impl; [|exact H]. intros t Ht. now apply track_nonneg.
Qed.

Lemma tracks_nonneg n : lens n -> Forall (fun t => 0 <= exact_track t) (cur_tracks n).
Proof.
  intros H. unfold cur_tracks. destruct (cur_route n) as [r|] eqn:E; [|constructor].
  pose proof (proj1 (Forall_forall _ _) H r (zget_In _ _ _ E)) as Hr.
  eapply Forall_impl; [|exact Hr]. intros t Ht. now apply track_nonneg.
Qed.
Lemma segs_nonneg n : lens n -> Forall (fun s => 0 <= ln s) (cur_segs n).
Proof.
  intros H. unfold cur_segs. destruct (cur_track n) as [t|] eqn:E; [|constructor].
  apply cur_track_zget in E as (r & Er & Et).
  pose proof (proj1 (Forall_forall _ _) H r (zget_In _ _ _ Er)) as Hr.
  pose proof (proj1 (Forall_forall _ _) Hr t (zget_In _ _ _ Et)) as Ht. now apply ln_nonneg.
Qed.
Lemma routes_nonneg n : lens n -> Forall (fun r => 0 <= exact_route r) (n_routes n).
Proof. intros H. eapply Forall_impl; [|exact H]. intros r Hr. now apply route_nonneg. Qed.

Lemma nonempty_get n : segment_IsEmpty (cur_seg n) = false -> zget (cur_segs n) (n_si n) = Some (cur_seg n).
Proof. exact (nonempty_zget (zero_eq_zero_F64 m) n). Qed.

Definition seated n : Prop :=
  lens n /\ fin (n_csd n) /\ 0 <= val (n_csd n) /\
  (segment_IsEmpty (cur_seg n) = true -> n_csd n = f0) /\
  (segment_IsEmpty (cur_seg n) = false -> val (n_csd n) <= ln (cur_seg n)) /\
  (0 <= n_si n)%Z /\ (0 <= n_ti n)%Z /\ (0 <= n_ri n)%Z.

Lemma val0 : val (@f0 f64 NF4) = 0 /\ fin (@f0 f64 NF4).
Proof. destruct (ofZ_ok 0) as [V0 F0]; [lia|]. auto. Qed.

Lemma zero_seated n : lens n -> n_csd n = f0 -> (0 <= n_si n)%Z -> (0 <= n_ti n)%Z -> (0 <= n_ri n)%Z -> seated n.
Proof.
  intros H E A B C. destruct val0 as [V0 F0]. unfold seated. rewrite E, V0. repeat split; auto; [lra|].
  intros He. apply nonempty_get in He.
  exact (proj1 (Forall_forall (fun s => 0 <= ln s) _) (segs_nonneg n H) _ (zget_In _ _ _ He)).
Qed.

Lemma ps_le n : seated n -> ps n <= rsum (map ln (cur_segs n)).
Proof.
  intros (H & _ & _ & Hc & Hu & _). unfold ps. destruct (segment_IsEmpty (cur_seg n)) eqn:E.
  - rewrite Hc by reflexivity. destruct val0 as [-> _]. pose proof (before_total ln (cur_segs n) (n_si n) (segs_nonneg n H)). lra.
  - specialize (Hu eq_refl). apply nonempty_get in E.
    pose proof (before_at ln _ _ _ (segs_nonneg n H) E). lra.
Qed.
Lemma pt_le n : seated n -> pt n <= rsum (map exact_track (cur_tracks n)).
Proof.
  intros Hs. pose proof (ps_le n Hs) as P. pose proof Hs as (H & _). unfold pt.
  unfold cur_segs in P. destruct (cur_track n) as [t|] eqn:E.
  - apply cur_track_zget in E as (r & Er & Et). pose proof (tracks_nonneg n H) as Q. unfold cur_tracks in *. rewrite Er in *.
    pose proof (before_at exact_track _ _ _ Q Et) as B.
    change (exact_track t) with (rsum (map ln (tk_segments t))) in B. lra.
  - pose proof (before_total exact_track (cur_tracks n) (n_ti n) (tracks_nonneg n H)). change (rsum (map ln [])) with 0 in P. lra.
Qed.
Lemma pr_le n : seated n -> pr n <= exact_total n.
Proof.
  intros Hs. pose proof (pt_le n Hs) as P. pose proof Hs as (H & _). unfold pr, exact_total.
  unfold cur_tracks in P. destruct (cur_route n) as [r|] eqn:E.
  - pose proof (before_at exact_route _ _ _ (routes_nonneg n H) E) as B. change (exact_route r) with (rsum (map exact_track (rt_tracks r))) in B. lra.
  - pose proof (before_total exact_route (n_routes n) (n_ri n) (routes_nonneg n H)). change (rsum (map exact_track [])) with 0 in P. lra.
Qed.

(** the invariant after [k] calls *)
Definition bounded k n : Prop :=
  seated n /\
  (fin (n_ctd n) /\ 0 <= val (n_ctd n) <= growth k * ps n) /\
  (fin (n_crd n) /\ 0 <= val (n_crd n) <= growth k * pt n) /\
  (fin (n_cd n) /\ 0 <= val (n_cd n) <= growth k * (pr n + mark)).

Lemma parts n : seated n -> 0 <= before ln (cur_segs n) (n_si n) /\ 0 <= before exact_track (cur_tracks n) (n_ti n) /\
  0 <= before exact_route (n_routes n) (n_ri n) /\ 0 <= val (n_csd n).
Proof.
  intros (H & _ & C & _). repeat split; [apply before_nonneg; now apply segs_nonneg|apply before_nonneg; now apply tracks_nonneg
    |apply before_nonneg; now apply routes_nonneg|exact C].
Qed.

(** the same counters further on *)
Lemma bounded_more k n n' : bounded k n -> seated n' -> n_ctd n' = n_ctd n -> n_crd n' = n_crd n -> n_cd n' = n_cd n ->
  ps n <= ps n' -> pt n <= pt n' -> pr n <= pr n' -> bounded k n'.
Proof.
  intros (_ & (A1 & A2) & (B1 & B2) & (C1 & C2)) Hs E1 E2 E3 P1 P2 P3. pose proof (growth_ge k) as G.
  unfold bounded. rewrite E1, E2, E3. split; [exact Hs|]. split; [|split]; (split; [assumption|]); nra.
Qed.

Lemma bounded_S k n : bounded k n -> bounded (S k) n.
Proof.
  intros (Hs & (A1 & A2) & (B1 & B2) & (C1 & C2)). pose proof (growth_ge k) as G. destruct eps_small as (_ & G1 & _).
  pose proof (parts n Hs) as (Q1 & Q2 & Q3 & Q4).
  assert (M : 0 < mark) by apply (mark_fin m).
  assert (K : forall x, 0 <= x -> growth k * x <= growth (S k) * x).
  { intros x Hx. rewrite growth_S. apply Rmult_le_compat_r; [exact Hx|nra]. }
  assert (N1 : 0 <= ps n) by (unfold ps; lra). assert (N2 : 0 <= pt n) by (unfold pt; lra).
  assert (N3 : 0 <= pr n + mark) by (unfold pr; lra).
  pose proof (K _ N1). pose proof (K _ N2). pose proof (K _ N3).
  split; [exact Hs|]. split; [|split]; (split; [assumption|]); lra.
Qed.

Lemma passed_seated n k : seated n -> seated (passed n k).
Proof.
  intros Hp. destruct k as [|k]; [exact Hp|]. destruct Hp as (H & _ & _ & _ & _ & Hs & Ht & Hr).
  apply zero_seated; cbn; auto; lia.
Qed.
Lemma passed_ps n k : seated n ->
  (forall j, (j < k)%nat -> segment_IsEmpty (cur_seg (passed n j)) = false) ->
  ps n <= ps (passed n k) /\ pt n <= pt (passed n k) /\ pr n <= pr (passed n k).
Proof.
  intros Hp Hk. destruct k as [|k]; [cbn [passed]; lra|]. pose proof Hp as (H & _ & _ & _ & Hu & Hs & _).
  pose proof (Hu (Hk 0%nat ltac:(lia))) as Hu'.
  pose proof (nonempty_get n (Hk 0%nat ltac:(lia))) as Es.
  assert (P : ps n <= ps (passed n (S k))).
  { unfold ps. rewrite passed_csd. destruct val0 as [V0 _]. rewrite V0.
    assert (Ec : cur_segs (passed n (S k)) = cur_segs n) by (unfold cur_segs; now rewrite passed_cur_track).
    rewrite Ec. destruct (passed_same n (S k)) as (_ & _ & _ & -> & _).
    replace (n_si n + Z.of_nat (S k))%Z with (n_si n + 1 + Z.of_nat k)%Z by lia.
    pose proof (before_mono ln (cur_segs n) (segs_nonneg n H) k (n_si n + 1)%Z ltac:(lia)) as B.
    rewrite (before_step _ _ _ _ Es) in B. lra. }
  split; [exact P|].
  assert (P2 : pt n <= pt (passed n (S k))).
  { unfold pt. change (before exact_track (cur_tracks (passed n (S k))) (n_ti (passed n (S k)))) with (before exact_track (cur_tracks n) (n_ti n)). lra. }
  split; [exact P2|]. unfold pr.
  change (before exact_route (n_routes (passed n (S k))) (n_ri (passed n (S k)))) with (before exact_route (n_routes n) (n_ri n)). lra.
Qed.

Lemma passed_bounded k n j : bounded k n ->
  (forall i, (i < j)%nat -> segment_IsEmpty (cur_seg (passed n i)) = false) -> bounded k (passed n j).
Proof.
  intros B Hj. destruct (passed_ps n j (proj1 B) Hj) as (P1 & P2 & P3).
  destruct (passed_same n j) as (_ & _ & _ & _ & E1 & E2 & E3 & _).
  exact (bounded_more k n _ B (passed_seated n j (proj1 B)) E2 E1 E3 P1 P2 P3).
Qed.

Lemma off_bounded k n draw : bounded k n -> bounded k (off_pure n draw).
Proof. unfold off_pure. destruct (n_skip n); [auto|]. destruct (n_rnd n); auto. Qed.

Lemma start_ps n : n_csd n = f0 -> n_si n = 0%Z -> ps n = 0.
Proof. intros E I. unfold ps. rewrite E, I, before_0. destruct val0 as [-> _]. lra. Qed.
Lemma start_pt n : ps n = 0 -> n_ti n = 0%Z -> pt n = 0.
Proof. intros E I. unfold pt. rewrite E, I, before_0. lra. Qed.
Lemma start_pr n : pt n = 0 -> n_ri n = 0%Z -> pr n = 0.
Proof. intros E I. unfold pr. rewrite E, I, before_0. lra. Qed.

Lemma leave_bounded k n : idx_ok n -> n_routes n <> [] -> bounded k n -> bounded k (leave n).
Proof.
  intros Hi Hne B. pose proof B as (Hs & (A1 & A2) & (B1 & B2) & (C1 & C2)).
  pose proof Hs as (H & Hf & Hv & Hc & Hu & Is & It & Ir). destruct val0 as [V0 F0].
  pose proof (growth_ge k) as G. pose proof (parts n Hs) as (Q1 & Q2 & Q3 & Q4).
  assert (M : 0 < mark) by apply (mark_fin m). pose proof (ps_le n Hs) as LS. pose proof (pt_le n Hs) as LT.
  assert (Cases : (exists r t, cur_route n = Some r /\ zget (rt_tracks r) (n_ti n) = Some t /\
     leave n = set_idx (set_cur n f0 (n_crd n) f0 (n_cd n)) (n_ri n) (n_ti n + 1)%Z 0) \/
  (exists r, cur_route n = Some r /\
     leave n = set_idx (set_cur n f0 f0 f0 (n_cd n)) (n_ri n + 1)%Z 0 0) \/
  leave n = set_cur (set_idx n 0 0 0) f0 f0 f0 (fdec 1 10)).
  { apply (leave_cases 0 (fun _ => 0%Z) (fun _ => true) (fun _ => True) n Hi Hne).
    unfold placed. repeat split; auto; try lia. apply Forall_forall. intros r _. apply Forall_forall. intros t _.
    apply Forall_forall. reflexivity. }
  destruct Cases as [(r & t & Er & Et & E)|[(r & Er & E)|E]]; rewrite E; clear E.
  - match goal with |- bounded k ?x => set (n' := x) end.
    assert (Er' : cur_route n' = Some r) by exact Er.
    assert (S' : seated n') by (apply zero_seated; cbn; auto; lia).
    assert (P1 : ps n' = 0) by (apply start_ps; reflexivity).
    assert (P2 : pt n' = before exact_track (cur_tracks n) (n_ti n) + exact_track t).
    { unfold pt. rewrite P1. unfold cur_tracks. rewrite Er', Er. change (n_ti n') with (n_ti n + 1)%Z. rewrite (before_step exact_track _ _ _ Et). lra. }
    assert (L : pt n <= pt n').
    { rewrite P2. unfold pt. rewrite (cur_track_segs n r t Er Et) in LS.
      change (rsum (map ln (tk_segments t))) with (exact_track t) in LS. lra. }
    assert (P3 : pr n <= pr n').
    { unfold pr. change (before exact_route (n_routes n') (n_ri n')) with (before exact_route (n_routes n) (n_ri n)). lra. }
    split; [exact S'|]. split; [|split].
    + split; [exact F0|]. change (n_ctd n') with (@f0 f64 NF4). rewrite V0, P1. lra.
    + split; [exact B1|]. change (n_crd n') with (n_crd n). nra.
    + split; [exact C1|]. change (n_cd n') with (n_cd n). nra.
  - match goal with |- bounded k ?x => set (n' := x) end.
    assert (S' : seated n') by (apply zero_seated; cbn; auto; lia).
    assert (P1 : ps n' = 0) by (apply start_ps; reflexivity).
    assert (P2 : pt n' = 0) by (apply start_pt; [exact P1|reflexivity]).
    assert (P3 : pr n <= pr n').
    { unfold pr. rewrite P2. change (before exact_route (n_routes n') (n_ri n')) with (before exact_route (n_routes n) (n_ri n + 1)).
      rewrite (before_step exact_route _ _ _ Er). unfold cur_tracks in LT. rewrite Er in LT.
      change (rsum (map exact_track (rt_tracks r))) with (exact_route r) in LT. unfold cur_tracks in LT. lra. }
    split; [exact S'|]. split; [|split].
    + split; [exact F0|]. change (n_ctd n') with (@f0 f64 NF4). rewrite V0, P1. lra.
    + split; [exact F0|]. change (n_crd n') with (@f0 f64 NF4). rewrite V0, P2. lra.
    + split; [exact C1|]. change (n_cd n') with (n_cd n). nra.
  - match goal with |- bounded k ?x => set (n' := x) end.
    assert (S' : seated n') by (apply zero_seated; cbn; auto; lia).
    assert (P1 : ps n' = 0) by (apply start_ps; reflexivity).
    assert (P2 : pt n' = 0) by (apply start_pt; [exact P1|reflexivity]).
    assert (P3 : pr n' = 0) by (apply start_pr; [exact P2|reflexivity]).
    split; [exact S'|]. split; [|split].
    + split; [exact F0|]. change (n_ctd n') with (@f0 f64 NF4). rewrite V0, P1. lra.
    + split; [exact F0|]. change (n_crd n') with (@f0 f64 NF4). rewrite V0, P2. lra.
    + destruct (mark_fin m) as [Fm _]. split; [exact Fm|]. change (val (n_cd n')) with mark. rewrite P3. nra.
Qed.

Lemma advance_bounded k n d : bounded k n -> fits n d = true -> Bleb (f64_ofZ 0) d = true ->
  growth (S k) * (exact_total n + mark) <= big -> bounded (S k) (advance n d).
Proof.
  intros B Hf Hd Hbig. pose proof B as (Hs & (A1 & A2) & (B1 & B2) & (C1 & C2)).
  pose proof Hs as (H & Fc & Hv & Hc & Hu & Is & It & Ir).
  apply fits_cases in Hf as [He Hle].
  assert (Hl : length_ok (sg_dist (cur_seg n)) = true).
  { destruct (seg_in_routes (zero_eq_zero_F64 m) _ He) as (r & t & I1 & I2 & I3).
    pose proof (proj1 (Forall_forall _ _) H r I1) as Hr. pose proof (proj1 (Forall_forall _ _) Hr t I2) as Ht.
    exact (proj1 (Forall_forall _ _) Ht _ I3). }
  apply length_ok_val in Hl as [Fl Hl].
  assert (Dn : Bleb (sg_dist (cur_seg n)) (sg_dist (cur_seg n)) = true).
  { rewrite (Bleb_correct _ _ _ _ Fl Fl). apply Rle_bool_true. lra. }
  destruct (add_fits (n_csd n) d _ _ Fc Fl Hv Hd Dn Hle) as (F1 & Fd & V1 & Hd0 & L1).
  set (n' := advance n d).
  assert (Ec : n_csd n' = f64_add (n_csd n) d) by reflexivity.
  assert (V' : 0 <= val (n_csd n')).
  { rewrite Ec, V1. apply round_ge_generic; [apply vexp|apply valid_rnd_N|apply generic_format_0|lra]. }
  assert (S' : seated n').
  { split; [exact H|]. split; [exact F1|]. split; [exact V'|]. split; [|split; [|auto]].
    - intros X. change (segment_IsEmpty (cur_seg n) = true) in X. congruence.
    - intros _. exact L1. }
  pose proof (ps_le n' S') as LS. pose proof (pt_le n' S') as LT. pose proof (pr_le n' S') as LR.
  pose proof (parts n Hs) as (Q1 & Q2 & Q3 & Q4). pose proof (growth_ge k) as G. destruct eps_small as (_ & G1 & _).
  assert (M : 0 < mark) by apply (mark_fin m).
  assert (Eps : ps n' = before ln (cur_segs n) (n_si n) + rnd (val (n_csd n) + val d)).
  { unfold ps. rewrite Ec, V1. reflexivity. }
  assert (Ept : pt n' = (before exact_track (cur_tracks n) (n_ti n) + before ln (cur_segs n) (n_si n)) + rnd (val (n_csd n) + val d)).
  { unfold pt. rewrite Eps. change (before exact_track (cur_tracks n') (n_ti n')) with (before exact_track (cur_tracks n) (n_ti n)). lra. }
  assert (Epr : pr n' = (before exact_route (n_routes n) (n_ri n) + before exact_track (cur_tracks n) (n_ti n) + before ln (cur_segs n) (n_si n)) + rnd (val (n_csd n) + val d)).
  { unfold pr. rewrite Ept. change (before exact_route (n_routes n') (n_ri n')) with (before exact_route (n_routes n) (n_ri n)). lra. }
  assert (Etot : exact_total n' = exact_total n) by reflexivity. rewrite Etot in LR.
  rewrite growth_S in Hbig.
  assert (Hb : growth k * g51 * (exact_total n + mark) <= big) by lra.
  unfold ps, pt, pr in A2, B2, C2. unfold pt, ps in B2, C2. unfold ps in C2.
  split; [exact S'|]. rewrite Eps, Ept, Epr, growth_S. rewrite Eps in LS. rewrite Ept in LT. rewrite Epr in LR.
  assert (TS : before ln (cur_segs n) (n_si n) + rnd (val (n_csd n) + val d) <= exact_total n + mark) by lra.
  split; [|split].
  - apply (add_up (growth k) (before ln (cur_segs n) (n_si n)) (n_csd n) d (n_ctd n) (exact_total n + mark)); auto; lra.
  - apply (add_up (growth k) (before exact_track (cur_tracks n) (n_ti n) + before ln (cur_segs n) (n_si n)) (n_csd n) d (n_crd n) (exact_total n + mark));
      auto; lra.
  - pose proof (add_up (growth k) (before exact_route (n_routes n) (n_ri n) + before exact_track (cur_tracks n) (n_ti n)
      + before ln (cur_segs n) (n_si n) + mark) (n_csd n) d (n_cd n) (exact_total n + mark)) as X.
    destruct X as [X1 X2]; [lra|lra|lra|lra|exact C1|exact Fd|lra|lra|lra|].
    split; [exact X1|]. change (val (n_cd n')) with (val (f64_add (n_cd n) d)). lra.
Qed.

Lemma step_bounded k n d draw b n' : nav_wf n -> n_routes n <> [] -> bounded k n -> Bleb (f64_ofZ 0) d = true ->
  growth (S k) * (exact_total n + mark) <= big -> step n d draw b n' -> bounded (S k) n' /\ n_routes n' = n_routes n.
Proof.
  intros [Hi _ _] Hne B Hd Hbig St. destruct St as [j Hj Hf|j Hj Hf Hl|j Hj Hf Hl Hemp Hrel].
  - split; [|destruct (passed_same n j) as (E & _); exact E].
    apply advance_bounded; auto.
    + apply passed_bounded; [exact B|]. intros i Hi'. apply (Hj i Hi').
    + unfold exact_total. destruct (passed_same n j) as (-> & _). exact Hbig.
  - destruct (off_pure_rest (leave n) draw) as (E1 & _). split; [|rewrite E1; apply leave_routes].
    apply bounded_S, off_bounded, leave_bounded; assumption.
  - destruct (off_pure_rest (passed n (S j)) draw) as (E1 & _). split; [|rewrite E1; apply passed_same].
    apply bounded_S, off_bounded, passed_bounded; [exact B|].
    intros i Hi'. destruct (Nat.eq_dec i j) as [->|]; [exact Hemp|apply (Hj i); lia].
Qed.

Lemma ride_bounded K args : forall k n bs n', (k + List.length args <= K)%nat -> nav_wf n -> bounded k n ->
  Forall (fun a => Bleb (f64_ofZ 0) (f64_mul (fst (fst a)) (snd (fst a))) = true) args ->
  growth K * (exact_total n + mark) <= big -> locations n args = Ret (bs, n') ->
  nav_wf n' /\ bounded (k + List.length args) n' /\ n_routes n' = n_routes n.
Proof.
  induction args as [|[[tick speed] draw] args IH]; intros k n bs n' HK W B Ha Hbig H; cbn [locations] in H.
  - injection H as _ <-. rewrite Nat.add_0_r. auto.
  - destruct (NextLocation n tick speed draw) as [[b n1]| |] eqn:E; try discriminate. cbn [bind] in H.
    destruct (locations n1 args) as [[bs' n2]| |] eqn:F; try discriminate. cbn [bind] in H.
    assert (n2 = n') as -> by (injection H; auto). clear H.
    inversion Ha as [|a l Hd Ha']; subst. cbn [fst snd] in Hd.
    assert (W1 : nav_wf n1).
    { destruct (NextLocation_wf (zero_eq_zero_F64 m) n tick speed draw W) as (b' & n3 & E' & W').
      assert (EE : Ret (b, n1) = Ret (b', n3)) by (rewrite <- E; exact E').
      assert (n1 = n3) as -> by (injection EE; auto). exact W'. }
    assert (M : 0 < mark) by apply (mark_fin m).
    assert (P : 0 <= exact_total n + mark).
    { pose proof (pr_le n (proj1 B)). pose proof (parts n (proj1 B)) as (Q1 & Q2 & Q3 & Q4). unfold pr, pt, ps in *. lra. }
    assert (Hbig1 : growth (S k) * (exact_total n + mark) <= big).
    { eapply Rle_trans; [|exact Hbig]. apply Rmult_le_compat_r; [exact P|]. apply growth_mono. cbn in HK. lia. }
    assert (B1 : bounded (S k) n1 /\ n_routes n1 = n_routes n).
    { destruct (NextLocation_inv (zero_eq_zero_F64 m) _ _ _ _ _ _ E) as [(X & _ & ->)|[(X & Off & _ & ->)|(X & _ & _ & St)]].
      - split; [now apply bounded_S|reflexivity].
      - split; [apply bounded_S; exact B|reflexivity].
      - eapply step_bounded; eassumption. }
    destruct B1 as [B1 E1]. assert (T1 : exact_total n1 = exact_total n) by (unfold exact_total; now rewrite E1).
    cbn [List.length]. replace (k + S (List.length args))%nat with (S k + List.length args)%nat by lia.
    rewrite <- E1. eapply IH; try eassumption; [cbn in HK; lia|rewrite T1; exact Hbig].
Qed.

Lemma C81_bound_proof opts uuid draws (n0 : navigator f64) ops n args bs n' :
  navigator_New opts uuid draws = GOk n0 -> Forall (lengths_op length_ok) ops -> run_navs n0 ops = Ret n -> rewound n ->
  Forall (fun '(tick, speed, _) => fle f0 (fmul tick speed) = true) args ->
  growth (List.length args) * (exact_total n + value (fdec 1 10)) <= 2 ^ 1000 ->
  locations n args = Ret (bs, n') ->
  nav_wf n' /\ n_routes n' = n_routes n /\
  (finite (n_ctd n') /\ forall t, CurrentTrack n' = Ret (Some t) ->
     0 <= value (n_ctd n') <= growth (List.length args) * exact_track t) /\
  (finite (n_crd n') /\ forall r, CurrentRoute n' = Ret (Some r) ->
     0 <= value (n_crd n') <= growth (List.length args) * exact_route r) /\
  (finite (n_cd n') /\ 0 <= value (n_cd n') <= growth (List.length args) * (exact_total n + value (fdec 1 10))).
Proof.
  intros H0 Ho H Hr Ha Hb Hl.
  assert (W : nav_wf n) by (eapply reach_wf; [exact H0|exact H|now apply rewound_on]).
  pose proof (lengths_history _ _ _ _ _ _ _ H0 Ho H) as L.
  pose proof (rewound_nonneg n Hr) as (Ec & P1 & P2 & P3). destruct val0 as [V0 F0].
  assert (S0 : seated n) by (apply zero_seated; auto).
  assert (M : 0 < mark) by apply (mark_fin m).
  assert (B0 : bounded 0 n).
  { destruct Hr as (_ & _ & R1 & R2 & R3). pose proof (parts n S0) as (Q1 & Q2 & Q3 & Q4).
    split; [exact S0|]. rewrite R1, R2, R3, V0. unfold growth. cbn [pow]. unfold pr, pt, ps.
    split; [|split]; (split; [exact F0|]); lra. }
  assert (Eb : big = 2 ^ 1000).
  { unfold big. rewrite <- (IZR_Zpower radix2 1000) by lia. rewrite (pow_IZR 2 1000). reflexivity. }
  rewrite <- Eb in Hb.
  destruct (ride_bounded (List.length args) args 0 n bs n') as (W' & (S' & (A1 & A2) & (B1 & B2) & (C1 & C2)) & T); auto.
  { eapply Forall_impl; [|exact Ha]. intros [[tick speed] draw] Hd. exact Hd. }
  rewrite Nat.add_0_l in *. pose proof (growth_ge (List.length args)) as G.
  pose proof (ps_le n' S') as LS. pose proof (pt_le n' S') as LT. pose proof (pr_le n' S') as LR.
  split; [exact W'|]. split; [exact T|]. destruct W' as [Wi _ _].
  split; [|split].
  - split; [exact A1|]. intros t Et. rewrite (CurrentTrack_pure n' Wi) in Et.
    assert (Et' : cur_track n' = Some t) by congruence. unfold cur_segs in LS. rewrite Et' in LS.
    change (rsum (map ln (tk_segments t))) with (exact_track t) in LS. change (value (n_ctd n')) with (val (n_ctd n')). nra.
  - split; [exact B1|]. intros r Er. rewrite (CurrentRoute_pure n' Wi) in Er.
    assert (Er' : cur_route n' = Some r) by congruence. unfold cur_tracks in LT. rewrite Er' in LT.
    change (rsum (map exact_track (rt_tracks r))) with (exact_route r) in LT. change (value (n_crd n')) with (val (n_crd n')). nra.
  - split; [exact C1|]. assert (T' : exact_total n' = exact_total n) by (unfold exact_total; now rewrite T). rewrite T' in LR. change (value (n_cd n')) with (val (n_cd n')).
    change (value (@fdec f64 (F64Num m) 1 10)) with mark. change (value (fdec 1 10)) with mark. nra.
Qed.
End S.
