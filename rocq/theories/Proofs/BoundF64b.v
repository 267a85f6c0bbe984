(** C81: progress and the reported distances in binary64. *)
From Coq Require Import Reals Lra Lia ZArith.
From Flocq Require Import Core BinarySingleNaN.
From Verif.Model Require Import Base Num NumF64 Geo Curve PropMap Types TypesSnap Track Route Navigator.
From Verif.Spec Require Import ListSpec TrackSpec RouteSpec NavSpec NumLaws RealSpec JourneySpec.
From Verif.Proofs Require Import BaseLemmas TrackLemmas RouteLemmas F64Lemmas NavLemmas NavSteps NavProofs NavProofs2
  NavReal NavReal3 NavReal6 JourneyHist JourneyAny JourneyF64 VisitF64 ViewNav BoundF64.
Open Scope R_scope.

Lemma growth_add j k : growth (j + k) = growth j * growth k.
Proof. unfold growth. apply pow_add. Qed.

Lemma growth_lin k : growth k * (1 - INR k / 2 ^ 51) <= 1.
Proof.
  induction k as [|k IH]; [unfold growth; cbn [pow INR]; lra|]. rewrite growth_S, S_INR. unfold g51.
  pose proof (growth_ge k) as G. pose proof (pos_INR k) as P. set (x := / 2 ^ 51).
  assert (X : 0 < x) by (apply Rinv_0_lt_compat, pow_lt; lra).
  unfold Rdiv in *. fold x in IH |- *.
  assert ((1 + x) * (1 - (INR k + 1) * x) <= 1 - INR k * x) by nra. nra.
Qed.

Lemma growth_slack k : INR k <= 2 ^ 50 -> growth k <= slack k.
Proof.
  intros H. pose proof (growth_lin k) as L. pose proof (growth_ge k) as G. pose proof (pos_INR k) as P. unfold slack.
  set (y := INR k / 2 ^ 51) in *.
  assert (E : INR k / 2 ^ 50 = 2 * y) by (unfold y; replace (2 ^ 51) with (2 * 2 ^ 50) by ring; field).
  assert (Y : 0 <= y <= / 2).
  { unfold y, Rdiv. assert (0 < / 2 ^ 51) by (apply Rinv_0_lt_compat, pow_lt; lra).
    split; [nra|]. replace (/ 2) with (2 ^ 50 * / 2 ^ 51) by (replace (2 ^ 51) with (2 * 2 ^ 50) by ring; field). nra. }
  rewrite E. nra.
Qed.

(** the float64 sum of numbers that are known up to a factor *)
Lemma fold_close {X} (d : X -> f64) (e : X -> R) A l : forall j a x, 1 <= A ->
  fin a -> 0 <= val a -> 0 <= x -> x <= A * growth j * val a -> val a <= A * growth j * x ->
  Forall (fun y => fin (d y) /\ 0 <= val (d y) /\ 0 <= e y /\ e y <= A * val (d y) /\ val (d y) <= A * e y) l ->
  A * growth (j + List.length l) * (x + rsum (map e l)) <= big ->
  let s := fold_left (fun c y => f64_add c (d y)) l a in
  fin s /\ 0 <= val s /\ x + rsum (map e l) <= A * growth (j + List.length l) * val s /\
  val s <= A * growth (j + List.length l) * (x + rsum (map e l)).
Proof.
  induction l as [|y l IH]; intros j a x HA Fa Va Hx L U Hl Hbig; cbn [fold_left List.length map] in *.
  - rewrite Nat.add_0_r, rsum_nil. rewrite !Rplus_0_r. auto.
  - inversion Hl as [|? ? (Fy & Vy & Ey & L1 & U1) Hl']; subst. rewrite rsum_cons in *.
    destruct eps_small as (P & G & E). assert (G2 : 1 + eps53 <= g51) by (assert (0 <= g51 * eps53) by (apply Rmult_le_pos; lra); lra).
    destruct (rnd_sum (val a) (val (d y)) (fmt_val a) (fmt_val (d y)) ltac:(lra)) as [RL RU].
    pose proof (growth_ge j) as Gj.
    assert (Pr : 0 <= rsum (map e l)).
    { apply rsum_nonneg. rewrite Forall_map. eapply Forall_impl; [|exact Hl']. intros z Hz. apply Hz. }
    assert (Q : A <= A * growth j) by nra.
    assert (S1 : x + e y <= A * growth j * (val a + val (d y))) by nra.
    assert (S2 : val a + val (d y) <= A * growth j * (x + e y)) by nra.
    assert (T1 : A * growth j * (val a + val (d y)) <= A * growth (S j) * rnd (val a + val (d y))).
    { rewrite growth_S. replace (A * (g51 * growth j) * rnd (val a + val (d y))) with (A * growth j * (g51 * rnd (val a + val (d y)))) by ring.
      apply Rmult_le_compat_l; [lra|].
      apply Rle_trans with (g51 * ((val a + val (d y)) * (1 - eps53))); [|apply Rmult_le_compat_l; lra].
      replace (g51 * ((val a + val (d y)) * (1 - eps53))) with ((val a + val (d y)) * (g51 * (1 - eps53))) by ring.
      rewrite <- (Rmult_1_r (val a + val (d y))) at 1. apply Rmult_le_compat_l; lra. }
    assert (T2 : rnd (val a + val (d y)) <= A * growth (S j) * (x + e y)).
    { eapply Rle_trans; [exact RU|]. rewrite growth_S.
      apply Rle_trans with (A * growth j * (x + e y) * (1 + eps53)); [apply Rmult_le_compat_r; lra|].
      replace (A * (g51 * growth j) * (x + e y)) with (A * growth j * (x + e y) * g51) by ring.
      apply Rmult_le_compat_l; [|lra]. apply Rmult_le_pos; [lra|lra]. }
    assert (Gm : growth (S j) <= growth (j + S (List.length l))) by (apply growth_mono; lia).
    destruct (add_ok a (d y) Fa Fy) as [V F].
    { rewrite Rabs_pos_eq by lra. eapply Rle_trans; [|exact Hbig]. eapply Rle_trans; [exact S2|].
      assert (growth j <= growth (S j)) by (apply growth_mono; lia).
      apply Rmult_le_compat; [lra|lra| |lra]. apply Rmult_le_compat_l; lra. }
    replace (j + S (List.length l))%nat with (S j + List.length l)%nat in * by lia.
    rewrite <- Rplus_assoc in *.
    apply (IH (S j) (f64_add a (d y)) (x + e y)); auto; rewrite ?V; try lra.
    assert (0 <= (val a + val (d y)) * (1 - eps53)) by (apply Rmult_le_pos; lra). lra.
Qed.

Section S.
Context (m : MathLib).
#[local] Instance NF5 : Num f64 := F64Num m.
Context {J : JsonLib f64}.
Implicit Types n : navigator f64.

(** the same for a list of parts with lengths [e] and stored lengths [d] *)
Lemma fsum_close {X} A k (d : X -> f64) (e : X -> R) (l : list X) : 1 <= A ->
  Forall (fun y => fin (d y) /\ 0 <= val (d y) /\ 0 <= e y /\ e y <= A * val (d y) /\ val (d y) <= A * e y) l ->
  (List.length l <= k)%nat -> A * growth k * rsum (map e l) <= big ->
  fin (fsum (map d l)) /\ 0 <= val (fsum (map d l)) /\ 0 <= rsum (map e l) /\
  rsum (map e l) <= A * growth k * val (fsum (map d l)) /\ val (fsum (map d l)) <= A * growth k * rsum (map e l).
Proof.
  intros HA Hl Hk Hbig. destruct (val0 m) as [V0 F0].
  assert (Pr : 0 <= rsum (map e l)).
  { apply rsum_nonneg. rewrite Forall_map. eapply Forall_impl; [|exact Hl]. intros z Hz. apply Hz. }
  assert (Gm : growth (List.length l) <= growth k) by now apply growth_mono.
  pose proof (growth_ge (List.length l)) as G.
  assert (E : fsum (map d l) = fold_left (fun c y => f64_add c (d y)) l (@f0 f64 NF5)) by (unfold fsum; rewrite fold_left_map'; reflexivity).
  rewrite E. clear E.
  destruct (fold_close d e A l 0 (@f0 f64 NF5) 0) as (R1 & R2 & R3 & R4); auto; try (change (@f0 f64 NF5) with (@f0 f64 (NF4 m)); rewrite V0; lra); try lra.
  { rewrite Rplus_0_l, Nat.add_0_l. eapply Rle_trans; [|exact Hbig]. apply Rmult_le_compat_r; [exact Pr|]. apply Rmult_le_compat_l; lra. }
  rewrite Rplus_0_l, Nat.add_0_l in *. split; [exact R1|]. split; [exact R2|]. split; [exact Pr|].
  assert (Q : A * growth (List.length l) <= A * growth k) by (apply Rmult_le_compat_l; lra).
  split; (eapply Rle_trans; [eassumption|]); apply Rmult_le_compat_r; assumption.
Qed.

Lemma zsum_in l : Forall (fun x => 0 <= x)%Z l -> (0 <= fold_right Z.add 0 l)%Z /\ forall x, In x l -> (x <= fold_right Z.add 0 l)%Z.
Proof.
  induction 1 as [|y l Hy H IH]; [split; [reflexivity|intros x []]|]. destruct IH as [P IH].
  change (fold_right Z.add 0%Z (y :: l)) with (y + fold_right Z.add 0 l)%Z.
  split; [lia|]. intros x [->|Hx]; [lia|]. specialize (IH x Hx). lia.
Qed.

Lemma segs_counted n r t : In r (n_routes n) -> In t (rt_tracks r) -> (List.length (tk_segments t) <= Z.to_nat (count_segments n))%nat.
Proof.
  intros Hr Ht. unfold count_segments.
  assert (P : forall r : route f64, Forall (fun x => 0 <= x)%Z (map (fun t => zlen (tk_segments t)) (rt_tracks r))).
  { intros r'. apply Forall_map, Forall_forall. intros t' _. unfold zlen. lia. }
  destruct (zsum_in _ (P r)) as [_ I1].
  assert (P2 : Forall (fun x => 0 <= x)%Z (map (fun r => fold_right Z.add 0%Z (map (fun t => zlen (tk_segments t)) (rt_tracks r))) (n_routes n))).
  { apply Forall_map, Forall_forall. intros r' _. exact (proj1 (zsum_in _ (P r'))). }
  destruct (zsum_in _ P2) as [_ I2].
  specialize (I1 (zlen (tk_segments t)) (in_map (fun t => zlen (tk_segments t)) _ _ Ht)).
  specialize (I2 _ (in_map (fun r => fold_right Z.add 0%Z (map (fun t => zlen (tk_segments t)) (rt_tracks r))) _ _ Hr)).
  cbv beta in I2. unfold zlen in I1. unfold zlen in I1, I2 |- *. lia.
Qed.
Lemma tracks_counted n r : In r (n_routes n) -> (List.length (rt_tracks r) <= Z.to_nat (count_tracks n))%nat.
Proof.
  intros Hr. unfold count_tracks.
  assert (P2 : Forall (fun x => 0 <= x)%Z (map (fun r => zlen (rt_tracks r)) (n_routes n))).
  { apply Forall_map, Forall_forall. intros r' _. unfold zlen. lia. }
  destruct (zsum_in _ P2) as [_ I2]. specialize (I2 _ (in_map (fun r => zlen (rt_tracks r)) _ _ Hr)).
  cbv beta in I2. unfold zlen in I2 |- *. lia.
Qed.
Lemma parts_split n : count_parts n = (Z.to_nat (count_segments n) + Z.to_nat (count_tracks n) + List.length (n_routes n))%nat.
Proof.
  unfold count_parts.
  assert (0 <= count_segments n)%Z.
  { refine (proj1 (zsum_in _ _)). apply Forall_map, Forall_forall. intros r _. refine (proj1 (zsum_in _ _)).
    apply Forall_map, Forall_forall. intros t _. unfold zlen. lia. }
  assert (0 <= count_tracks n)%Z.
  { refine (proj1 (zsum_in _ _)). apply Forall_map, Forall_forall. intros r _. unfold zlen. lia. }
  unfold zlen. lia.
Qed.

Lemma part_le {X} (e : X -> R) l x : Forall (fun y => 0 <= e y) l -> In x l -> e x <= rsum (map e l).
Proof.
  induction 1 as [|y l Hy H IH]; [intros []|]. cbn [map]. rewrite rsum_cons.
  assert (0 <= rsum (map e l)) by (apply rsum_nonneg; now rewrite Forall_map).
  intros [->|Hx]; [lra|]. specialize (IH Hx). lra.
Qed.

Lemma track_le n r t : lens m n -> In r (n_routes n) -> In t (rt_tracks r) -> 0 <= exact_track t <= exact_route r /\ 0 <= exact_route r <= exact_total n.
Proof.
  intros H Hr Ht. pose proof (proj1 (Forall_forall _ _) H r Hr) as Lr.
  assert (Pt : Forall (fun t => 0 <= exact_track t) (rt_tracks r)).
  { eapply Forall_impl; [|exact Lr]. intros t' Ht'. exact (track_nonneg m t' Ht'). }
  split.
  - split; [exact (proj1 (Forall_forall _ _) Pt t Ht)|]. exact (part_le exact_track _ _ Pt Ht).
  - pose proof (routes_nonneg m n H) as Pr.
    split; [exact (proj1 (Forall_forall (fun r => 0 <= exact_route r) _) Pr r Hr)|]. exact (part_le exact_route _ _ Pr Hr).
Qed.

(** what the stored distances are worth *)
Lemma track_close n r t : lens m n -> Forall summed_route (n_routes n) -> growth (count_parts n) * exact_total n <= big ->
  In r (n_routes n) -> In t (rt_tracks r) ->
  let A := growth (Z.to_nat (count_segments n)) in
  fin (tk_dist t) /\ 0 <= val (tk_dist t) /\ 0 <= exact_track t /\ exact_track t <= A * val (tk_dist t) /\ val (tk_dist t) <= A * exact_track t.
Proof.
  intros H Hs Hbig Hr Ht A. destruct (proj1 (Forall_forall _ _) Hs r Hr) as [_ St].
  rewrite (proj1 (Forall_forall _ _) St t Ht).
  pose proof (proj1 (Forall_forall _ _) H r Hr) as Lr. pose proof (proj1 (Forall_forall _ _) Lr t Ht) as Lt.
  destruct (track_le n r t H Hr Ht) as (P1 & P2).
  pose proof (fsum_close 1 (Z.to_nat (count_segments n)) sg_dist ln (tk_segments t)) as C.
  rewrite !Rmult_1_l in C. apply C; [lra| |now apply (segs_counted n r)|].
  - eapply Forall_impl; [|exact Lt]. intros s Ls. apply (length_ok_val m) in Ls as [F V]. unfold ln. repeat split; auto; lra.
  - eapply Rle_trans; [|exact Hbig]. pose proof (growth_ge (Z.to_nat (count_segments n))).
    apply Rmult_le_compat; [lra|apply P1| |change (rsum (map ln (tk_segments t))) with (exact_track t); lra].
    apply growth_mono. rewrite parts_split. lia.
Qed.
Lemma route_close n r : lens m n -> Forall summed_route (n_routes n) -> growth (count_parts n) * exact_total n <= big ->
  In r (n_routes n) ->
  let A := growth (Z.to_nat (count_segments n) + Z.to_nat (count_tracks n)) in
  fin (rt_dist r) /\ 0 <= val (rt_dist r) /\ 0 <= exact_route r /\ exact_route r <= A * val (rt_dist r) /\ val (rt_dist r) <= A * exact_route r.
Proof.
  intros H Hs Hbig Hr A. destruct (proj1 (Forall_forall _ _) Hs r Hr) as [Er _]. rewrite Er.
  pose proof (routes_nonneg m n H) as Pr.
  pose proof (proj1 (Forall_forall (fun r => 0 <= exact_route r) _) Pr r Hr) as P1. pose proof (part_le exact_route _ _ Pr Hr) as P2.
  unfold A. rewrite growth_add.
  apply (fsum_close (growth (Z.to_nat (count_segments n))) (Z.to_nat (count_tracks n)) tk_dist exact_track (rt_tracks r)).
  - apply growth_ge.
  - apply Forall_forall. intros t Ht. now apply (track_close n r).
  - now apply tracks_counted.
  - eapply Rle_trans; [|exact Hbig]. rewrite <- growth_add.
    pose proof (growth_ge (Z.to_nat (count_segments n) + Z.to_nat (count_tracks n))).
    apply Rmult_le_compat; [lra|exact P1| |exact P2].
    apply growth_mono. rewrite parts_split. lia.
Qed.
Lemma total_close n : lens m n -> Forall summed_route (n_routes n) -> growth (count_parts n) * exact_total n <= big ->
  let d := total_of_routes n in
  fin d /\ 0 <= val d /\ 0 <= exact_total n /\ exact_total n <= growth (count_parts n) * val d /\ val d <= growth (count_parts n) * exact_total n.
Proof.
  intros H Hs Hbig d. rewrite parts_split in *. rewrite growth_add in *.
  apply (fsum_close (growth (Z.to_nat (count_segments n) + Z.to_nat (count_tracks n))) (List.length (n_routes n)) rt_dist exact_route (n_routes n)).
  - apply growth_ge.
  - apply Forall_forall. intros r Hr. apply (route_close n r); auto. rewrite parts_split, growth_add. exact Hbig.
  - lia.
  - exact Hbig.
Qed.

Lemma C81_slack_proof opts uuid draws (n0 : navigator f64) ops n args bs n' :
  navigator_New opts uuid draws = GOk n0 -> Forall (lengths_op length_ok) ops -> run_navs n0 ops = Ret n -> rewound n ->
  Forall (fun '(tick, speed, _) => fle f0 (fmul tick speed) = true) args ->
  INR (List.length args) <= 2 ^ 50 ->
  slack (List.length args) * (exact_total n + value (fdec 1 10)) <= 2 ^ 1000 ->
  locations n args = Ret (bs, n') ->
  (finite (n_ctd n') /\ forall t, CurrentTrack n' = Ret (Some t) ->
     0 <= value (n_ctd n') <= slack (List.length args) * exact_track t) /\
  (finite (n_crd n') /\ forall r, CurrentRoute n' = Ret (Some r) ->
     0 <= value (n_crd n') <= slack (List.length args) * exact_route r) /\
  (finite (n_cd n') /\ 0 <= value (n_cd n') <= slack (List.length args) * (exact_total n + value (fdec 1 10))).
Proof.
  intros H0 Ho H Hr Ha Hk Hb Hl. pose proof (growth_slack _ Hk) as G. pose proof (growth_ge (List.length args)) as G1.
  assert (L : lens m n) by exact (lengths_history _ _ _ _ _ _ _ H0 Ho H).
  assert (M : 0 < mark m) by apply (mark_fin m).
  assert (Pn : 0 <= exact_total n) by (apply rsum_nonneg; rewrite Forall_map; exact (routes_nonneg m n L)).
  assert (Hb' : growth (List.length args) * (exact_total n + value (fdec 1 10)) <= 2 ^ 1000).
  { eapply Rle_trans; [|exact Hb]. apply Rmult_le_compat_r; [|exact G]. change (0 <= exact_total n + mark m). lra. }
  destruct (C81_bound_proof m opts uuid draws n0 ops n args bs n' H0 Ho H Hr Ha Hb' Hl) as (_ & _ & (F1 & B1) & (F2 & B2) & (F3 & B3)).
  split; [|split]; (split; [assumption|]).
  - intros t Ht. specialize (B1 t Ht). nra.
  - intros r Er. specialize (B2 r Er). nra.
  - change (value (fdec 1 10)) with (mark m) in *. nra.
Qed.

Lemma C81_reported_proof opts uuid draws (n0 : navigator f64) ops n args bs n' :
  navigator_New opts uuid draws = GOk n0 -> Forall (lengths_op length_ok) ops -> run_navs n0 ops = Ret n -> rewound n ->
  Forall summed_route (n_routes n) ->
  Forall (fun '(tick, speed, _) => fle f0 (fmul tick speed) = true) args ->
  INR (List.length args + count_parts n) <= 2 ^ 50 ->
  slack (List.length args + count_parts n) * (exact_total n + value (fdec 1 10)) <= 2 ^ 1000 ->
  locations n args = Ret (bs, n') ->
  (forall t, CurrentTrack n' = Ret (Some t) ->
     value (n_ctd n') <= slack (List.length args + count_parts n) * value (tk_dist t)) /\
  (forall r, CurrentRoute n' = Ret (Some r) ->
     value (n_crd n') <= slack (List.length args + count_parts n) * value (rt_dist r)) /\
  value (n_cd n') <= slack (List.length args + count_parts n) * (value (n_dist n) + value (fdec 1 10)).
Proof.
  intros H0 Ho H Hr Hs Ha Hk Hb Hl. pose proof (growth_slack _ Hk) as G.
  set (K := (List.length args + count_parts n)%nat) in *.
  pose proof (growth_ge (List.length args)) as G1. pose proof (growth_ge (count_parts n)) as G2.
  assert (GK : growth K = growth (List.length args) * growth (count_parts n)) by (unfold K; apply growth_add).
  assert (L : lens m n) by exact (lengths_history _ _ _ _ _ _ _ H0 Ho H).
  assert (M : 0 < mark m) by apply (mark_fin m).
  change (value (fdec 1 10)) with (mark m) in *.
  assert (Pn : 0 <= exact_total n) by (apply rsum_nonneg; rewrite Forall_map; exact (routes_nonneg m n L)).
  assert (HK : growth K * (exact_total n + mark m) <= 2 ^ 1000).
  { eapply Rle_trans; [|exact Hb]. apply Rmult_le_compat_r; lra. }
  assert (Eb : big = 2 ^ 1000).
  { unfold big. rewrite <- (IZR_Zpower radix2 1000) by lia. rewrite (pow_IZR 2 1000). reflexivity. }
  assert (Hb1 : growth (List.length args) * (exact_total n + mark m) <= 2 ^ 1000).
  { eapply Rle_trans; [|exact HK]. apply Rmult_le_compat_r; [lra|]. apply growth_mono. unfold K. lia. }
  assert (Hb2 : growth (count_parts n) * exact_total n <= big).
  { rewrite Eb. eapply Rle_trans; [|exact HK]. apply Rmult_le_compat; [lra|lra| |lra]. apply growth_mono. unfold K. lia. }
  destruct (C81_bound_proof m opts uuid draws n0 ops n args bs n' H0 Ho H Hr Ha Hb1 Hl) as ([Wi _ _] & T & (_ & B1) & (_ & B2) & (_ & B3)).
  assert (Up : forall c e d j, (j <= count_parts n)%nat -> 0 <= d -> c <= growth (List.length args) * e -> e <= growth j * d -> c <= slack K * d).
  { intros c e d j Hj Pd H1 H2. assert (H3 : growth j <= growth (count_parts n)) by now apply growth_mono.
    assert (H4 : e <= growth (count_parts n) * d) by (eapply Rle_trans; [exact H2|]; apply Rmult_le_compat_r; assumption).
    apply Rle_trans with (growth K * d); [|apply Rmult_le_compat_r; assumption]. rewrite GK, Rmult_assoc.
    eapply Rle_trans; [exact H1|]. apply Rmult_le_compat_l; [lra|exact H4]. }
  split; [|split].
  - intros t Et. destruct (B1 t Et) as [_ U]. rewrite (CurrentTrack_pure n' Wi) in Et.
    assert (Et' : cur_track n' = Some t) by congruence. apply cur_track_zget in Et' as (r & Er & Eq). unfold cur_route in Er. rewrite T in Er.
    destruct (track_close n r t L Hs Hb2 (zget_In _ _ _ Er) (zget_In _ _ _ Eq)) as (_ & P1 & _ & P2 & _).
    eapply (Up _ (exact_track t) _ (Z.to_nat (count_segments n))); [rewrite parts_split; lia|exact P1|exact U|exact P2].
  - intros r Et. destruct (B2 r Et) as [_ U]. rewrite (CurrentRoute_pure n' Wi) in Et.
    assert (Er : cur_route n' = Some r) by congruence. unfold cur_route in Er. rewrite T in Er.
    destruct (route_close n r L Hs Hb2 (zget_In _ _ _ Er)) as (_ & P1 & _ & P2 & _).
    eapply (Up _ (exact_route r) _ (Z.to_nat (count_segments n) + Z.to_nat (count_tracks n))%nat); [rewrite parts_split; lia|exact P1|exact U|exact P2].
  - assert (Ed : n_dist n = total_of_routes n).
    { eapply C19_proof; [exact H0| |exact H]. eapply Forall_impl; [|exact Ho]. intros o Hop. apply Hop. }
    rewrite Ed. destruct (total_close n L Hs Hb2) as (_ & P1 & _ & P2 & _).
    eapply (Up _ (exact_total n + mark m) _ (count_parts n)); [lia| |apply B3|].
    + change (value (total_of_routes n)) with (val (total_of_routes n)). lra.
    + change (value (total_of_routes n)) with (val (total_of_routes n)). nra.
Qed.
End S.
