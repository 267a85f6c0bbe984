(** C25 and C27: progress along the whole path. *)
From Coq Require Import Reals Lra Lia.
From Flocq Require Import Core.Raux.
From Verif.Model Require Import Base Num NumR Geo Curve PropMap Types TypesSnap Track Route Navigator.
From Verif.Spec Require Import ListSpec TrackSpec RouteSpec NavSpec NumLaws SphereSpec RealSpec.
From Verif.Proofs Require Import BaseLemmas TrackLemmas RouteLemmas TrackRouteProofs NavLemmas NavSteps
  NavProofs NavProofs2 GeoLemmas GeoProofs NavReal NavReal2.
Open Scope R_scope.

(** ** sums before a position *)

Lemma rsum_firstn_S {A} (f : A -> R) k : forall l x, nth_error l k = Some x ->
  rsum (map f (firstn (S k) l)) = rsum (map f (firstn k l)) + f x.
Proof.
  induction k; intros l x H; destruct l as [|y l]; try discriminate; cbn in H.
  - injection H as ->. cbn [firstn map]. rewrite rsum_cons, !rsum_nil. change (f x + 0 = 0 + f x). lra.
  - cbn [firstn map]. rewrite !rsum_cons. specialize (IHk l x H). cbn [firstn] in IHk. rewrite IHk. lra.
Qed.

Lemma before_step {A} (f : A -> R) l i x : zget l i = Some x -> before f l (i + 1) = before f l i + f x.
Proof.
  intros H. pose proof (zget_Some_range _ _ _ H) as R. unfold before.
  replace (Z.to_nat (i + 1)) with (S (Z.to_nat i)) by lia. apply rsum_firstn_S.
  apply zget_at_pos in H. destruct H as (_ & H). exact H.
Qed.

Lemma before_total {A} (f : A -> R) l i : Forall (fun x => 0 <= f x) l -> before f l i <= rsum (map f l).
Proof.
  intros H. unfold before. rewrite <- (firstn_skipn (Z.to_nat i) l) at 2. rewrite map_app, rsum_app.
  assert (0 <= rsum (map f (skipn (Z.to_nat i) l))); [|lra].
  apply rsum_nonneg, Forall_map. rewrite Forall_forall in *. intros x Hx. apply H.
  rewrite <- (firstn_skipn (Z.to_nat i) l). apply in_or_app. now right.
Qed.

Lemma before_nonneg {A} (f : A -> R) l i : Forall (fun x => 0 <= f x) l -> 0 <= before f l i.
Proof.
  intros H. apply rsum_nonneg, Forall_map. rewrite Forall_forall in *. intros x Hx. apply H.
  rewrite <- (firstn_skipn (Z.to_nat i) l). apply in_or_app. now left.
Qed.

Lemma before_at {A} (f : A -> R) l i x : Forall (fun x => 0 <= f x) l -> zget l i = Some x ->
  before f l i + f x <= rsum (map f l).
Proof. intros H E. rewrite <- (before_step f l i x E). now apply before_total. Qed.

Lemma before_0 {A} (f : A -> R) l : before f l 0 = 0. Proof. reflexivity. Qed.

Lemma before_mono {A} (f : A -> R) l : Forall (fun x => 0 <= f x) l -> forall k i, (0 <= i)%Z ->
  before f l i <= before f l (i + Z.of_nat k).
Proof.
  intros H. induction k; intros i Hi; [rewrite Z.add_0_r; lra|].
  rewrite Nat2Z.inj_succ. replace (i + Z.succ (Z.of_nat k))%Z with (i + Z.of_nat k + 1)%Z by lia.
  specialize (IHk i Hi). destruct (zget l (i + Z.of_nat k)) as [x|] eqn:E.
  - rewrite (before_step f l _ x E). apply zget_In in E. rewrite Forall_forall in H. specialize (H x E). lra.
  - apply zget_None in E. unfold before in *. unfold zlen in E.
    rewrite (firstn_all2 (n := Z.to_nat (i + Z.of_nat k + 1))) by lia.
    rewrite (firstn_all2 (n := Z.to_nat (i + Z.of_nat k))) in IHk by lia. lra.
Qed.

Lemma rsum_ext {A} (f g : A -> R) l : Forall (fun x => f x = g x) l -> rsum (map f l) = rsum (map g l).
Proof. induction 1; cbn [map]; [reflexivity|]. rewrite !rsum_cons. congruence. Qed.

Lemma before_ext {A} (f g : A -> R) l i : Forall (fun x => f x = g x) l -> before f l i = before g l i.
Proof.
  intros H. apply rsum_ext. rewrite Forall_forall in *. intros x Hx. apply H.
  rewrite <- (firstn_skipn (Z.to_nat i) l). apply in_or_app. now left.
Qed.

Section S.
Context {J : JsonLib R}.

(** ** weights: lengths padded by [e] *)

Definition cur_tracks (n : navigator R) : list (track R) :=
  match cur_route n with Some r => rt_tracks r | None => [] end.
Definition cur_segs (n : navigator R) : list (segment R) :=
  match cur_track n with Some t => tk_segments t | None => [] end.

Section W.
Variable e : R.
Hypothesis He : 0 <= e.
Definition ws (s : segment R) : R := sg_dist s + e.
Definition wt (t : track R) : R := rsum (map ws (tk_segments t)) + e.
Definition wr (r : route R) : R := rsum (map wt (rt_tracks r)) + e.

Lemma ws_nonneg t : measured_track t -> Forall (fun s => 0 <= ws s) (tk_segments t).
Proof. intros [_ H]. eapply Forall_impl; [|exact H]. intros s; cbn. unfold ws. lra. Qed.
Lemma wt_nonneg r : measured_route r -> Forall (fun t => 0 <= wt t) (rt_tracks r).
Proof.
  intros [_ H]. eapply Forall_impl; [|exact H]. intros t Ht. unfold wt.
  pose proof (rsum_nonneg (map ws (tk_segments t))). rewrite Forall_map in H0. specialize (H0 (ws_nonneg t Ht)). lra.
Qed.
Lemma wr_nonneg l : Forall measured_route l -> Forall (fun r => 0 <= wr r) l.
Proof.
  intros H. eapply Forall_impl; [|exact H]. intros r Hr. unfold wr.
  pose proof (rsum_nonneg (map wt (rt_tracks r))). rewrite Forall_map in H0. specialize (H0 (wt_nonneg r Hr)). lra.
Qed.

Definition at_s n := before ws (cur_segs n) (n_si n) + n_csd n.
Definition at_t n := before wt (cur_tracks n) (n_ti n).
Definition at_r n := before wr (n_routes n) (n_ri n).
End W.

Lemma cur_route_measured n r : Forall measured_route (n_routes n) -> cur_route n = Some r -> measured_route r.
Proof. intros H E. eapply Forall_forall; [exact H|eapply zget_In; exact E]. Qed.
Lemma cur_track_zget (n : navigator R) t : cur_track n = Some t -> exists r, cur_route n = Some r /\ zget (rt_tracks r) (n_ti n) = Some t.
Proof.
  unfold cur_track. destruct (cur_route n) as [r|]; [|discriminate]. intros H. exists r. split; [reflexivity|].
  now apply TrackAt_Some, zget_at_pos in H.
Qed.
Lemma cur_track_None (n : navigator R) r : cur_route n = Some r -> cur_track n = None -> ~ (0 <= n_ti n < zlen (rt_tracks r))%Z.
Proof.
  unfold cur_track. intros -> H Hr. apply zget_range in Hr as (t & Hr).
  apply zget_at_pos, TrackAt_Some in Hr. congruence.
Qed.
Lemma cur_track_measured n t : Forall measured_route (n_routes n) -> cur_track n = Some t -> measured_track t.
Proof.
  intros H E. apply cur_track_zget in E as (r & Er & Et).
  eapply Forall_forall; [apply (cur_route_measured n r H Er)|eapply zget_In; exact Et].
Qed.

Lemma cur_seg_zget n s : zget (cur_segs n) (n_si n) = Some s -> sg_dist (cur_seg n) = sg_dist s.
Proof.
  unfold cur_segs, cur_seg. destruct (cur_track n) as [t|]; [|now rewrite zget_nil].
  intros H. cbn [seg_of]. rewrite (SegmentAt_Some _ _ _ H).
  destruct (segment_IsEmpty s) eqn:E; [|reflexivity]. cbn.
  unfold segment_IsEmpty in E. change (Req_bool (sg_dist s) 0 = true) in E.
  destruct (Req_bool_spec (sg_dist s) 0); [now symmetry|discriminate].
Qed.

Lemma cur_seg_out n : zget (cur_segs n) (n_si n) = None -> sg_dist (cur_seg n) = 0.
Proof.
  unfold cur_segs, cur_seg. destruct (cur_track n) as [t|]; [|reflexivity].
  intros H. cbn [seg_of]. rewrite (SegmentAt_None _ _ H). destruct (segment_IsEmpty segment_zero); reflexivity.
Qed.

Lemma cur_segs_ws e n : 0 <= e -> Forall measured_route (n_routes n) -> Forall (fun s => 0 <= ws e s) (cur_segs n).
Proof.
  intros He H. unfold cur_segs. destruct (cur_track n) as [t|] eqn:E; [|constructor].
  apply ws_nonneg; [exact He|eapply cur_track_measured; eassumption].
Qed.
Lemma cur_tracks_wt e n : 0 <= e -> Forall measured_route (n_routes n) -> Forall (fun s => 0 <= wt e s) (cur_tracks n).
Proof.
  intros He H. unfold cur_tracks. destruct (cur_route n) as [t|] eqn:E; [|constructor].
  apply wt_nonneg; [exact He|eapply cur_route_measured; eassumption].
Qed.

Lemma at_s_le e n : 0 <= e -> Forall measured_route (n_routes n) -> n_csd n <= sg_dist (cur_seg n) ->
  at_s e n <= rsum (map (ws e) (cur_segs n)).
Proof.
  intros He Hm Hc. pose proof (cur_segs_ws e n He Hm) as H. unfold at_s.
  destruct (zget (cur_segs n) (n_si n)) as [s|] eqn:E.
  - rewrite (cur_seg_zget _ _ E) in Hc. pose proof (before_at _ _ _ _ H E) as B.
    unfold ws in B at 2. lra.
  - rewrite (cur_seg_out _ E) in Hc. pose proof (before_total (ws e) (cur_segs n) (n_si n) H). lra.
Qed.

Lemma at_t_le e n : 0 <= e -> Forall measured_route (n_routes n) ->
  at_t e n + rsum (map (ws e) (cur_segs n)) <= rsum (map (wt e) (cur_tracks n)).
Proof.
  intros He Hm. pose proof (cur_tracks_wt e n He Hm) as H. unfold at_t, cur_segs.
  destruct (cur_track n) as [t|] eqn:E.
  - apply cur_track_zget in E as (r & Er & Et). unfold cur_tracks in *. rewrite Er in *.
    pose proof (before_at _ _ _ _ H Et) as B. unfold wt in B at 2. lra.
  - pose proof (before_total (wt e) (cur_tracks n) (n_ti n) H). cbn [map]; rewrite rsum_nil. lra.
Qed.

Lemma at_r_le e n : 0 <= e -> Forall measured_route (n_routes n) ->
  at_r e n + rsum (map (wt e) (cur_tracks n)) <= rsum (map (wr e) (n_routes n)).
Proof.
  intros He Hm. pose proof (wr_nonneg e He _ Hm) as H. unfold at_r, cur_tracks.
  destruct (cur_route n) as [r|] eqn:E.
  - pose proof (before_at _ _ _ _ H E) as B. unfold wr in B at 2. lra.
  - pose proof (before_total (wr e) (n_routes n) (n_ri n) H). cbn [map]; rewrite rsum_nil. lra.
Qed.

(** ** one step *)

(** [k] segments passed over *)
Lemma passed_at_s e n k : 0 <= e -> Forall measured_route (n_routes n) -> n_csd n <= sg_dist (cur_seg n) ->
  (0 <= n_si n)%Z -> (forall j, (j < k)%nat -> segment_IsEmpty (cur_seg (passed n j)) = false) ->
  at_s e (passed n k) >= at_s e n + (match k with O => 0 | _ => e end) /\
  match k with O => True | _ => exists s, zget (cur_segs n) (n_si n) = Some s end.
Proof.
  intros He Hm Hc Hs Hk. destruct k as [|k]; [cbn [passed]; split; [lra|exact I]|].
  assert (Es : exists s, zget (cur_segs n) (n_si n) = Some s).
  { destruct (zget (cur_segs n) (n_si n)) as [s|] eqn:E; [now exists s|].
    exfalso. specialize (Hk 0%nat). cbn [passed] in Hk. unfold segment_IsEmpty in Hk.
    rewrite (cur_seg_out _ E) in Hk. change (feq (0:R) f0) with (Req_bool 0 0) in Hk.
    rewrite Req_bool_true in Hk by reflexivity. discriminate Hk. lia. }
  split; [|exact Es]. destruct Es as (s & Es).
  unfold at_s. rewrite passed_csd. change (f0 (T := R)) with 0.
  assert (Ec : cur_segs (passed n (S k)) = cur_segs n) by (unfold cur_segs; now rewrite passed_cur_track).
  rewrite Ec. destruct (passed_same n (S k)) as (_ & _ & _ & -> & _).
  replace (n_si n + Z.of_nat (S k))%Z with (n_si n + 1 + Z.of_nat k)%Z by lia.
  pose proof (before_mono (ws e) (cur_segs n) (cur_segs_ws e n He Hm) k (n_si n + 1)%Z ltac:(lia)) as B.
  rewrite (before_step _ _ _ _ Es) in B. unfold ws in B at 2.
  rewrite (cur_seg_zget _ _ Es) in Hc. lra.
Qed.

Lemma passed_at_t e n k : at_t e (passed n k) = at_t e n /\ at_r e (passed n k) = at_r e n.
Proof. destruct k; split; reflexivity. Qed.

(** the positions are not negative and segment progress is within the segment *)
Definition placed (n : navigator R) : Prop :=
  Forall measured_route (n_routes n) /\ n_csd n <= sg_dist (cur_seg n) /\ (0 <= n_si n)%Z /\ (0 <= n_ti n)%Z /\
  (0 <= n_ri n)%Z.

Lemma leave_cases n : idx_ok n -> n_routes n <> [] -> placed n ->
  (exists r t, cur_route n = Some r /\ zget (rt_tracks r) (n_ti n) = Some t /\
     leave n = set_idx (set_cur n f0 (n_crd n) f0 (n_cd n)) (n_ri n) (n_ti n + 1) 0) \/
  (exists r, cur_route n = Some r /\
     leave n = set_idx (set_cur n f0 f0 f0 (n_cd n)) (n_ri n + 1) 0 0) \/
  leave n = set_cur (set_idx n 0 0 0) f0 f0 f0 (fdec 1 10).
Proof.
  intros [H|Hi] Hne (Hm & Hc & Hs & Ht & Hr); [contradiction|].
  apply zget_range in Hi as (r & Er). change (cur_route n = Some r) in Er.
  unfold leave. cbn. change (cur_route (set_cur n 0 (n_crd n) 0 (n_cd n))) with (cur_route n). rewrite Er.
  destruct (Z.ltb_spec (n_ti n) (NumTracks r - 1)) as [Hl|Hl].
  - left. destruct (zget_range (rt_tracks r) (n_ti n)) as (t & Et); [unfold NumTracks in Hl; lia|].
    exists r, t. auto.
  - right. destruct (_ <? _)%Z; [left; exists r; auto|right; reflexivity].
Qed.

Lemma completes_leave n draw n' : n' = off_pure (set_cur (set_idx n 0 0 0) f0 f0 f0 (fdec 1 10)) draw ->
  position n' = (0, 0, 0)%Z /\ n_csd n' = 0 /\ n_ctd n' = 0 /\ n_crd n' = 0 /\ n_cd n' = fdec 1 10 /\
  fst (IsFinish n') = true.
Proof.
  intros ->. destruct (off_pure_rest (set_cur (set_idx n 0 0 0) f0 f0 f0 (fdec 1 10)) draw)
    as (E1 & E2 & E3 & E4 & E5 & E6 & E7 & E8 & _).
  assert (P : position (off_pure (set_cur (set_idx n 0 0 0) f0 f0 f0 (fdec 1 10)) draw) = (0, 0, 0)%Z)
    by (unfold position; rewrite E2, E3, E4; reflexivity).
  split; [exact P|]. rewrite E5, E6, E7, E8. repeat (split; [reflexivity|]).
  unfold IsFinish. rewrite E2, E3, E4, E8. cbn.
  rewrite Req_bool_true by reflexivity. reflexivity.
Qed.

(** ** C27 *)

(** every online call that does not complete the journey gains [e] *)
Lemma step_gain e n d draw b n' : 0 <= e <= d -> idx_ok n -> n_routes n <> [] -> placed n ->
  step n d draw b n' ->
  (position n' = (0, 0, 0)%Z /\ b = false /\ fst (IsFinish n') = true) \/
  at_r e n + at_t e n + at_s e n + e <= at_r e n' + at_t e n' + at_s e n'.
Proof.
  intros He Hi Hne Hp H. pose proof Hp as (Hm & Hc & Hs & Ht & Hr).
  assert (He0 : 0 <= e) by lra.
  destruct H as [k Hk Hf|k Hk Hf Hl|k Hk Hf Hl Hemp Hrel].
  - right. destruct (passed_at_s e n k He0 Hm Hc Hs) as [B _]; [intros j Hj; apply (Hk j Hj)|].
    destruct (passed_at_t e n k) as [B1 B2].
    assert (E : at_s e (advance (passed n k) d) = at_s e (passed n k) + d).
    { unfold at_s. change (n_si (advance (passed n k) d)) with (n_si (passed n k)).
      change (cur_segs (advance (passed n k) d)) with (cur_segs (passed n k)).
      change (n_csd (advance (passed n k) d)) with (n_csd (passed n k) + d). lra. }
    change (at_r e (advance (passed n k) d)) with (at_r e (passed n k)).
    change (at_t e (advance (passed n k) d)) with (at_t e (passed n k)).
    rewrite E, B1, B2. destruct k; lra.
  - assert (S1 : at_s e n <= rsum (map (ws e) (cur_segs n))) by (apply at_s_le; assumption).
    destruct (leave_cases n Hi Hne Hp) as [(r & t & Er & Et & E)|[(r & Er & E)|E]]; rewrite E.
    + right. set (m := set_idx _ _ _ _). destruct (off_pure_rest m draw) as (E1 & E2 & E3 & E4 & E5 & _).
      assert (Er' : cur_route (off_pure m draw) = Some r) by (unfold cur_route; rewrite E1, E2; exact Er).
      assert (A1 : at_r e (off_pure m draw) = at_r e n) by (unfold at_r; rewrite E1, E2; reflexivity).
      assert (A2 : at_t e (off_pure m draw) = at_t e n + wt e t).
      { unfold at_t, cur_tracks. rewrite Er', Er, E3. apply (before_step (wt e)). exact Et. }
      assert (A3 : at_s e (off_pure m draw) = 0).
      { unfold at_s. rewrite E4, E5. cbn. rewrite before_0. lra. }
      assert (Ec : cur_segs n = tk_segments t).
      { unfold cur_segs, cur_track. rewrite Er.
        destruct (TrackAt r (n_ti n)) as [t'|] eqn:F.
        - apply TrackAt_Some, zget_at_pos in F. congruence.
        - exfalso. apply (cur_track_None n r Er); [unfold cur_track; now rewrite Er|].
          now apply zget_Some_range in Et. }
      rewrite A1, A2, A3. unfold wt. rewrite <- Ec. lra.
    + right. set (m := set_idx _ _ _ _). destruct (off_pure_rest m draw) as (E1 & E2 & E3 & E4 & E5 & _).
      assert (A1 : at_r e (off_pure m draw) = at_r e n + wr e r).
      { unfold at_r. rewrite E1, E2. apply (before_step (wr e)). exact Er. }
      assert (A2 : at_t e (off_pure m draw) = 0) by (unfold at_t; rewrite E3; apply before_0).
      assert (A3 : at_s e (off_pure m draw) = 0).
      { unfold at_s. rewrite E4, E5. cbn. rewrite before_0. lra. }
      pose proof (at_t_le e n He0 Hm) as B. unfold cur_tracks in B. rewrite Er in B.
      rewrite A1, A2, A3. unfold wr. lra.
    + left. destruct (completes_leave n draw _ eq_refl) as (P & _ & _ & _ & _ & F). auto.
  - right. destruct (passed_at_s e n (S k) He0 Hm Hc Hs) as [B _].
    { intros j Hj. destruct (Nat.eq_dec j k) as [->|]; [exact Hemp|]. apply (Hk j). lia. }
    destruct (passed_at_t e n (S k)) as [B1 B2].
    assert (E : at_r e (off_pure (passed n (S k)) draw) + at_t e (off_pure (passed n (S k)) draw)
                + at_s e (off_pure (passed n (S k)) draw) = at_r e n + at_t e n + at_s e (passed n (S k))).
    { rewrite <- B1, <- B2. unfold off_pure. destruct (n_skip _); [reflexivity|]. destruct (n_rnd _); reflexivity. }
    rewrite E. lra.
Qed.

Lemma step_placed n d draw b n' : 0 <= n_csd n -> 0 <= d -> placed n -> idx_ok n -> n_routes n <> [] ->
  step n d draw b n' -> placed n' /\ 0 <= n_csd n' /\ idx_ok n' /\ n_routes n' = n_routes n.
Proof.
  intros H0 Hd Hp Hi Hne H. pose proof Hp as (Hm & Hc & Hs & Ht & Hr).
  pose proof (step_progress _ _ _ _ _ Hm H0 Hd H) as [P1 P2].
  assert (Q : n_routes n' = n_routes n /\ idx_ok n' /\ (0 <= n_si n')%Z /\ (0 <= n_ti n')%Z /\ (0 <= n_ri n')%Z).
  { destruct H as [k Hk Hf|k Hk Hf Hl|k Hk Hf Hl Hemp Hrel].
    - destruct (passed_same n k) as (E1 & E2 & E3 & E4 & _).
      change (n_routes (passed n k) = n_routes n /\ idx_ok (passed n k) /\ (0 <= n_si (passed n k))%Z /\
              (0 <= n_ti (passed n k))%Z /\ (0 <= n_ri (passed n k))%Z).
      split; [exact E1|]. split; [eapply idx_ok_ext; eassumption|]. lia.
    - pose proof (leave_idx_ok n Hi) as Hi'. pose proof (leave_routes n) as Hr'.
      destruct (off_pure_rest (leave n) draw) as (E1 & E2 & E3 & E4 & E5 & _).
      split; [congruence|]. split; [eapply idx_ok_ext; eassumption|].
      rewrite E2, E3, E4. destruct (leave_cases n Hi Hne Hp) as [(r & t & Er & Et & E)|[(r & Er & E)|E]];
        rewrite E; cbn; lia.
    - destruct (passed_same n (S k)) as (F1 & F2 & F3 & F4 & _).
      destruct (off_pure_rest (passed n (S k)) draw) as (E1 & E2 & E3 & E4 & E5 & _).
      split; [congruence|]. split; [eapply idx_ok_ext; [| |exact Hi]; congruence|]. lia. }
  destruct Q as (Q1 & Q2 & Q3 & Q4 & Q5). unfold placed. rewrite Q1. repeat split; assumption.
Qed.

Lemma offline_tick_now (n : navigator R) : offline_tick n = true <-> offline_now n.
Proof.
  unfold offline_tick, offline_now. destruct (n_skip n); cbn; [split; [discriminate|intros []; discriminate]|].
  rewrite Z.ltb_lt. tauto.
Qed.

Lemma step_off n d draw b n' : step n d draw b n' ->
  n_skip n' = n_skip n /\ n_rnd n' = n_rnd n /\
  (n_off n' = n_off n \/ exists r, n_rnd n = Some r /\ n_off n' = random_Value r draw).
Proof.
  assert (O : forall m : navigator R, n_skip (off_pure m draw) = n_skip m /\ n_rnd (off_pure m draw) = n_rnd m /\
    (n_off (off_pure m draw) = n_off m \/ exists r, n_rnd m = Some r /\ n_off (off_pure m draw) = random_Value r draw)).
  { intros m. unfold off_pure. destruct (n_skip m) eqn:E; [now auto|].
    destruct (n_rnd m) as [r|] eqn:F; cbn; [|auto]. repeat split; eauto. }
  intros [k Hk Hf|k Hk Hf Hl|k Hk Hf Hl Hemp Hrel].
  - destruct (passed_same n k) as (_ & _ & _ & _ & _ & _ & _ & E1 & _ & _ & E2 & _ & E3 & _).
    change (n_skip (passed n k) = n_skip n /\ n_rnd (passed n k) = n_rnd n /\
      (n_off (passed n k) = n_off n \/ exists r, n_rnd n = Some r /\ n_off (passed n k) = random_Value r draw)). auto.
  - destruct (O (leave n)) as (-> & -> & O3). destruct (leave_rest n) as (E1 & E2 & _ & E4 & _).
    rewrite E2, E4 in O3. auto.
  - destruct (passed_same n (S k)) as (_ & _ & _ & _ & _ & _ & _ & E1 & _ & _ & E2 & _ & E3 & _).
    destruct (O (passed n (S k))) as (-> & -> & O3). rewrite E2, E1 in O3. auto.
Qed.

(** calls left to be waited *)
Definition waits (n : navigator R) : Z := if n_skip n then 0%Z else Z.max 0 (n_off n).

Definition ready (n : navigator R) : Prop :=
  nav_wf n /\ placed n /\ 0 <= n_csd n /\ n_routes n <> [].

Lemma C27_induct e M W : 0 < e -> (0 <= M)%Z -> forall args n, ready n -> offline_at_most M n ->
  W = rsum (map (wr e) (n_routes n)) ->
  Forall (fun a => e <= step_length a /\ uint32 (snd a)) args ->
  IZR (waits n) + (IZR M + 1) * ((W - (at_r e n + at_t e n + at_s e n)) / e) < INR (List.length args) ->
  completion_among n args.
Proof.
  intros He HM. induction args as [|[[tick speed] draw] args IH]; intros n (Hw & Hp & H0 & Hne) Ho HW Hargs Hb.
  - exfalso. cbn in Hb. pose proof Hp as (Hm & Hc & _).
    pose proof (at_s_le e n ltac:(lra) Hm Hc). pose proof (at_t_le e n ltac:(lra) Hm).
    pose proof (at_r_le e n ltac:(lra) Hm).
    assert (0 <= IZR (waits n)) by (apply IZR_le; unfold waits; destruct (n_skip n); lia).
    assert (0 <= IZR M) by (now apply IZR_le).
    assert (0 <= (W - (at_r e n + at_t e n + at_s e n)) / e).
    { apply Rmult_le_pos; [lra|]. apply Rlt_le, Rinv_0_lt_compat, He. }
    nra.
  - pose proof (Forall_inv Hargs) as [Ha Hu]. unfold step_length in Ha. cbn in Ha, Hu. apply Forall_inv_tail in Hargs.
    assert (Hlen : INR (List.length ((tick, speed, draw) :: args)) = INR (List.length args) + 1) by (cbn [List.length]; rewrite S_INR; lra).
    rewrite Hlen in Hb. clear Hlen.
    destruct (NextLocation_wf zero_eq_zero_R n tick speed draw Hw) as (b & n1 & E & Hw1).
    assert (Hcons : completion_among n1 args -> completion_among n ((tick, speed, draw) :: args)).
    { intros (pre & tk & sp & dr & post & bs & n3 & b3 & n4 & -> & G1 & G).
      exists ((tick, speed, draw) :: pre), tk, sp, dr, post, (b :: bs), n3, b3, n4.
      split; [reflexivity|]. split; [|exact G]. cbn. rewrite E. cbn. rewrite G1. reflexivity. }
    destruct (NextLocation_inv zero_eq_zero_R _ _ _ _ _ _ E)
      as [(X & _)|[(_ & Off & -> & ->)|(_ & Off & Hi & St)]]; [contradiction| |].
    + apply Hcons, IH.
      * repeat split; try apply Hw1; try apply Hp; try assumption.
      * destruct Ho as [Ho1 Ho2]. split; [cbn; lia|exact Ho2].
      * exact HW.
      * exact Hargs.
      * change (at_r e (set_off n (n_off n - 1))) with (at_r e n).
        change (at_t e (set_off n (n_off n - 1))) with (at_t e n).
        change (at_s e (set_off n (n_off n - 1))) with (at_s e n).
        apply offline_tick_now in Off as [O1 O2].
        assert (Ew : waits n = (waits (set_off n (n_off n - 1)) + 1)%Z).
        { unfold waits. cbn. rewrite O1. lia. }
        rewrite Ew, plus_IZR in Hb. lra.
    + change (step n (tick * speed) draw b n1) in St.
      assert (Hon : ~ offline_now n) by (rewrite <- offline_tick_now; congruence).
      destruct (step_gain e n _ _ _ _ (conj (Rlt_le _ _ He) Ha) Hi Hne Hp St) as [(P & -> & F)|G].
      * exists [], tick, speed, draw, args, [], n, false, n1. unfold completes. repeat split; auto.
      * destruct (step_placed _ _ _ _ _ H0 (Rle_trans _ _ _ (Rlt_le _ _ He) Ha) Hp Hi Hne St) as (Q1 & Q2 & Q3 & Q4).
        destruct (step_off _ _ _ _ _ St) as (S1 & S2 & S3). destruct Ho as [Ho1 Ho2].
        apply Hcons, IH.
        -- repeat split; try assumption; try apply Hw1; try apply Q1; congruence.
        -- split; [|rewrite S2; exact Ho2]. destruct S3 as [->|(r & Er & ->)]; [exact Ho1|now apply (Ho2 r draw)].
        -- rewrite Q4. exact HW.
        -- exact Hargs.
        -- assert (W0 : waits n = 0%Z).
           { unfold waits. unfold offline_now in Hon. destruct (n_skip n); [reflexivity|].
             assert (~ (0 < n_off n)%Z) by tauto. lia. }
           assert (W1 : IZR (waits n1) <= IZR M).
           { apply IZR_le. unfold waits. destruct (n_skip n1); [exact HM|].
             destruct S3 as [->|(r & Er & ->)]; [|specialize (Ho2 r draw Er Hu)]; lia. }
           rewrite W0 in Hb.
           assert (G' : (W - (at_r e n1 + at_t e n1 + at_s e n1)) / e + 1 <= (W - (at_r e n + at_t e n + at_s e n)) / e).
           { replace 1 with (e / e) by (field; lra). unfold Rdiv. rewrite <- Rmult_plus_distr_r.
             apply Rmult_le_compat_r; [apply Rlt_le, Rinv_0_lt_compat, He|lra]. }
           assert (0 <= IZR M) by (now apply IZR_le).
           nra.
Qed.

Lemma rsum_ws e l : rsum (map (ws e) l) = rsum (map sg_dist l) + e * IZR (zlen l).
Proof.
  induction l as [|s l IH]; [cbn [map fold_right]; rewrite ?rsum_nil, ?zlen_nil; match goal with |- context[zlen (@nil ?A)] => change (zlen (@nil A)) with 0%Z end; lra|].
  cbn [map]. rewrite !rsum_cons, zlen_cons, plus_IZR, IH. unfold ws. lra.
Qed.
Lemma rsum_wt e l : Forall measured_track l -> rsum (map (wt e) l) = rsum (map tk_dist l) +
  e * (IZR (fold_right Z.add 0%Z (map (fun t => zlen (tk_segments t)) l)) + IZR (zlen l)).
Proof.
  induction 1 as [|t l Ht H IH]; [cbn [map fold_right]; rewrite ?rsum_nil, ?zlen_nil; match goal with |- context[zlen (@nil ?A)] => change (zlen (@nil A)) with 0%Z end; lra|].
  cbn [map fold_right]. rewrite !rsum_cons, zlen_cons, !plus_IZR, IH. unfold wt. rewrite rsum_ws.
  destruct Ht as [-> _]. lra.
Qed.
Lemma rsum_wr e n : measured n -> rsum (map (wr e) (n_routes n)) =
  n_dist n + e * (IZR (count_segments n) + IZR (count_tracks n) + IZR (zlen (n_routes n))).
Proof.
  intros [-> H]. unfold count_segments, count_tracks.
  induction H as [|r l [Hr Ht] H IH]; [cbn [map fold_right]; rewrite ?rsum_nil, ?zlen_nil; match goal with |- context[zlen (@nil ?A)] => change (zlen (@nil A)) with 0%Z end; lra|].
  cbn [map fold_right]. rewrite !rsum_cons, zlen_cons, !plus_IZR, IH. unfold wr. rewrite rsum_wt by exact Ht.
  rewrite Hr. lra.
Qed.

Lemma C27_proof e M n args : ready n -> measured n -> offline_at_most M n -> (0 <= M)%Z -> 0 < e ->
  Forall (fun a => e <= step_length a /\ uint32 (snd a)) args ->
  IZR (Z.max 0 (n_off n)) + (IZR M + 1) *
    (n_dist n / e + IZR (count_segments n) + IZR (count_tracks n) + IZR (zlen (n_routes n)))
    < INR (List.length args) ->
  completion_among n args.
Proof.
  intros Hr Hm Ho HM He Ha Hb. eapply (C27_induct e M _ He HM); [exact Hr|exact Ho|reflexivity|exact Ha|].
  rewrite (rsum_wr e n Hm). eapply Rle_lt_trans; [|exact Hb].
  assert (HM' : 0 <= IZR M) by (now apply IZR_le).
  apply Rplus_le_compat.
  - apply IZR_le. unfold waits. destruct (n_skip n); lia.
  - apply Rmult_le_compat_l; [lra|].
    destruct Hr as (_ & (Hmr & Hc & _) & H0 & _).
    assert (0 <= at_r e n) by (apply before_nonneg, wr_nonneg; [lra|exact Hmr]).
    assert (0 <= at_t e n) by (apply before_nonneg, cur_tracks_wt; [lra|exact Hmr]).
    assert (0 <= at_s e n).
    { unfold at_s. pose proof (before_nonneg (ws e) (cur_segs n) (n_si n) (cur_segs_ws e n ltac:(lra) Hmr)). lra. }
    set (X := _ + _ + IZR (zlen _)).
    replace (n_dist n / e + IZR (count_segments n) + IZR (count_tracks n) + IZR (zlen (n_routes n)))
      with ((n_dist n + e * X) / e) by (unfold X; field; lra).
    apply Rmult_le_compat_r; [apply Rlt_le, Rinv_0_lt_compat, He|lra].
Qed.
End S.
