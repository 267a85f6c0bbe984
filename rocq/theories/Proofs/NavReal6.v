(** From the histories of a navigator to the hypotheses of C25, C27, C28 and C32. *)
From Coq Require Import Reals Lra Lia.
From Flocq Require Import Core.Raux.
From Verif.Model Require Import Base Num NumR Geo Curve PropMap Types TypesSnap Track Route Navigator.
From Verif.Spec Require Import ListSpec TrackSpec RouteSpec NavSpec NumLaws SphereSpec RealSpec RealExamples.
From Verif.Proofs Require Import BaseLemmas TrackLemmas RouteLemmas TrackRouteProofs NavLemmas NavSteps
  NavProofs NavProofs2 NavProofs3 GeoLemmas GeoProofs NavReal NavReal2 NavReal3 NavReal4 NavReal5 NavRefute.

Section Any.
Context {T : Type} {N : Num T} {J : JsonLib T}.

Lemma stable0_elev : stable0 (T := T) n_elev. Proof. constructor; reflexivity. Qed.

Lemma settings_same (n : navigator T) o n' : ~ travels o -> run_nav n o = Ret n' ->
  n_skip n' = n_skip n /\ n_rnd n' = n_rnd n /\ n_elev n' = n_elev n.
Proof.
  intros Q H. destruct o; cbn [travels] in Q; try tauto; cbn in H; injection H as <-.
  - unfold nav_AddRoute. destruct rs; [auto|]. destruct (add_routes _ _ _) as [? []]; auto.
  - unfold nav_ResetRoutes. destruct (n_routes n); auto.
  - unfold nav_RemoveRoute. repeat (match goal with |- context [match ?b with _ => _ end] => destruct b end; auto).
  - unfold nav_RemoveTrack. repeat (match goal with |- context [match ?b with _ => _ end] => destruct b end; auto).
  - auto.
  - unfold nav_mutateRoute. destruct (nth_error _ i); auto.
Qed.

(** whatever is called, offline generator and elevation sensor stay usable *)
Lemma settings_step (n : navigator T) o n' : run_nav n o = Ret n' -> rnd_ok n -> elev_ok n -> rnd_ok n' /\ elev_ok n'.
Proof.
  intros H Hr He. unfold rnd_ok, elev_ok in *.
  assert (Q : travels o \/ ~ travels o) by (destruct o; cbn; tauto). destruct Q as [Q|Q].
  - rewrite (run_nav_stable n_skip stable_skip n o n' Q H), (run_nav_stable n_rnd stable_rnd n o n' Q H).
    split; [exact Hr|].
    assert (K : match o with NNextElevation _ | NShuffleElevation _ => False | _ => True end -> elev_ok n').
    { intros K. unfold elev_ok. rewrite (run_nav_stable0 n_elev stable0_elev n o n' Q (or_intror K) H). exact He. }
    destruct o; try (apply K; exact I); destruct He as (e & He & Hc); cbn [run_nav] in H.
    + unfold NextElevation in H. rewrite He in H. cbn in H. unfold sensor_Next in H.
      destruct (curve_Point_ok (s_gen e) tick Hc) as (p & c' & E & Hc'). rewrite E in H. cbn in H. injection H as <-.
      eexists. split; [reflexivity|exact Hc'].
    + unfold ShuffleElevation in H. rewrite He in H. cbn in H. injection H as <-.
      eexists. split; [reflexivity|]. now apply curve_Shuffle_ok.
  - destruct (settings_same n o n' Q H) as (-> & -> & ->). auto.
Qed.

Lemma reach_settings opts uuid draws (n0 : navigator T) ops n :
  navigator_New opts uuid draws = GOk n0 -> run_navs n0 ops = Ret n -> rnd_ok n /\ elev_ok n.
Proof.
  intros H0 H. destruct (New_wf _ _ _ _ H0) as [_ Hr He]. clear H0.
  revert n0 Hr He H. induction ops as [|o ops IH]; intros n0 Hr He H; cbn in H.
  - injection H as <-. auto.
  - destruct (run_nav n0 o) as [n1| |] eqn:E; try discriminate.
    destruct (settings_step _ _ _ E Hr He) as [Hr1 He1]. apply (IH n1); auto.
Qed.

Lemma reach_wf opts uuid draws (n0 : navigator T) ops n :
  navigator_New opts uuid draws = GOk n0 -> run_navs n0 ops = Ret n -> on_a_route n -> nav_wf n.
Proof.
  intros H0 H Hr. destruct (reach_settings _ _ _ _ _ _ H0 H). constructor; auto. now apply on_a_route_idx.
Qed.

Lemma rewound_on (n : navigator T) : rewound n -> on_a_route n.
Proof.
  intros ([= E _ _] & _). apply on_a_route_idx. unfold idx_ok. rewrite E.
  destruct (n_routes n); [now left|right]. rewrite zlen_cons. pose proof (zlen_nonneg l). lia.
Qed.
End Any.

Open Scope R_scope.
Section S.
Context {J : JsonLib R}.

Lemma rewound_inv24' opts uuid draws n0 ops n :
  navigator_New opts uuid draws = GOk n0 -> Forall measured_op ops -> run_navs n0 ops = Ret n ->
  rewound n -> inv24' n.
Proof.
  intros H0 Ho H Hr.
  pose proof (measured_history _ _ _ _ _ _ H0 Ho H) as Hm.
  split; [|now apply rewound_nonneg]. split; [|split; [exact Hm|apply zero_csd; [exact Hm|apply Hr]]].
  eapply reach_wf; [exact H0|exact H|now apply rewound_on].
Qed.

Lemma C25_asked_proof' opts uuid draws n0 ops args n1 n :
  navigator_New opts uuid draws = GOk n0 -> Forall measured_op ops ->
  run_navs n0 ops = Ret n1 -> rewound n1 ->
  Forall (fun a => 0 <= step_length a) args ->
  run_navs n1 (ask_every_time args) = Ret n ->
  exists track_length route_length,
    TrackDistance n = Ret track_length /\ RouteDistance n = Ret route_length /\
    n_ctd n <= track_length /\ n_crd n <= route_length /\ n_cd n <= n_dist n.
Proof.
  intros H0 Ho H Hrw Ha H1. pose proof (rewound_inv24' _ _ _ _ _ _ H0 Ho H Hrw) as I1.
  exact (asked_bounds n1 args n I1 Hrw Ha H1).
Qed.

(** a rewound navigator is ready *)
Lemma rewound_ready opts uuid draws n0 ops n :
  navigator_New opts uuid draws = GOk n0 -> Forall measured_op ops -> run_navs n0 ops = Ret n ->
  rewound n -> n_routes n <> [] -> ready n /\ measured n.
Proof.
  intros H0 Ho H Hr Hne. pose proof (rewound_inv24' _ _ _ _ _ _ H0 Ho H Hr) as I.
  destruct (inv24'_placed _ I) as [W P]. destruct I as [(_ & Hm & Hc) _].
  split; [|exact Hm]. split; [exact W|]. split; [exact P|]. split; [apply Hc|exact Hne].
Qed.

Lemma C27_rewound_proof opts uuid draws n0 ops n e args :
  navigator_New opts uuid draws = GOk n0 ->
  Forall measured_op ops -> Forall uint32_op ops -> run_navs n0 ops = Ret n ->
  (rewound n \/ Forall forward_op ops /\ jumps_two_by_two n0 ops) -> n_routes n <> [] -> 0 < e ->
  Forall (fun a => e <= step_length a /\ uint32 (snd a)) args ->
  IZR (Z.max 0 (n_off n)) + 3601 *
    (n_dist n / e + IZR (count_segments n) + IZR (count_tracks n) + IZR (zlen (n_routes n)))
    < INR (List.length args) ->
  completion_among n args.
Proof.
  intros H0 Ho Hu H Hr Hne He Ha Hl.
  assert (R : ready n /\ measured n).
  { destruct Hr as [Hr|[Hf Hj]]; [eapply rewound_ready|eapply reach_ready]; eassumption. }
  destruct R as [Rn Hm]. eapply (C27_proof e 3600); try eassumption; try lia.
  - eapply C27_offline_proof; eassumption.
  - replace (IZR 3600 + 1) with 3601 by lra. exact Hl.
Qed.

Lemma C28_reach_proof opts uuid draws n0 ops n tk args a bs n1 n2 :
  navigator_New opts uuid draws = GOk n0 -> run_navs n0 ops = Ret n ->
  at_track_start n tk -> linked tk -> tk_segments tk <> [] ->
  Forall (fun a => 0 < step_length a /\ Forall (fun s => step_length a <= sg_dist s) (tk_segments tk)) (args ++ [a]) ->
  locations n args = Ret (bs, n1) -> ~ offline_now n1 ->
  NextLocation n1 (fst (fst a)) (snd (fst a)) (snd a) = Ret (false, n2) ->
  forall i, (0 <= i < zlen (tk_segments tk))%Z -> visited n args (n_ri n) (n_ti n) i.
Proof.
  intros H0 H Hs. apply C28_proof; [|exact Hs]. eapply reach_wf; [exact H0|exact H|].
  destruct Hs as (_ & _ & rt & Hrt & _). right. eauto.
Qed.

Lemma C32_reach_proof opts uuid draws n0 ops n ops' n' :
  navigator_New opts uuid draws = GOk n0 -> run_navs n0 ops = Ret n -> rewound n ->
  Forall long_steps ops' -> run_navs n ops' = Ret n' ->
  (fst (IsFinish n') = true <-> pending n False ops').
Proof.
  intros H0 H Hs. apply C32_proof; [|exact Hs]. eapply reach_wf; [exact H0|exact H|now apply rewound_on].
Qed.

(** ** C24 fails after a jump on a route of four tracks *)
Definition rx_short (id : string) : track R :=
  mkTrack id [mkSegment (mkPoint 0 0) (mkPoint 0 (1 / 10)) (Distance (T := R) 0 0 0 (1 / 10)) (Bearing (T := R) 0 0 0 (1 / 10)) 0 (-1)]
    "#ff0000" "" None (0 + Distance (T := R) 0 0 0 (1 / 10)) false 0.
Lemma rx_short_eq id : rx_track id [0; 1 / 10] = Some (rx_short id). Proof. reflexivity. Qed.
Lemma rx_short_len : 0 < Distance (T := R) 0 0 0 (1 / 10) <= degree / 5.
Proof.
  assert (E : degree = Distance (T := R) 0 0 0 1). { Transparent degree. reflexivity. }
  rewrite E, !Distance_equator by lra. unfold sphere_radius, rad. pose proof PI_RGT_0. lra.
Qed.
Opaque degree.
Lemma rx_short_measured id : measured_track (rx_short id).
Proof.
  pose proof rx_short_len. split; cbn [tk_segments rx_short tk_dist map].
  - rewrite !rsum_cons, rsum_nil. cbn [sg_dist]. lra.
  - repeat constructor; cbn [sg_dist]; lra.
Qed.

Lemma C24_refuted_proof : exists n0 n n' d r x,
  navigator_New [SkipOfflineMode] "u" (fun _ => 0) = GOk n0 /\ measured_route r /\
  run_navs n0 [NAddRoute [Some r]] = Ret n /\ 1 <= d < n_dist n /\ DestinationTo n d = (true, n') /\
  SegmentDistance n' = Ret x /\ x < n_csd n'.
Proof.
  pose proof degree_pos as K. pose proof rx_short_len as L.
  set (ts := [rx_trk "t1"; rx_trk "t2"; rx_trk "t3"; rx_short "t4"]).
  assert (Hts : Forall measured_track ts).
  { unfold ts. fa; first [apply rx_trk_measured|apply rx_short_measured]. }
  destruct (rx_load [rx_one "r" ts]) as (n0 & n & H0 & H1 & Er & Hrw & Hm & Hw & _).
  { fa. now apply rx_measured. }
  { repeat constructor. intros []. }
  { discriminate. }
  assert (Edist : n_dist n = 3 * degree + Distance (T := R) 0 0 0 (1 / 10)).
  { destruct Hm as [-> _]. rewrite Er. cbn [map]. rewrite rsum_cons, rsum_nil, rx_dist by exact Hts.
    unfold ts. cbn [map]. rewrite !rsum_cons, rsum_nil. cbn [tk_dist rx_trk rx_short]. lra. }
  destruct (C21_proof n (5 / 2 * degree) Hm) as (r & t & i & rt & tk & s & n' & A & B & C & D & E & _ & _ & _ & F1 & _ & F & _ & _ & _ & EE & S1 & S2 & G1 & G2 & G3).
  { rewrite Edist. lra. }
  exists n0, n, n', (5 / 2 * degree), (rx_one "r" ts).
  rewrite Er in A. unfold path_before in D, F1. rewrite Er in D, F1.
  assert (Hr : r = 0%Z /\ rt = rx_one "r" ts).
  { apply zget_at_pos in A. pose proof (zget_Some_range _ _ _ A) as Q. unfold zlen in Q. cbn [List.length] in Q.
    assert (r = 0%Z) by lia. subst r. split; [reflexivity|].
    change (Some (rx_one "r" ts) = Some rt) in A. congruence. }
  destruct Hr as [-> ->]. rewrite rx_tracks in B, D, F1. rewrite before_0 in D, F1.
  assert (Hti : exists id, t = 2%Z /\ i = 0%Z /\ tk = rx_trk id /\ s = rx_seg).
  { apply zget_at_pos in B. pose proof (zget_Some_range _ _ _ B) as Q. unfold zlen in Q. cbn [List.length ts] in Q.
    assert (Hi : forall sg x, tk_segments tk = [sg] -> at_pos (tk_segments tk) x s -> x = 0%Z /\ s = sg).
    { intros sg x -> P. apply zget_at_pos in P. pose proof (zget_Some_range _ _ _ P) as Q'. unfold zlen in Q'. cbn [List.length] in Q'.
      assert (x = 0%Z) by lia. subst x. split; [reflexivity|]. cbn in P. now injection P. }
    assert (Q' : t = 0%Z \/ t = 1%Z \/ t = 2%Z \/ t = 3%Z) by lia.
    destruct Q' as [-> |[-> |[-> | ->]]]; cbn in B; injection B as <-.
    - destruct (Hi rx_seg i eq_refl C) as [-> ->]. exfalso. rewrite !before_0 in D. change (sg_dist rx_seg) with degree in D. lra.
    - destruct (Hi rx_seg i eq_refl C) as [-> ->]. exfalso. rewrite !before_0 in D. change (sg_dist rx_seg) with degree in D.
      change (before tk_dist ts 1) with (rsum [0 + degree]) in D. rewrite rsum_cons, rsum_nil in D. lra.
    - destruct (Hi rx_seg i eq_refl C) as [-> ->]. exists "t3"%string. auto.
    - destruct (Hi _ i eq_refl C) as [-> ->]. exfalso. rewrite !before_0 in D.
      change (before tk_dist ts 3) with (rsum [0 + degree; 0 + degree; 0 + degree]) in D.
      rewrite !rsum_cons, rsum_nil in D. lra. }
  destruct Hti as (id & -> & -> & -> & ->).
  assert (W' : nav_wf n').
  { constructor.
    - right. rewrite F, Er. unfold zlen. cbn [List.length]. lia.
    - destruct Hw as [_ Hr _]. unfold rnd_ok in *. now rewrite S1, S2.
    - destruct Hw as [_ _ He]. unfold elev_ok in *. now rewrite EE. }
  exists (sg_dist (cur_seg n')). split; [exact H0|]. split; [now apply rx_measured|]. split; [exact H1|].
  split; [rewrite Edist; lra|]. split; [exact E|]. split; [now apply SegmentDistance_pure|].
  assert (Ec : sg_dist (cur_seg n') = Distance (T := R) 0 0 0 (1 / 10)).
  { assert (n_ri n' = 0%Z) by lia. assert (n_ti n' = 3%Z) by lia.
    assert (Ect : cur_track n' = Some (rx_short "t4")).
    { unfold cur_track, cur_route. rewrite H, H2, F, Er. reflexivity. }
    unfold cur_seg. rewrite Ect, G3. cbn [seg_of]. rewrite (SegmentAt_Some (rx_short "t4") 0 _ eq_refl).
    destruct (segment_IsEmpty _) eqn:Eb; [|reflexivity].
    change (Req_bool (Distance (T := R) 0 0 0 (1 / 10)) 0 = true) in Eb. rewrite Req_bool_false in Eb by lra. discriminate. }
  rewrite Ec, F1. rewrite before_0. change (before tk_dist ts 2) with (rsum [0 + degree; 0 + degree]).
  rewrite !rsum_cons, rsum_nil. lra.
Qed.
End S.
