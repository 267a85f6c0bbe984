(** C19-C21, C24, C25, C27, C28, C32: navigator properties read over the real numbers, with the
    exact trigonometry of the reals, for every JSON library. *)
From Coq Require Import Reals Lra Lia.
From Verif.Model Require Import Base Num NumR Geo Curve PropMap Types TypesSnap Track Route Navigator.
From Verif.Spec Require Import ListSpec TrackSpec RouteSpec NavSpec NumLaws RealSpec RealExamples.
From Verif.Proofs Require Import NavReal NavReal2 NavReal3 NavReal4 NavReal5 NavRefute NavReal6 NavExample.
Open Scope R_scope.

(** C19 in full is false: RemoveTrack leaves the navigator's total as it was. *)
Theorem C19_refuted : forall J : JsonLib R, exists n0 n r,
  navigator_New [SkipOfflineMode] "u" (fun _ => 0) = GOk n0 /\ measured_route r /\
  run_navs n0 [NAddRoute [Some r]; NRemoveTrack "r" "t1"] = Ret n /\
  n_dist n = 2 * degree /\ rsum (map rt_dist (n_routes n)) = degree.
Proof. exact @C19_refuted_proof. Qed.
Print Assumptions C19_refuted.

(** Lengths are exact: after every history that adds measured routes and leaves the tracks of
    added routes alone, every length is the exact sum of its parts. *)
Theorem C19_exact_lengths_partial :
  forall (J : JsonLib R) opts uuid draws (n0 : navigator R) ops n,
    navigator_New opts uuid draws = GOk n0 -> Forall measured_op ops -> run_navs n0 ops = Ret n ->
    measured n.
Proof. exact @measured_history. Qed.
Print Assumptions C19_exact_lengths_partial.

(** C20 and C21 in full are false: with three routes a jump inside the last one leaves the
    navigator on a route that does not exist, and asking for the current route panics. *)
Theorem C21_refuted : forall J : JsonLib R, exists n0 n n' rs d,
  navigator_New [SkipOfflineMode] "u" (fun _ => 0) = GOk n0 /\
  run_navs n0 [NAddRoute rs] = Ret n /\ measured n /\
  1 <= d < n_dist n /\ DestinationTo n d = (true, n') /\
  (forall rt, ~ at_pos (n_routes n') (n_ri n') rt).
Proof.
  intros J. destruct (@C21_refuted_proof J) as (n0 & n & n' & d & A & B & C & D & E & F & _).
  exists n0, n, n', (map Some rx_three), d. repeat (split; [assumption|]). exact F.
Qed.
Print Assumptions C21_refuted.

Theorem C20_refuted : forall J : JsonLib R, exists n0 n rs d,
  navigator_New [SkipOfflineMode] "u" (fun _ => 0) = GOk n0 /\
  run_navs n0 [NAddRoute rs; NDestinationTo d] = Ret n /\ run_nav n NQuery = Panic.
Proof.
  intros J. destruct (@C21_refuted_proof J) as (n0 & n & n' & d & A & B & _ & _ & E & _ & F).
  exists n0, n', (map Some rx_three), d. split; [exact A|]. split; [|exact F].
  cbn [run_navs] in *. destruct (run_nav n0 _); try discriminate. cbn [bind] in *. injection B as ->.
  cbn [run_nav bind]. now rewrite E.
Qed.
Print Assumptions C20_refuted.

(** C21. A jump to [1 <= d < Distance()] finds the route [rt], track [tk] and segment [s] in which
    the point at [d] lies: all four counters and the location are right. Missing: the route and
    track indices are the triangular numbers r(r+1)/2 and t(t+1)/2 instead of r and t, so they are
    right only for the first two routes of two tracks (C21_right_indices_partial, C21_refuted). *)
Theorem C21_jump_partial :
  forall (n : navigator R) (d : R), measured n -> 1 <= d < n_dist n ->
  exists r t i rt tk s n',
    at_pos (n_routes n) r rt /\ at_pos (rt_tracks rt) t tk /\ at_pos (tk_segments tk) i s /\
    path_before n rt tk r t i <= d < path_before n rt tk r t i + sg_dist s /\
    DestinationTo n d = (true, n') /\
    n_cd n' = d /\
    n_crd n' = d - before rt_dist (n_routes n) r /\
    n_ctd n' = d - before rt_dist (n_routes n) r - before tk_dist (rt_tracks rt) t /\
    n_csd n' = d - path_before n rt tk r t i /\
    n_point n' = point_along s (d - path_before n rt tk r t i) /\
    n_routes n' = n_routes n /\ n_dist n' = n_dist n /\ n_ver n' = n_ver n /\ n_off n' = n_off n /\
    n_elev n' = n_elev n /\ n_skip n' = n_skip n /\ n_rnd n' = n_rnd n /\
    (2 * n_ri n' = r * (r + 1) /\ 2 * n_ti n' = t * (t + 1) /\ n_si n' = i)%Z.
Proof. exact C21_proof. Qed.
Print Assumptions C21_jump_partial.

(** C21, for at most two routes of at most two tracks: the position is the right one as well. *)
Theorem C21_right_indices_partial :
  forall (n : navigator R) (d : R), measured n -> two_by_two n -> 1 <= d < n_dist n ->
  exists rt tk s n',
    DestinationTo n d = (true, n') /\
    at_pos (n_routes n) (n_ri n') rt /\ at_pos (rt_tracks rt) (n_ti n') tk /\
    at_pos (tk_segments tk) (n_si n') s /\
    path_before n rt tk (n_ri n') (n_ti n') (n_si n') <= d
      < path_before n rt tk (n_ri n') (n_ti n') (n_si n') + sg_dist s /\
    n_csd n' = d - path_before n rt tk (n_ri n') (n_ti n') (n_si n') /\
    n_point n' = point_along s (n_csd n').
Proof. exact C21_two_proof. Qed.
Print Assumptions C21_right_indices_partial.

Theorem C21_below_one :
  forall (n : navigator R) (d : R), d < 1 -> 1 <= n_dist n \/ d <= n_dist n -> DestinationTo n d = (false, n).
Proof. exact C21_below_one_proof. Qed.
Print Assumptions C21_below_one.

Theorem C21_beyond_total :
  forall (n : navigator R) (d : R), n_dist n < d -> DestinationTo n d = DestinationTo n (n_dist n).
Proof. exact C21_beyond_proof. Qed.
Print Assumptions C21_beyond_total.

(** C21: jumping to the total length itself goes to the start of the last route. *)
Theorem C21_at_total :
  forall (n : navigator R) pre r t ts s ss, measured n -> 1 <= n_dist n ->
  n_routes n = pre ++ [r] -> rt_tracks r = t :: ts -> tk_segments t = s :: ss -> 0 < sg_dist s ->
  exists n', DestinationTo n (n_dist n) = (true, n') /\
    n_cd n' = n_dist n /\ n_crd n' = 0 /\ n_ctd n' = 0 /\ n_csd n' = 0 /\
    n_point n' = point_along s 0 /\ n_ti n' = 0%Z /\ n_si n' = 0%Z.
Proof. exact C21_at_total_proof. Qed.
Print Assumptions C21_at_total.

Example C21_example : exists n : navigator R,
  measured n /\ two_by_two n /\ 1 <= 3 / 2 * degree < n_dist n /\
  exists r t s ss, n_routes n = [] ++ [r] /\ rt_tracks r = [t] /\ tk_segments t = s :: ss /\ 0 < sg_dist s.
Proof.
  destruct (@rx_walk rx_json) as (n0 & n & n1 & n2 & n3 & A & B & C & D & E & F & G & _).
  pose proof degree_pos. exists n. split; [|split; [|split; [rewrite G; lra|]]].
  - eapply measured_history; [exact A| |exact B]. constructor; [|constructor]. split; [exact I|].
    intros r [[= <-]|[]]. apply rx_r_measured.
  - split; rewrite C; [cbn; lia|]. constructor; [cbn; lia|constructor].
  - exists rx_r. do 3 eexists. rewrite C. split; [reflexivity|]. split; [reflexivity|]. split; [reflexivity|].
    change (0 < degree). lra.
Qed.

(** C24. Segment progress. Histories of steps forward, moves, and added or removed routes
    ([measured_op]: no tracks added to or removed from loaded routes; [forward_op]: no negative
    steps; jumps only where C21 holds). *)
Theorem C24_segment_progress_partial :
  forall (J : JsonLib R) opts uuid draws (n0 : navigator R) ops n,
    navigator_New opts uuid draws = GOk n0 ->
    Forall measured_op ops -> Forall forward_op ops -> jumps_two_by_two n0 ops ->
    run_navs n0 ops = Ret n ->
    exists x, SegmentDistance n = Ret x /\ 0 <= n_csd n <= x.
Proof. exact @C24_proof. Qed.
Print Assumptions C24_segment_progress_partial.

(** C24 without the restriction on jumps is false: on a route of four tracks the wrong track index
    of C21 leads to progress beyond the end of the segment. *)
Theorem C24_refuted : forall J : JsonLib R, exists n0 n n' d r x,
  navigator_New [SkipOfflineMode] "u" (fun _ => 0) = GOk n0 /\ measured_route r /\
  run_navs n0 [NAddRoute [Some r]] = Ret n /\ 1 <= d < n_dist n /\ DestinationTo n d = (true, n') /\
  SegmentDistance n' = Ret x /\ x < n_csd n'.
Proof. exact @C24_refuted_proof. Qed.
Print Assumptions C24_refuted.

(** a history that meets the hypotheses of C24 and C25, ending inside the second segment *)
Example C24_example : forall J : JsonLib R, exists n0 n ops,
  navigator_New [SkipOfflineMode] "u" (fun _ => 0) = GOk n0 /\
  Forall measured_op ops /\ Forall forward_op ops /\ jumps_two_by_two n0 ops /\ Forall riding_op ops /\
  run_navs n0 ops = Ret n /\ position n = (0, 0, 1)%Z /\ n_csd n = degree.
Proof.
  intros J. destruct (@rx_walk J) as (n0 & n & n1 & n2 & n3 & A & B & C & D & E & F & G & H & _ & _ & K & L & M & _).
  pose proof degree_pos.
  exists n0, n2, [NAddRoute [Some rx_r]; NNextLocation degree 1 0; NNextLocation degree 1 0].
  split; [exact A|]. split.
  { apply Forall_cons; [split; [exact I|intros r [[= <-]|[]]; apply rx_r_measured]|].
    repeat (apply Forall_cons || apply Forall_nil); split; exact I. }
  split. { repeat (apply Forall_cons || apply Forall_nil); cbn; try exact I; lra. }
  split. { cbn [jumps_two_by_two]. repeat (match goal with |- context [match ?x with _ => _ end] => destruct x end); tauto. }
  split. { repeat (apply Forall_cons || apply Forall_nil); exact I. }
  split; [|split; [exact M|exact L]].
  cbn [run_navs] in B |- *. destruct (run_nav n0 _); try discriminate. cbn [bind] in *. injection B as ->.
  cbn [run_nav]. rewrite H. cbn [bind]. rewrite K. reflexivity.
Qed.

(** C25. From New, by adding and removing routes and riding: track and route progress stay within
    the lengths; the total progress stays within the total length plus the ten centimetres by which
    the code marks a completed journey until IsFinish is asked. *)
Theorem C25_progress :
  forall (J : JsonLib R) opts uuid draws (n0 : navigator R) ops n,
    navigator_New opts uuid draws = GOk n0 ->
    Forall measured_op ops -> Forall forward_op ops -> Forall riding_op ops ->
    run_navs n0 ops = Ret n ->
    exists track_length route_length,
      TrackDistance n = Ret track_length /\ RouteDistance n = Ret route_length /\
      n_ctd n <= track_length /\ n_crd n <= route_length /\ n_cd n <= n_dist n + 1 / 10.
Proof. exact @C25_proof. Qed.
Print Assumptions C25_progress.

(** C25. When IsFinish is asked after every step, from any rewound navigator: all three bounds hold. *)
Theorem C25_progress_asked :
  forall (J : JsonLib R) opts uuid draws (n0 : navigator R) ops args n1 n,
    navigator_New opts uuid draws = GOk n0 -> Forall measured_op ops ->
    run_navs n0 ops = Ret n1 -> rewound n1 ->
    Forall (fun a => 0 <= step_length a) args ->
    run_navs n1 (ask_every_time args) = Ret n ->
    exists track_length route_length,
      TrackDistance n = Ret track_length /\ RouteDistance n = Ret route_length /\
      n_ctd n <= track_length /\ n_crd n <= route_length /\ n_cd n <= n_dist n.
Proof. exact @C25_asked_proof'. Qed.
Print Assumptions C25_progress_asked.

Example C25_example : forall J : JsonLib R, exists n0 n1,
  navigator_New [SkipOfflineMode] "u" (fun _ => 0) = GOk n0 /\
  Forall measured_op [NAddRoute [Some rx_r]] /\ run_navs n0 [NAddRoute [Some rx_r]] = Ret n1 /\
  rewound n1 /\ n_dist n1 = 2 * degree.
Proof.
  intros J. destruct (@rx_walk J) as (n0 & n & n1 & n2 & n3 & A & B & C & D & E & F & G & _).
  exists n0, n. split; [exact A|]. split; [|auto].
  constructor; [|constructor]. split; [exact I|]. intros r [[= <-]|[]]. apply rx_r_measured.
Qed.

(** C27. Completion within an explicit number of calls, from any rewound navigator, or any other
    reached without wrong jumps (C21). Every step covers at least [e]; every offline period lasts
    at most 3600 calls (C27_offline_bound). *)
Theorem C27_completes :
  forall (J : JsonLib R) opts uuid draws (n0 : navigator R) ops n e args,
    navigator_New opts uuid draws = GOk n0 ->
    Forall measured_op ops -> Forall uint32_op ops -> run_navs n0 ops = Ret n ->
    (rewound n \/ Forall forward_op ops /\ jumps_two_by_two n0 ops) -> n_routes n <> [] -> 0 < e ->
    Forall (fun a => e <= step_length a /\ uint32 (snd a)) args ->
    IZR (Z.max 0 (n_off n)) + 3601 *
      (n_dist n / e + IZR (count_segments n) + IZR (count_tracks n) + IZR (zlen (n_routes n)))
      < INR (List.length args) ->
    completion_among n args.
Proof. exact @C27_rewound_proof. Qed.
Print Assumptions C27_completes.

Theorem C27_offline_bound :
  forall (J : JsonLib R) opts uuid draws (n0 : navigator R) ops n,
    navigator_New opts uuid draws = GOk n0 -> Forall uint32_op ops -> run_navs n0 ops = Ret n ->
    offline_at_most 3600 n.
Proof. exact @C27_offline_proof. Qed.
Print Assumptions C27_offline_bound.

(** twenty-five thousand steps of one degree are (more than) enough for two segments of one degree *)
Example C27_example : forall J : JsonLib R, exists n0 n,
  navigator_New [SkipOfflineMode] "u" (fun _ => 0) = GOk n0 /\
  run_navs n0 [NAddRoute [Some rx_r]] = Ret n /\
  completion_among n (repeat (degree, 1, 0%Z) (Z.to_nat 25000)).
Proof.
  intros J. destruct (@rx_walk J) as (n0 & n & n1 & n2 & n3 & A & B & C & D & E & F & G & _).
  exists n0, n. split; [exact A|]. split; [exact B|]. pose proof degree_pos as K.
  eapply (C27_completes J _ _ _ n0 [NAddRoute [Some rx_r]] n degree); eauto.
  - constructor; [|constructor]. split; [exact I|]. intros r [[= <-]|[]]. apply rx_r_measured.
  - constructor; [exact I|constructor].
  - rewrite C. discriminate.
  - lra.
  - apply Forall_forall. intros a Ha. apply repeat_spec in Ha. subst a. unfold step_length, uint32. cbn [fst snd].
    split; [lra|lia].
  - assert (Eo : n_off n = 0%Z).
    { exact (offline_start n0 n A B). }
    rewrite Eo, repeat_length, INR_IZR_INZ, Z2Nat.id, G by lia. unfold count_segments, count_tracks. rewrite C. cbn [map].
    replace (2 * degree / degree) with 2 by (field; lra).
    change (fold_right Z.add 0%Z _) with 2%Z at 1. change (fold_right Z.add 0%Z _) with 1%Z.
    change (zlen [rx_r]) with 1%Z. change (Z.max 0 0) with 0%Z. lra.
Qed.

(** C28, for tracks without empty segments (every segment linked to its successor, as NewTrack
    makes them): small steps visit every segment before the track is left. Missing: tracks with an
    empty segment, whose other segments may never be visited (C28_refuted). *)
Theorem C28_visits_every_segment_partial :
  forall (J : JsonLib R) opts uuid draws (n0 : navigator R) ops n tk args a bs n1 n2,
    navigator_New opts uuid draws = GOk n0 -> run_navs n0 ops = Ret n ->
    at_track_start n tk -> linked tk -> tk_segments tk <> [] ->
    Forall (fun a => 0 < step_length a /\ Forall (fun s => step_length a <= sg_dist s) (tk_segments tk))
      (args ++ [a]) ->
    locations n args = Ret (bs, n1) -> ~ offline_now n1 ->
    NextLocation n1 (fst (fst a)) (snd (fst a)) (snd a) = Ret (false, n2) ->
    forall i, (0 <= i < zlen (tk_segments tk))%Z -> visited n args (n_ri n) (n_ti n) i.
Proof. exact @C28_reach_proof. Qed.
Print Assumptions C28_visits_every_segment_partial.

Theorem C28_refuted : forall J : JsonLib R, exists n0 n r tk s,
  navigator_New [SkipOfflineMode] "u" (fun _ => 0) = GOk n0 /\ measured_route r /\
  run_navs n0 [NAddRoute [Some r]] = Ret n /\
  at_track_start n tk /\ linked tk /\ at_pos (tk_segments tk) 2 s /\ 0 < sg_dist s /\
  forall args, ~ visited n args 0 0 2.
Proof. exact @C28_refuted_proof. Qed.
Print Assumptions C28_refuted.

Example C28_example : forall J : JsonLib R, exists n0 n bs n1 n2,
  navigator_New [SkipOfflineMode] "u" (fun _ => 0) = GOk n0 /\
  run_navs n0 [NAddRoute [Some rx_r]] = Ret n /\
  rx_track "t" [0; 1; 2] = Some (rx_two "t") /\ at_track_start n (rx_two "t") /\ linked (rx_two "t") /\
  Forall (fun s => degree <= sg_dist s) (tk_segments (rx_two "t")) /\
  locations n [(degree, 1, 0%Z); (degree, 1, 0%Z)] = Ret (bs, n1) /\ ~ offline_now n1 /\
  NextLocation n1 degree 1 0 = Ret (false, n2).
Proof.
  intros J. destruct (@rx_walk J) as (n0 & n & n1 & n2 & n3 & A & B & C & D & E & F & G & H & _ & _ & K & L & M & O & P & Q).
  exists n0, n, [true; true], n2, n3. split; [exact A|]. split; [exact B|]. split; [apply rx_two_eq|]. split; [exact F|].
  split; [apply rx_two_linked|]. split.
  { pose proof rx_two_second. cbn [tk_segments rx_two]. repeat (apply Forall_cons || apply Forall_nil); cbn [sg_dist]; lra. }
  split; [|split; [|exact P]].
  - cbn [locations]. rewrite H. cbn [bind]. rewrite K. reflexivity.
  - intros [X _]. congruence.
Qed.

(** C32, for steps longer than the ten-centimetre mark, from a rewound navigator: IsFinish says
    yes exactly if the journey was completed and neither another step was made nor the question
    asked since. Missing: a step of exactly ten centimetres at the very start is mistaken for a
    completed journey (C32_refuted). *)
Theorem C32_completion_reported_partial :
  forall (J : JsonLib R) opts uuid draws (n0 : navigator R) ops n ops' n',
    navigator_New opts uuid draws = GOk n0 -> run_navs n0 ops = Ret n -> rewound n ->
    Forall long_steps ops' -> run_navs n ops' = Ret n' ->
    (fst (IsFinish n') = true <-> pending n False ops').
Proof. exact @C32_reach_proof. Qed.
Print Assumptions C32_completion_reported_partial.

Theorem C32_refuted : forall J : JsonLib R, exists n0 n n' r,
  navigator_New [SkipOfflineMode] "u" (fun _ => 0) = GOk n0 /\ measured_route r /\
  run_navs n0 [NAddRoute [Some r]] = Ret n /\
  NextLocation n (1 / 10) 1 0 = Ret (true, n') /\ fst (IsFinish n') = true.
Proof. exact @C32_refuted_proof. Qed.
Print Assumptions C32_refuted.

Example C32_example : forall J : JsonLib R, exists n0 n n',
  navigator_New [SkipOfflineMode] "u" (fun _ => 0) = GOk n0 /\
  run_navs n0 [NAddRoute [Some rx_r]] = Ret n /\ rewound n /\
  Forall long_steps (repeat (NNextLocation degree 1 0%Z) 3) /\
  run_navs n (repeat (NNextLocation degree 1 0%Z) 3) = Ret n' /\
  pending n False (repeat (NNextLocation degree 1 0%Z) 3) /\ fst (IsFinish n') = true.
Proof.
  intros J. destruct (@rx_walk J) as (n0 & n & n1 & n2 & n3 & A & B & C & D & E & F & G & H & _ & _ & K & L & M & O & P & Q).
  exists n0, n, n3. split; [exact A|]. split; [exact B|]. split; [exact D|].
  assert (Hl : Forall long_steps (repeat (NNextLocation degree 1 0%Z) 3)).
  { pose proof degree_pos. cbn [repeat]. repeat (apply Forall_cons || apply Forall_nil); cbn [long_steps]; lra. }
  split; [exact Hl|].
  assert (Hr : run_navs n (repeat (NNextLocation degree 1 0%Z) 3) = Ret n3).
  { cbn [repeat run_navs run_nav]. rewrite H. cbn [bind run_nav]. rewrite K. cbn [bind run_nav]. rewrite P. reflexivity. }
  split; [exact Hr|].
  assert (Hp : pending n False (repeat (NNextLocation degree 1 0%Z) 3)).
  { cbn [repeat pending run_nav]. rewrite H. cbn [bind run_nav]. rewrite K. cbn [bind run_nav]. rewrite P. cbn [bind].
    right. exists false. auto. }
  split; [exact Hp|].
  apply (C32_completion_reported_partial J _ _ _ n0 _ n _ n3 A B D Hl Hr). exact Hp.
Qed.
