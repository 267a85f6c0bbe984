(** C81: journeys in float64 arithmetic.
    C24, C25 and C27 are about the real numbers. Here: what is left of them when every sum is rounded.
    Of the stored lengths nothing is assumed but a bound, so the theorems hold for routes built from
    points (whatever the library's sine and cosine say) and for routes that were decoded. *)
From Coq Require Import Reals Lra Lia.
From Flocq Require Import Core BinarySingleNaN.
From Verif.Model Require Import Base Num NumF64 Geo Curve PropMap Types TypesSnap Track Route Navigator.
From Verif.Spec Require Import ListSpec TrackSpec RouteSpec NavSpec NumLaws RealSpec JourneySpec.
From Verif.Proofs Require Import F64Lemmas NavLemmas JourneyHist JourneyAny JourneyF64 JourneyRefute VisitF64 VisitExample BoundF64b BoundExample.

(** Segment progress never exceeds the segment's length, in any arithmetic, after any history
    without jumps (DestinationTo, C21) that adds routes of non-negative segments. Steps may be
    anything at all: backward, infinite or not a number. *)
Theorem C81_segment_partial :
  forall (T : Type) (N : Num T) (J : JsonLib T), zero_eq_zero N -> zero_le_zero N ->
  forall opts uuid draws (n0 : navigator T) ops n,
    navigator_New opts uuid draws = GOk n0 ->
    Forall (lengths_op (fun x => fle f0 x)) ops -> Forall no_jump_op ops -> run_navs n0 ops = Ret n ->
    exists x, SegmentDistance n = Ret x /\ fle (n_csd n) x = true.
Proof. intros T N J Z0 ZL. exact (C81_segment_proof Z0 ZL). Qed.
Print Assumptions C81_segment_partial.

(** Completion within an explicit number of calls in binary64: if no segment is longer than [D]
    and every step is at least [e], where [D] is at most 2^52 times [e]. (C27 needs no such relation.) *)
Theorem C81_completes_partial :
  forall (m : MathLib), let N := F64Num m in forall (J : JsonLib f64)
    opts uuid draws (n0 : navigator f64) ops n (e D : f64) args,
    finite e -> finite D -> (0 < value e)%R -> (0 <= value D <= 2 ^ 52 * value e)%R ->
    navigator_New opts uuid draws = GOk n0 ->
    Forall (lengths_op (fun x => fle x D)) ops -> Forall uint32_op ops -> run_navs n0 ops = Ret n ->
    (rewound n \/
     Forall no_jump_op ops /\
     Forall (fun o => match o with NNextLocation tick speed _ => fle f0 (fmul tick speed) = true | _ => True end) ops) ->
    n_routes n <> [] ->
    Forall (fun '(tick, speed, draw) => fle e (fmul tick speed) = true /\ uint32 draw) args ->
    (IZR (Z.max 0 (n_off n)) + 3601 *
      ((2 * value D / value e + 1) * IZR (count_segments n) + IZR (count_tracks n) + IZR (zlen (n_routes n)))
      < INR (List.length args))%R ->
    completion_among n args.
Proof.
  intros m N J opts uuid draws n0 ops n e D args A1 A2 A3 A4 A5 A6 A7 A8 A9 A10 A11 A12.
  refine (C81_completes_proof m opts uuid draws n0 ops n e D args A1 A2 A3 A4 A5 A6 A7 A8 A9 A10 _ A12).
  eapply Forall_impl; [|exact A11]. intros [[tick speed] draw] H. exact H.
Qed.
Print Assumptions C81_completes_partial.

(** The relation between [D] and [e] is needed: on one segment of 2^20 metres, after a step of 2^19
    metres, steps of 2^-35 metres are lost to rounding, and the journey is never completed. *)
Theorem C81_tiny_steps_refuted :
  forall (m : MathLib), let N := F64Num m in forall (J : JsonLib f64), exists n0 n,
    navigator_New [SkipOfflineMode] "u" (fun _ => f64_ofZ 0) = GOk n0 /\
    run_navs n0 [NAddRoute [Some (stored_route [whole_way])]] = Ret n /\ rewound n /\
    n_routes n = [stored_route [whole_way]] /\
    flt f0 (fmul tiny (f64_ofZ 1)) = true /\ fle tiny half_way = true /\
    forall k, ~ completion_among n ((half_way, f64_ofZ 1, 0%Z) :: repeat (tiny, f64_ofZ 1, 0%Z) k).
Proof. intros m N J. exact (C81_tiny_steps_proof m). Qed.
Print Assumptions C81_tiny_steps_refuted.

(** C25 is false in binary64: on a track of 10 m and 0.6 m, steps of 10, 0.3 and 0.3 metres make a
    progress larger than the track's length. *)
Theorem C81_track_progress_refuted :
  forall (m : MathLib), let N := F64Num m in forall (J : JsonLib f64), exists n0 n x,
    navigator_New [SkipOfflineMode] "u" (fun _ => f64_ofZ 0) = GOk n0 /\
    run_navs n0 [NAddRoute [Some (stored_route [f64_ofZ 10; fdec 6 10])];
                 NNextLocation (f64_ofZ 10) (f64_ofZ 1) 0;
                 NNextLocation (fdec 3 10) (f64_ofZ 1) 0;
                 NNextLocation (fdec 3 10) (f64_ofZ 1) 0] = Ret n /\
    TrackDistance n = Ret x /\ flt x (n_ctd n) = true.
Proof. intros m N J. exact (C81_progress_proof m). Qed.
Print Assumptions C81_track_progress_refuted.

(** C24/C25 in binary64, up to rounding: from the start of a journey, after [k] steps (at most 2^50, none of them negative),
    the progress in the current track, the current route and the whole journey exceeds the exact sum of the lengths of the
    segments by at most a part in 2^50 per step. ([2 ^ 1000]: no overflow.) *)
Theorem C81_progress_bound_partial :
  forall (m : MathLib), let N := F64Num m in forall (J : JsonLib f64)
    opts uuid draws (n0 : navigator f64) ops n args bs n',
    navigator_New opts uuid draws = GOk n0 -> Forall (lengths_op length_ok) ops -> run_navs n0 ops = Ret n -> rewound n ->
    Forall (fun '(tick, speed, _) => fle f0 (fmul tick speed) = true) args ->
    (INR (List.length args) <= 2 ^ 50)%R ->
    (slack (List.length args) * (exact_total n + value (fdec 1 10)) <= 2 ^ 1000)%R ->
    locations n args = Ret (bs, n') ->
    (finite (n_ctd n') /\ forall t, CurrentTrack n' = Ret (Some t) ->
       (0 <= value (n_ctd n') <= slack (List.length args) * exact_track t)%R) /\
    (finite (n_crd n') /\ forall r, CurrentRoute n' = Ret (Some r) ->
       (0 <= value (n_crd n') <= slack (List.length args) * exact_route r)%R) /\
    (finite (n_cd n') /\ (0 <= value (n_cd n') <= slack (List.length args) * (exact_total n + value (fdec 1 10)))%R).
Proof. intros m N J. exact (C81_slack_proof m). Qed.
Print Assumptions C81_progress_bound_partial.

(** The same against the distances the library reports, which are rounded sums themselves: a part in 2^50 for every step and
    for every segment, track and route. *)
Theorem C81_reported_bound_partial :
  forall (m : MathLib), let N := F64Num m in forall (J : JsonLib f64)
    opts uuid draws (n0 : navigator f64) ops n args bs n',
    navigator_New opts uuid draws = GOk n0 -> Forall (lengths_op length_ok) ops -> run_navs n0 ops = Ret n -> rewound n ->
    Forall summed_route (n_routes n) ->
    Forall (fun '(tick, speed, _) => fle f0 (fmul tick speed) = true) args ->
    (INR (List.length args + count_parts n) <= 2 ^ 50)%R ->
    (slack (List.length args + count_parts n) * (exact_total n + value (fdec 1 10)) <= 2 ^ 1000)%R ->
    locations n args = Ret (bs, n') ->
    (forall t, CurrentTrack n' = Ret (Some t) ->
       (value (n_ctd n') <= slack (List.length args + count_parts n) * value (tk_dist t))%R) /\
    (forall r, CurrentRoute n' = Ret (Some r) ->
       (value (n_crd n') <= slack (List.length args + count_parts n) * value (rt_dist r))%R) /\
    (value (n_cd n') <= slack (List.length args + count_parts n) * (value (n_dist n) + value (fdec 1 10)))%R.
Proof. intros m N J. exact (C81_reported_proof m). Qed.
Print Assumptions C81_reported_bound_partial.

(** the walk of C81_track_progress_refuted: the excess is there, and within the bound *)
Example C81_bound_example : forall (m : MathLib), let N := F64Num m in forall (J : JsonLib f64), exists n0 n bs n',
  navigator_New [SkipOfflineMode] "u" (fun _ => f64_ofZ 0) = GOk n0 /\
  run_navs n0 [NAddRoute [Some (stored_route [f64_ofZ 10; fdec 6 10])]] = Ret n /\ rewound n /\
  lengths_op length_ok (NAddRoute [Some (stored_route [f64_ofZ 10; fdec 6 10])]) /\
  Forall summed_route (n_routes n) /\ count_parts n = 4%nat /\
  locations n [(f64_ofZ 10, f64_ofZ 1, 0%Z); (fdec 3 10, f64_ofZ 1, 0%Z); (fdec 3 10, f64_ofZ 1, 0%Z)] = Ret (bs, n') /\
  (slack 7 * (exact_total n + value (fdec 1 10)) <= 2 ^ 1000)%R.
Proof. intros m N J. exact (bound_example_proof m). Qed.

(** C28 in binary64, for any sine and cosine: on a track whose segments are linked, steps that are not longer than any segment
    visit every segment before the track is left. *)
Theorem C28_binary64_partial :
  forall (m : MathLib), let N := F64Num m in forall (J : JsonLib f64)
    opts uuid draws (n0 : navigator f64) ops n tk args a bs n1 n2,
    navigator_New opts uuid draws = GOk n0 -> run_navs n0 ops = Ret n ->
    at_track_start n tk -> linked tk -> tk_segments tk <> [] ->
    Forall (small_step tk) (args ++ [a]) ->
    locations n args = Ret (bs, n1) -> ~ offline_now n1 ->
    NextLocation n1 (fst (fst a)) (snd (fst a)) (snd a) = Ret (false, n2) ->
    forall i, (0 <= i < zlen (tk_segments tk))%Z -> visited n args (n_ri n) (n_ti n) i.
Proof. intros m N J. exact (C28_f64_proof m). Qed.
Print Assumptions C28_binary64_partial.

(** C32 in binary64: with steps longer than float64's 0.1, IsFinish says yes exactly if the journey was completed and neither
    another step was made nor the question asked since. *)
Theorem C32_binary64_partial :
  forall (m : MathLib), let N := F64Num m in forall (J : JsonLib f64)
    opts uuid draws (n0 : navigator f64) ops n ops' n',
    navigator_New opts uuid draws = GOk n0 -> run_navs n0 ops = Ret n -> rewound n ->
    Forall longer_than_mark ops' -> run_navs n ops' = Ret n' ->
    (fst (IsFinish n') = true <-> pending n False ops').
Proof. intros m N J. exact (C32_f64_proof m). Qed.
Print Assumptions C32_binary64_partial.

(** two segments of ten metres in steps of ten metres: two locations, then the end of the journey *)
Example C28_C32_binary64_example : forall (m : MathLib), let N := F64Num m in forall (J : JsonLib f64), exists n0 n bs n1 n2,
  navigator_New [SkipOfflineMode] "u" (fun _ => f64_ofZ 0) = GOk n0 /\
  run_navs n0 [NAddRoute [Some (stored_route two_tens)]] = Ret n /\ rewound n /\
  at_track_start n (stored_track two_tens) /\ linked (stored_track two_tens) /\
  Forall (small_step (stored_track two_tens)) [ten_step; ten_step; ten_step] /\
  locations n [ten_step; ten_step] = Ret (bs, n1) /\ ~ offline_now n1 /\
  NextLocation n1 (f64_ofZ 10) (f64_ofZ 1) 0 = Ret (false, n2) /\
  Forall longer_than_mark (repeat (NNextLocation (f64_ofZ 10) (f64_ofZ 1) 0%Z) 3) /\
  run_navs n (repeat (NNextLocation (f64_ofZ 10) (f64_ofZ 1) 0%Z) 3) = Ret n2 /\ fst (IsFinish n2) = true.
Proof. intros m N J. exact (tens_proof m). Qed.

(** the laws hold of binary64 *)
Example C81_laws : forall m, zero_eq_zero (F64Num m) /\ zero_le_zero (F64Num m).
Proof. intros m. split; [apply zero_eq_zero_F64|vm_compute; reflexivity]. Qed.

(** two hundred thousand steps of one metre are (more than) enough for segments of 10 m and 0.6 m *)
Example C81_completes_example : forall (m : MathLib), let N := F64Num m in forall (J : JsonLib f64), exists n0 n,
  navigator_New [SkipOfflineMode] "u" (fun _ => f64_ofZ 0) = GOk n0 /\
  run_navs n0 [NAddRoute [Some (stored_route [f64_ofZ 10; fdec 6 10])]] = Ret n /\
  completion_among n (repeat (f64_ofZ 1, f64_ofZ 1, 0%Z) (Z.to_nat 200000)).
Proof.
  intros m N J. destruct (added m [f64_ofZ 10; fdec 6 10]) as (n0 & n & E0 & E & Rw & Rt & Off).
  exists n0, n. split; [exact E0|]. split; [exact E|].
  destruct (ofZ_ok 1) as [V1 F1]; [lia|]. destruct (ofZ_ok 10) as [V10 F10]; [lia|].
  refine (C81_completes_partial m J _ _ _ n0 [NAddRoute [Some (stored_route [f64_ofZ 10; fdec 6 10])]] n (f64_ofZ 1) (f64_ofZ 10)
            _ F1 F10 _ _ E0 _ _ E (or_introl Rw) _ _ _).
  - change (0 < val (f64_ofZ 1))%R. rewrite V1. lra.
  - change (0 <= val (f64_ofZ 10) <= 2 ^ 52 * val (f64_ofZ 1))%R. rewrite V1, V10. lra.
  - constructor; [|constructor]. split; [exact I|]. intros r Hr. apply only_one in Hr. subst r.
    constructor; [|constructor]. repeat (apply Forall_cons || apply Forall_nil); vm_compute; reflexivity.
  - constructor; [exact I|constructor].
  - rewrite Rt. discriminate.
  - apply Forall_forall. intros a Ha. apply repeat_spec in Ha. subst a.
    split; [vm_compute; reflexivity|unfold uint32; lia].
  - rewrite repeat_length, INR_IZR_INZ, Z2Nat.id by lia. rewrite Off. unfold count_segments, count_tracks. rewrite Rt.
    change (value (f64_ofZ 1)) with (val (f64_ofZ 1)). change (value (f64_ofZ 10)) with (val (f64_ofZ 10)). rewrite V1, V10.
    cbn [map]. change (fold_right Z.add 0%Z _) with 2%Z at 1. change (fold_right Z.add 0%Z _) with 1%Z.
    change (zlen [_]) with 1%Z. change (Z.max 0 0) with 0%Z. lra.
Qed.

(** a history for the segment theorem, with a step of nothing sensible *)
Example C81_segment_example : forall (m : MathLib), let N := F64Num m in forall (J : JsonLib f64), exists n0 ops n,
  navigator_New [SkipOfflineMode] "u" (fun _ => f64_ofZ 0) = GOk n0 /\
  Forall (lengths_op (fun x => fle f0 x)) ops /\ Forall no_jump_op ops /\ List.length ops = 4%nat /\
  run_navs n0 ops = Ret n /\ flt f0 (n_csd n) = true.
Proof.
  intros m N J. destruct (walk_proof m) as (n0 & n & x & E0 & E & _ & _ & X).
  exists n0, (NAddRoute [Some (stored_route (ten_sixty m))] :: short_walk m), n. split; [exact E0|].
  split; [|split; [|split; [reflexivity|split; [exact E|exact X]]]].
  - constructor; [|repeat (apply Forall_cons || apply Forall_nil); split; exact I].
    split; [exact I|]. intros r Hr. apply only_one in Hr. subst r.
    constructor; [|constructor]. repeat (apply Forall_cons || apply Forall_nil); vm_compute; reflexivity.
  - repeat (apply Forall_cons || apply Forall_nil); exact I.
Qed.
