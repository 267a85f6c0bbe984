(** C17-C20, C22, C23, C26, C29-C31, C33, C34: navigator properties that hold for any arithmetic
    (some under [zero_eq_zero N]: 0 == 0, true of the reals and of binary64, Spec/NumLaws.v). *)
From Verif.Model Require Import Base Num NumF64 Geo Curve PropMap Types TypesSnap Track Route Navigator.
From Verif.Spec Require Import ListSpec TrackSpec RouteSpec NavSpec NumLaws Examples.
From Verif.Proofs Require Import NavSteps NavProofs NavProofs2 NavProofs3.
Open Scope num_scope.

(** C17. AddRoute. [fresh_routes] (Spec/NavSpec.v) lists the non-nil arguments whose IDs are new. *)
Theorem C17_add_route :
  forall (T : Type) (N : Num T) (n : navigator T) (rs : list (option (route T))),
    (rs = [] -> nav_AddRoute n rs = (Some ErrNoRoutes, n)) /\
    (rs <> [] -> exists n', nav_AddRoute n rs = (None, n') /\
       let new := fresh_routes (map rt_id (n_routes n)) rs in
       n_routes n' = n_routes n ++ new /\
       (new = [] -> n' = n) /\
       (new <> [] -> rewound n' /\ n_dist n' = total_of_routes n' /\ same_settings n n' /\
                     n_ver n' = (n_ver n + 1)%Z)).
Proof. exact @C17_proof. Qed.
Print Assumptions C17_add_route.

Example C17_example :
  map rt_id (n_routes (snd (nav_AddRoute ex_nav [ex_r1; None; ex_route "r3" []; ex_r2; ex_route "r3" []])))
  = ["r1"; "r2"; "r3"]%string.
Proof. vm_compute. reflexivity. Qed.

(** C17, the consequence: route IDs stay pairwise distinct along every history. *)
Theorem C17_ids_distinct :
  forall (T : Type) (N : Num T) (J : JsonLib T) opts uuid draws (n0 : navigator T) ops n,
    navigator_New opts uuid draws = GOk n0 -> run_navs n0 ops = Ret n ->
    NoDup (map rt_id (n_routes n)).
Proof. exact @C17_distinct_proof. Qed.
Print Assumptions C17_ids_distinct.

Example C17_ids_example :
  match run_navs ex_new [NAddRoute [ex_r1; ex_r2]; NAddRoute [ex_r2]; NNextLocation (km 1) (f64_ofZ 1) 0;
                         NRemoveRoute "r1"; NAddRoute [ex_r1]] with
  | Ret n => map rt_id (n_routes n) = ["r2"; "r1"]%string
  | _ => False
  end.
Proof. vm_compute. reflexivity. Qed.

(** C18. RouteByID and RemoveRoute. The code rejects IDs longer than 36 bytes and the empty ID. *)
Theorem C18_find_and_remove_route :
  forall (T : Type) (N : Num T) (n : navigator T) (id : string),
    (exists r rest, (1 <= slen id <= 36)%Z /\ RouteByID n id = GOk r /\
       first_with (fun x => rt_id x = id) (n_routes n) r /\
       removes_first (fun x => rt_id x = id) (n_routes n) rest /\
       exists n', nav_RemoveRoute n id = (true, n') /\ n_routes n' = rest /\ rewound n' /\
         n_dist n' = total_of_routes n' /\ same_settings n n' /\ n_ver n' = (n_ver n + 1)%Z) \/
    (RouteByID n id = GErr ErrRouteNotFound /\ nav_RemoveRoute n id = (false, n) /\
     ((1 <= slen id <= 36)%Z -> Forall (fun x => rt_id x <> id) (n_routes n))).
Proof. exact @C18_proof. Qed.
Print Assumptions C18_find_and_remove_route.

Example C18_example :
  fst (nav_RemoveRoute ex_nav "r1") = true /\
  map rt_id (n_routes (snd (nav_RemoveRoute ex_nav "r1"))) = ["r2"%string] /\
  fst (nav_RemoveRoute ex_nav "r7") = false.
Proof. vm_compute. auto. Qed.

(** C19, for the histories in which no route gains or loses tracks behind the navigator's back
    ([keeps_tracks]: no RemoveTrack, no AddTrack/RemoveTrack on the handle of an added route).
    Missing: those calls leave Distance() stale, see C19_refuted. *)
Theorem C19_total_distance_partial :
  forall (T : Type) (N : Num T) (J : JsonLib T) opts uuid draws (n0 : navigator T) ops n,
    navigator_New opts uuid draws = GOk n0 -> Forall keeps_tracks ops -> run_navs n0 ops = Ret n ->
    n_dist n = total_of_routes n.
Proof. exact @C19_proof. Qed.
Print Assumptions C19_total_distance_partial.

(** C19: Reset always repairs the total, whatever happened before. *)
Theorem C19_reset_repairs_partial :
  forall (T : Type) (N : Num T) (n : navigator T),
    n_dist (nav_Reset n) = total_of_routes (nav_Reset n).
Proof. exact @C19_reset_proof. Qed.
Print Assumptions C19_reset_repairs_partial.

Example C19_example :
  match run_navs ex_new [NAddRoute [ex_r1; ex_r2]; NDestinationTo (km 300); NRemoveRoute "r1"] with
  | Ret n => ftrunc (n_dist n) = 379643%Z
  | _ => False
  end.
Proof. vm_compute. reflexivity. Qed.

(** C20, for histories that call DestinationTo only while at most two routes are loaded. No call
    panics (or runs out of fuel), and CurrentRoute is one of the routes. Missing: DestinationTo
    with three or more routes, see C20_refuted. *)
Theorem C20_navigation_in_range_partial :
  forall (T : Type) (N : Num T) (J : JsonLib T), zero_eq_zero N ->
  forall opts uuid draws (n0 : navigator T) ops,
    navigator_New opts uuid draws = GOk n0 -> jumps_on_at_most_two_routes n0 ops ->
    exists n, run_navs n0 ops = Ret n /\ on_a_route n /\
      exists cur, CurrentRoute n = Ret cur /\
        match cur with
        | None => n_routes n = []
        | Some r => at_pos (n_routes n) (n_ri n) r
        end.
Proof. intros T N J Z0. exact (C20_partial_proof Z0). Qed.
Print Assumptions C20_navigation_in_range_partial.

(** Non-vacuity: a history with moves, steps with a NaN tick, a jump and a removal. *)
Example C20_example :
  let ops := [NAddRoute [ex_r1; ex_r2]; NDestinationTo (km 400); NNextLocation (km 1) f64_nan 7;
              NMoveToSegment 1 0 2; NNextLocation (km 1) (f64_ofZ 1) 3; NRemoveTrack "r2" "t21";
              NNextLocation (km 1) (f64_ofZ 1) 3; NMoveToTrackByID "r1" "t12"; NQuery] in
  jumps_on_at_most_two_routes ex_new ops /\
  match run_navs ex_new ops with Ret n => position n = (0, 1, 0)%Z | _ => False end.
Proof. vm_compute. repeat split; discriminate. Qed.

(** C22. The loop of NextLocation needs at most (segments of the current track + 1) iterations,
    and never more than the model's fuel provides: for any state whatsoever. *)
Theorem C22_next_location_terminates :
  forall (T : Type) (N : Num T) , zero_eq_zero N ->
  forall (n : navigator T) (d : T) (draw : Z) (iterations : nat),
    (current_segments n < iterations)%nat ->
    next_loop iterations n d draw <> NoFuel /\
    next_loop iterations n d draw = next_loop (nav_fuel n) n d draw.
Proof. intros T N Z0. exact (C22_proof Z0). Qed.
Print Assumptions C22_next_location_terminates.

Theorem C22_next_location_returns :
  forall (T : Type) (N : Num T), zero_eq_zero N ->
  forall (n : navigator T) tick speed draw, NextLocation n tick speed draw <> NoFuel.
Proof. intros T N Z0. exact (NextLocation_nofuel Z0). Qed.
Print Assumptions C22_next_location_returns.

(** the premise holds for binary64 *)
Example C22_example : zero_eq_zero exN /\ current_segments ex_nav = 2%nat.
Proof. split; [apply zero_eq_zero_F64|vm_compute; reflexivity]. Qed.

(** C23. What a successful step does, exactly. *)
Theorem C23_successful_step :
  forall (T : Type) (N : Num T), zero_eq_zero N ->
  forall (n : navigator T) tick speed draw n',
    NextLocation n tick speed draw = Ret (true, n') ->
    let d := tick * speed in
    exists s, segment_at n (n_ri n) (n_ti n) (n_si n') s /\
      n_ri n' = n_ri n /\ n_ti n' = n_ti n /\ (n_si n <= n_si n')%Z /\
      n_cd n' = n_cd n + d /\ n_crd n' = n_crd n + d /\ n_ctd n' = n_ctd n + d /\
      n_csd n' = (if (n_si n' =? n_si n)%Z then n_csd n else f0) + d /\
      (n_csd n' <=? sg_dist s) = true /\
      n_point n' = point_along s (if (n_si n' =? 0)%Z && (n_csd n =? f0) then f1 else n_csd n') /\
      n_routes n' = n_routes n /\ n_dist n' = n_dist n /\ n_ver n' = n_ver n /\ n_off n' = n_off n /\
      n_elev n' = n_elev n /\
      (n_skip n = true \/ (n_off n <= 0)%Z) /\
      (* the segments passed over on the way were too short for the step *)
      (forall i si, (n_si n <= i < n_si n')%Z -> segment_at n (n_ri n) (n_ti n) i si ->
         ((if (i =? n_si n)%Z then n_csd n else f0) + d <=? sg_dist si) = false).
Proof. intros T N Z0. exact (C23_proof Z0). Qed.
Print Assumptions C23_successful_step.

Example C23_example :
  match locations ex_nav (repeat (km 60, f64_ofZ 1, 0%Z) 2) with
  | Ret (bs, n) => bs = [true; true] /\ position n = (0, 0, 1)%Z /\
                   ftrunc (n_csd n) = 60000%Z /\ ftrunc (n_ctd n) = 120000%Z
  | _ => False
  end.
Proof. vm_compute. auto. Qed.

(** C26. Traversal order. [moves_forward]: to a later segment of the same track; [leaves_track]: to
    the start of the next track, of the next route after a last track, or of the whole journey
    after the last track of the last route (Spec/NavSpec.v). *)
Theorem C26_traversal_order :
  forall (T : Type) (N : Num T), zero_eq_zero N ->
  forall (n : navigator T) tick speed draw b n',
    NextLocation n tick speed draw = Ret (b, n') ->
    n_routes n' = n_routes n /\
    ((waiting n /\ b = false /\ position n' = position n) \/
     (~ waiting n /\ b = true /\ (position n' = position n \/ moves_forward n (position n'))) \/
     (~ waiting n /\ b = false /\ (moves_forward n (position n') \/ leaves_track n (position n')))).
Proof. intros T N Z0. exact (C26_proof Z0). Qed.
Print Assumptions C26_traversal_order.

Example C26_example :
  map (fun k => match locations ex_nav (repeat (km 120, f64_ofZ 1, 0%Z) k) with
                | Ret (_, n) => Some (position n)
                | _ => None end) (seq 0 9)
  = map Some [(0, 0, 0); (0, 1, 0); (0, 1, 0); (0, 1, 0); (1, 0, 0); (1, 0, 0); (1, 0, 0);
              (1, 0, 2); (0, 0, 0)]%Z.
Proof. vm_compute. reflexivity. Qed.

(** C29. While offline, each NextLocation call only counts the offline duration down. *)
Theorem C29_offline_countdown :
  forall (T : Type) (N : Num T) (n : navigator T) (args : list (T * T * Z)),
    n_routes n <> [] -> n_skip n = false -> (zlen args <= n_off n)%Z ->
    locations n args = Ret (repeat false (List.length args), set_off n (n_off n - zlen args)%Z).
Proof. exact @C29_proof. Qed.
Print Assumptions C29_offline_countdown.

(** C29. ToOffline sets the duration to the generator's value (or nothing in skip mode). *)
Theorem C29_to_offline :
  forall (T : Type) (n : navigator T) draw n', ToOffline n draw = Ret n' ->
    (n_skip n = true /\ n' = n) \/
    (n_skip n = false /\ exists r, n_rnd n = Some r /\ n' = set_off n (random_Value r draw)).
Proof. exact @C29_enter_proof. Qed.
Print Assumptions C29_to_offline.

Example C29_example :
  match ToOffline ex_nav (2 ^ 31) with
  | Ret n => n_off n = 3%Z /\ nav_IsOffline n = true /\
      match locations n (repeat (km 1, km 1, 0%Z) 3) with
      | Ret (bs, n') => bs = repeat false 3 /\ nav_IsOffline n' = false
      | _ => False
      end
  | _ => False
  end.
Proof. vm_compute. auto. Qed.

(** C30. MoveToSegment is all-or-nothing. *)
Theorem C30_moves_all_or_nothing :
  forall (T : Type) (N : Num T) (n : navigator T) (r t i : Z),
    (exists s n', segment_at n r t i s /\ (r, t, i) <> position n /\
       MoveToSegment n r t i = (true, n') /\
       position n' = (r, t, i) /\ n_point n' = sg_a s /\ n_off n' = 0%Z /\
       n_csd n' = f0 /\
       (n_ctd n' = if ((r =? n_ri n) && (t =? n_ti n))%Z then n_ctd n else f0) /\
       (n_crd n' = if (r =? n_ri n)%Z then n_crd n else f0) /\
       n_cd n' = n_cd n /\ n_routes n' = n_routes n /\ n_dist n' = n_dist n /\
       n_ver n' = n_ver n /\ n_elev n' = n_elev n /\ n_rnd n' = n_rnd n /\ n_skip n' = n_skip n) \/
    (((forall s, ~ segment_at n r t i s) \/ (r, t, i) = position n) /\
       MoveToSegment n r t i = (false, n)).
Proof. exact @C30_proof. Qed.
Print Assumptions C30_moves_all_or_nothing.

(** C30. The other moves are special cases. *)
Theorem C30_other_moves :
  forall (T : Type) (N : Num T) (n : navigator T),
    (forall r, MoveToRoute n r = MoveToSegment n r 0 0) /\
    (forall r t, MoveToTrack n r t = MoveToSegment n r t 0) /\
    (forall id i, id <> ""%string -> first_at (fun r => rt_id r = id) (n_routes n) i ->
       MoveToRouteByID n id = MoveToSegment n i 0 0) /\
    (forall id, (id = ""%string \/ Forall (fun r => rt_id r <> id) (n_routes n)) ->
       MoveToRouteByID n id = (false, n)) /\
    (forall rid tid i r j, rid <> ""%string -> first_at (fun r => rt_id r = rid) (n_routes n) i ->
       at_pos (n_routes n) i r -> first_at (fun t => tk_id t = tid) (rt_tracks r) j ->
       MoveToTrackByID n rid tid = MoveToSegment n i j 0) /\
    (forall rid tid, (rid = ""%string \/ Forall (fun r => rt_id r <> rid) (n_routes n)) ->
       MoveToTrackByID n rid tid = (false, n)) /\
    (forall rid tid i r, rid <> ""%string -> first_at (fun r => rt_id r = rid) (n_routes n) i ->
       at_pos (n_routes n) i r -> Forall (fun t => tk_id t <> tid) (rt_tracks r) ->
       MoveToTrackByID n rid tid = (false, n)).
Proof. exact @C30_ids_proof. Qed.
Print Assumptions C30_other_moves.

Example C30_example :
  (let '(ok, n) := MoveToSegment ex_nav 1 0 2 in ok = true /\ position n = (1, 0, 2)%Z) /\
  fst (MoveToSegment ex_nav 1 0 3) = false /\ fst (MoveToSegment ex_nav 0 (-1) 0) = false /\
  fst (MoveToSegment ex_nav 0 0 0) = false /\
  position (snd (MoveToTrackByID ex_nav "r1" "t12")) = (0, 1, 0)%Z.
Proof. vm_compute. auto. Qed.

(** C31. NextRoute / PrevRoute (the adjacent route must have a first track with a segment). *)
Theorem C31_next_prev_route :
  forall (T : Type) (N : Num T) (n : navigator T),
    ((exists s, segment_at n (n_ri n + 1) 0 0 s) -> (0 <= n_ri n)%Z ->
       exists n', NextRoute n = (true, n') /\ position n' = (n_ri n + 1, 0, 0)%Z) /\
    ((forall s, ~ segment_at n (n_ri n + 1) 0 0 s) -> NextRoute n = (false, n)) /\
    ((exists s, segment_at n (n_ri n - 1) 0 0 s) ->
       exists n', PrevRoute n = (true, n') /\ position n' = (n_ri n - 1, 0, 0)%Z) /\
    ((forall s, ~ segment_at n (n_ri n - 1) 0 0 s) -> PrevRoute n = (false, n)) /\
    (forall n1, NextRoute n = (true, n1) -> (exists s, segment_at n (n_ri n) 0 0 s) ->
       exists n2, PrevRoute n1 = (true, n2) /\ position n2 = (n_ri n, 0, 0)%Z).
Proof. exact @C31_proof. Qed.
Print Assumptions C31_next_prev_route.

Example C31_example :
  fst (NextRoute ex_nav) = true /\ fst (NextRoute (snd (NextRoute ex_nav))) = false /\
  fst (PrevRoute ex_nav) = false /\ position (snd (PrevRoute (snd (NextRoute ex_nav)))) = (0, 0, 0)%Z.
Proof. vm_compute. auto. Qed.

(** C33. Each call either leaves version and structure alone or increases the version triple. *)
Theorem C33_version_grows :
  forall (T : Type) (N : Num T) (J : JsonLib T) (n : navigator T) o n', run_nav n o = Ret n' ->
    (nav_Sum n' = nav_Sum n /\ nav_struct n' = nav_struct n) \/ lex_lt (nav_Sum n) (nav_Sum n').
Proof. exact @C33_step_proof. Qed.
Print Assumptions C33_version_grows.

(** C33. Equal triples along a history mean that nothing structural changed in between. *)
Theorem C33_equal_versions :
  forall (T : Type) (N : Num T) (J : JsonLib T) ops1 ops2 (n m n' : navigator T),
    run_navs n ops1 = Ret m -> run_navs m ops2 = Ret n' -> nav_Sum n' = nav_Sum n ->
    nav_struct m = nav_struct n /\ nav_struct n' = nav_struct n.
Proof. exact @C33_equal_proof. Qed.
Print Assumptions C33_equal_versions.

Example C33_example :
  let run o := match run_nav ex_nav o with Ret n => nav_Sum n | _ => (0, 0, 0)%Z end in
  nav_Sum ex_nav = (1, 3, 0)%Z /\ run (NRouteOp 0 (RTrackChangeName 1 "home")) = (1, 3, 1)%Z /\
  run (NRouteOp 1 (RChangeColor (Some "#123456"%string))) = (1, 4, 0)%Z /\
  run (NRemoveTrack "r1" "t11") = (2, 4, 0)%Z /\ run (NNextLocation (km 1) (km 1) 0) = (1, 3, 0)%Z.
Proof. vm_compute. auto 10. Qed.

(** C34. Options ([eff_offline], [eff_elevation]: the last option of each kind wins). *)
Theorem C34_options_validated :
  forall (T : Type) (N : Num T) (opts : list (nav_option T)) uuid draws,
    let '(mino, maxo) := eff_offline opts (1%Z, 10%Z) in
    let '(mine, maxe, amp) := eff_elevation opts (f1, fofZ 500, 4%Z) in
    ((exists e, navigator_New opts uuid draws = GErr e) <->
     ((mino < 0)%Z \/ (3600 < maxo)%Z \/ (mine <? f0) = true \/ (maxe >? fofZ 50000) = true \/
      (amp < 4)%Z \/ (512 < amp)%Z)) /\
    (forall n, navigator_New opts uuid draws = GOk n ->
       n_routes n = [] /\ rewound n /\ n_dist n = f0 /\ n_off n = 0%Z /\ n_ver n = 0%Z /\
       (n_skip n = true <-> In SkipOfflineMode opts)).
Proof. exact @C34_proof. Qed.
Print Assumptions C34_options_validated.

Example C34_example :
  let new o := match navigator_New o "u" (fun _ => f64_ofZ 0) with GOk _ => true | GErr _ => false end in
  new [WithOffline 5 3600; WithElevation (f64_ofZ 0) (f64_ofZ 0) 512 0; SkipOfflineMode] = true /\
  new [WithOffline (-1) 3] = false /\ new [WithOffline 0 3601] = false /\
  new [WithElevation (f64_ofZ 0) (f64_ofZ 10) 3 0] = false.
Proof. vm_compute. auto. Qed.
