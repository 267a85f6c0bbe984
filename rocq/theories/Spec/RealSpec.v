(** Lengths and progress over the real numbers. *)
From Coq Require Import Reals.
From Verif.Model Require Import Base Num NumR Geo Curve PropMap Types Track Route Navigator.
From Verif.Spec Require Import ListSpec TrackSpec RouteSpec NavSpec.
Open Scope R_scope.

Definition rsum (l : list R) : R := fold_right Rplus 0 l.

(** total of [f] over the elements before position [i] *)
Definition before {A} (f : A -> R) (l : list A) (i : Z) : R := rsum (map f (firstn (Z.to_nat i) l)).

(** Lengths are what they should be: a track's length is the sum of its (non-negative) segment
    lengths, a route's the sum of its tracks', the navigator's the sum of its routes'. *)
Definition measured_track (t : track R) : Prop :=
  tk_dist t = rsum (map sg_dist (tk_segments t)) /\ Forall (fun s => 0 <= sg_dist s) (tk_segments t).
Definition measured_route (r : route R) : Prop :=
  rt_dist r = rsum (map tk_dist (rt_tracks r)) /\ Forall measured_track (rt_tracks r).
Definition measured (n : navigator R) : Prop :=
  n_dist n = rsum (map rt_dist (n_routes n)) /\ Forall measured_route (n_routes n).

(** histories that add only measured routes and leave the tracks of added routes alone *)
Definition measured_op (o : nav_op R) : Prop :=
  keeps_tracks o /\
  match o with NAddRoute rs => forall r, In (Some r) rs -> measured_route r | _ => True end.

(** length of the path before segment [i] of track [t] of route [r] *)
Definition path_before (n : navigator R) (rt : route R) (tk : track R) (r t i : Z) : R :=
  before rt_dist (n_routes n) r + before tk_dist (rt_tracks rt) t + before sg_dist (tk_segments tk) i.

(** steps forward only *)
Definition forward_op (o : nav_op R) : Prop :=
  match o with NNextLocation tick speed _ => 0 <= tick * speed | _ => True end.

(** at most two routes, each with at most two tracks *)
Definition two_by_two (n : navigator R) : Prop :=
  (List.length (n_routes n) <= 2)%nat /\ Forall (fun r => (List.length (rt_tracks r) <= 2)%nat) (n_routes n).

(** DestinationTo is only called on a navigator of at most two routes of at most two tracks *)
Fixpoint jumps_two_by_two {J : JsonLib R} (n : navigator R) (ops : list (nav_op R)) : Prop :=
  match ops with
  | [] => True
  | o :: r =>
      match o with NDestinationTo _ => two_by_two n | _ => True end /\
      match run_nav n o with Ret n' => jumps_two_by_two n' r | _ => True end
  end.

(** ** stepping and completion *)

(** is this call counted down as an offline tick? *)
Definition offline_now {T} (n : navigator T) : Prop := n_skip n = false /\ (0 < n_off n)%Z.

(** A NextLocation call that took the navigator from [n] to [n'] with answer [b] completed the
    journey: there was one, it was not an offline tick, did not find a location, and ended at the very start.
    (By C26 an online call without a location leaves the segment it was on, so from the start of
    the journey it ends there again only by way of the last track of the last route.) *)
Definition completes {T} (n : navigator T) (b : bool) (n' : navigator T) : Prop :=
  n_routes n <> [] /\ ~ offline_now n /\ b = false /\ position n' = (0, 0, 0)%Z.

(** numbers of segments, tracks and routes *)
Definition count_segments {T} (n : navigator T) : Z :=
  fold_right Z.add 0%Z (map (fun r => fold_right Z.add 0%Z (map (fun t => zlen (tk_segments t)) (rt_tracks r)))
                            (n_routes n)).
Definition count_tracks {T} (n : navigator T) : Z :=
  fold_right Z.add 0%Z (map (fun r => zlen (rt_tracks r)) (n_routes n)).

(** riding: anything but moving to another place by hand *)
Definition riding_op {T} (o : nav_op T) : Prop :=
  match o with
  | NNextRoute | NPrevRoute | NMoveToRouteByID _ | NMoveToTrackByID _ _ | NMoveToRoute _
  | NMoveToTrack _ _ | NMoveToSegment _ _ _ | NDestinationTo _ => False
  | _ => True
  end.

(** ask after every NextLocation call whether the journey is finished *)
Definition ask_every_time {T} (args : list (T * T * Z)) : list (nav_op T) :=
  flat_map (fun '(tick, speed, draw) => [NNextLocation tick speed draw; NIsFinish]) args.

Definition step_length (a : R * R * Z) : R := fst (fst a) * snd (fst a).

(** among the calls [args], made from [n], there is one that completes the journey; asked right
    after it, IsFinish says so *)
Definition completion_among {T} {N : Num T} {J : JsonLib T} (n : navigator T) (args : list (T * T * Z)) : Prop :=
  exists before tick speed draw after bs n1 b n2,
    args = before ++ (tick, speed, draw) :: after /\
    locations n before = Ret (bs, n1) /\
    NextLocation n1 tick speed draw = Ret (b, n2) /\
    completes n1 b n2 /\ fst (IsFinish n2) = true.

(** a value the random generator can produce *)
Definition uint32 (x : Z) : Prop := (0 <= x < 2 ^ 32)%Z.

(** no offline period is longer than [M] calls *)
Definition offline_at_most {T} (M : Z) (n : navigator T) : Prop :=
  (n_off n <= M)%Z /\ forall r draw, n_rnd n = Some r -> uint32 draw -> (random_Value r draw <= M)%Z.

(** the random draws of a call are 32-bit values *)
Definition uint32_op {T} (o : nav_op T) : Prop :=
  match o with NToOffline draw | NNextLocation _ _ draw => uint32 draw | _ => True end.

(** ** completion is reported *)

(** Is a completion pending after call [o] took the navigator from [n] to [n'], if [p] said so
    before? A NextLocation call that does nothing but wait changes nothing; any other one makes it
    pending exactly if it completes the journey. Asking makes it not pending. *)
Definition pending_after {T} {N : Num T} {J : JsonLib T} (n : navigator T) (p : Prop) (o : nav_op T) (n' : navigator T) : Prop :=
  match o with
  | NNextLocation tick speed draw =>
      ((n_routes n = [] \/ offline_now n) /\ p) \/
      (exists b, NextLocation n tick speed draw = Ret (b, n') /\ completes n b n')
  | NIsFinish => False
  | _ => p
  end.

Fixpoint pending {T} {N : Num T} {J : JsonLib T} (n : navigator T) (p : Prop) (ops : list (nav_op T)) : Prop :=
  match ops with
  | [] => p
  | o :: r => match run_nav n o with Ret n' => pending n' (pending_after n p o n') r | _ => False end
  end.

(** steps longer than ten centimetres, questions, and calls that do not concern the position *)
Definition long_steps (o : nav_op R) : Prop :=
  match o with
  | NNextLocation tick speed _ => 1 / 10 < tick * speed
  | NIsFinish | NToOffline _ | NNextElevation _ | NShuffleElevation _ | NQuery => True
  | _ => False
  end.

(** ** visiting segments *)

(** one of the calls [args], made from [n], found a location on segment [i] of track [t] of route [r] *)
Definition visited {T} {N : Num T} {J : JsonLib T} (n : navigator T) (args : list (T * T * Z)) (r t i : Z) : Prop :=
  exists before tick speed draw after bs n1 n2,
    args = before ++ (tick, speed, draw) :: after /\
    locations n before = Ret (bs, n1) /\
    NextLocation n1 tick speed draw = Ret (true, n2) /\ position n2 = (r, t, i).

(** the navigator stands at the start of track [tk] *)
Definition at_track_start {T} {N : Num T} (n : navigator T) (tk : track T) : Prop :=
  n_si n = 0%Z /\ n_csd n = f0 /\
  exists rt, at_pos (n_routes n) (n_ri n) rt /\ at_pos (rt_tracks rt) (n_ti n) tk.

(** consecutive segments are linked *)
Definition linked {T} (tk : track T) : Prop :=
  forall i s, at_pos (tk_segments tk) i s -> (i < zlen (tk_segments tk) - 1)%Z -> segment_hasRelation s = true.
