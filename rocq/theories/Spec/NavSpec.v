(** Histories of public calls on a navigator. *)
From Verif.Model Require Import Base Num Geo Curve PropMap Types Track Route Navigator.
From Verif.Spec Require Import ListSpec TrackSpec RouteSpec.
Open Scope num_scope.

Section NavSpec.
Context {T : Type} {N : Num T} {J : JsonLib T}.

(** The public calls that can change a navigator, and the queries that index into it. *)
Inductive nav_op : Type :=
| NAddRoute (rs : list (option (route T)))
| NResetRoutes
| NRemoveRoute (id : string)
| NRemoveTrack (rid tid : string)
| NReset
| NRouteOp (i : nat) (o : route_op T)     (* a call on the i-th route through its handle *)
| NNextRoute | NPrevRoute
| NMoveToRouteByID (id : string)
| NMoveToTrackByID (rid tid : string)
| NMoveToRoute (r : Z)
| NMoveToTrack (r t : Z)
| NMoveToSegment (r t s : Z)
| NDestinationTo (meters : T)
| NToOffline (draw : Z)
| NNextElevation (tick : T)
| NShuffleElevation (draws : nat -> T)
| NNextLocation (tick speed : T) (draw : Z)
| NIsFinish
| NQuery.        (* CurrentRoute/Track/Segment/Bearing, the three distances, Snapshot *)

Definition run_nav (n : navigator T) (o : nav_op) : res (navigator T) :=
  match o with
  | NAddRoute rs => Ret (snd (nav_AddRoute n rs))
  | NResetRoutes => Ret (snd (nav_ResetRoutes n))
  | NRemoveRoute id => Ret (snd (nav_RemoveRoute n id))
  | NRemoveTrack r t => Ret (snd (nav_RemoveTrack n r t))
  | NReset => Ret (nav_Reset n)
  | NRouteOp i o => Ret (nav_mutateRoute n i (fun r => run_route r o))
  | NNextRoute => Ret (snd (NextRoute n))
  | NPrevRoute => Ret (snd (PrevRoute n))
  | NMoveToRouteByID id => Ret (snd (MoveToRouteByID n id))
  | NMoveToTrackByID r t => Ret (snd (MoveToTrackByID n r t))
  | NMoveToRoute r => Ret (snd (MoveToRoute n r))
  | NMoveToTrack r t => Ret (snd (MoveToTrack n r t))
  | NMoveToSegment r t s => Ret (snd (MoveToSegment n r t s))
  | NDestinationTo m => Ret (snd (DestinationTo n m))
  | NToOffline d => ToOffline n d
  | NNextElevation t => NextElevation n t
  | NShuffleElevation d => ShuffleElevation n d
  | NNextLocation t s d => let* (_, n') := NextLocation n t s d in Ret n'
  | NIsFinish => Ret (snd (IsFinish n))
  | NQuery =>
      let* _ := CurrentRoute n in
      let* _ := CurrentTrack n in
      let* _ := CurrentSegment n in
      let* _ := CurrentBearing n in
      let* _ := RouteDistance n in
      let* _ := TrackDistance n in
      let* _ := SegmentDistance n in
      let* _ := nav_Snapshot n in
      Ret n
  end.

Fixpoint run_navs (n : navigator T) (ops : list nav_op) : res (navigator T) :=
  match ops with
  | [] => Ret n
  | o :: r => let* n' := run_nav n o in run_navs n' r
  end.

(** DestinationTo is only called while the navigator holds at most two routes. *)
Fixpoint jumps_on_at_most_two_routes (n : navigator T) (ops : list nav_op) : Prop :=
  match ops with
  | [] => True
  | o :: r =>
      match o with NDestinationTo _ => (zlen (n_routes n) <= 2)%Z | _ => True end /\
      match run_nav n o with Ret n' => jumps_on_at_most_two_routes n' r | _ => True end
  end.

(** A position is valid when the navigator is empty or the route index denotes a route. *)
Definition on_a_route (n : navigator T) : Prop :=
  n_routes n = [] \/ exists r, at_pos (n_routes n) (n_ri n) r.

(** What a user can see of the structure of the routes: IDs, names, colours, lengths, tracks. *)
Definition track_struct (t : track T) : string * string * string * T * list (segment T) :=
  (tk_id t, tk_name t, tk_color t, tk_dist t, tk_segments t).
Definition route_struct (r : route T) :=
  (rt_id r, rt_name r, rt_color r, rt_dist r, map track_struct (rt_tracks r)).
Definition nav_struct (n : navigator T) := map route_struct (n_routes n).

(** lexicographic order on version triples *)
Definition lex_lt (a b : Z * Z * Z) : Prop :=
  let '(a1, a2, a3) := a in let '(b1, b2, b3) := b in
  (a1 < b1 \/ (a1 = b1 /\ (a2 < b2 \/ (a2 = b2 /\ a3 < b3))))%Z.

(** *** vocabulary for single calls *)

(** The routes AddRoute should append, given the IDs already present. *)
Fixpoint fresh_routes (ids : list string) (rs : list (option (route T))) : list (route T) :=
  match rs with
  | [] => []
  | None :: r => fresh_routes ids r
  | Some x :: r => if in_dec string_dec (rt_id x) ids then fresh_routes ids r
                   else x :: fresh_routes (rt_id x :: ids) r
  end.

Definition position (n : navigator T) : Z * Z * Z := (n_ri n, n_ti n, n_si n).

(** the navigator is at its start with all progress counters at zero *)
Definition rewound (n : navigator T) : Prop :=
  position n = (0%Z, 0%Z, 0%Z) /\ n_csd n = f0 /\ n_crd n = f0 /\ n_ctd n = f0 /\ n_cd n = f0.

(** everything that is neither routes, position, progress, total length nor version *)
Definition same_settings (n n' : navigator T) : Prop :=
  n_off n' = n_off n /\ n_point n' = n_point n /\ n_elev n' = n_elev n /\ n_rnd n' = n_rnd n /\
  n_skip n' = n_skip n.

Definition total_of_routes (n : navigator T) : T := fsum (map rt_dist (n_routes n)).

(** the point [x] metres from the start of segment [s], in its direction *)
Definition point_along (s : segment T) (x : T) : point T :=
  let r := Destination (lat (sg_a s)) (lon (sg_a s)) x (sg_bearing s) in mkPoint (fst r) (snd r).

(** there is a segment at position (r, t, i) *)
Definition segment_at (n : navigator T) (r t i : Z) (s : segment T) : Prop :=
  exists rt tk, at_pos (n_routes n) r rt /\ at_pos (rt_tracks rt) t tk /\ at_pos (tk_segments tk) i s.

(** forward inside the current track *)
Definition moves_forward (n : navigator T) (p : Z * Z * Z) : Prop :=
  exists i s, p = (n_ri n, n_ti n, i) /\ (n_si n < i)%Z /\ segment_at n (n_ri n) (n_ti n) i s.

(** from the current track to the start of the next track, of the next route after the last track,
    or of the whole journey after the last track of the last route *)
Inductive leaves_track (n : navigator T) : Z * Z * Z -> Prop :=
| to_next_track r : at_pos (n_routes n) (n_ri n) r -> (n_ti n + 1 < zlen (rt_tracks r))%Z ->
    leaves_track n (n_ri n, n_ti n + 1, 0)%Z
| to_next_route r : at_pos (n_routes n) (n_ri n) r -> (zlen (rt_tracks r) <= n_ti n + 1)%Z ->
    (n_ri n + 1 < zlen (n_routes n))%Z -> leaves_track n (n_ri n + 1, 0, 0)%Z
| to_start r : at_pos (n_routes n) (n_ri n) r -> (zlen (rt_tracks r) <= n_ti n + 1)%Z ->
    (n_ri n + 1 = zlen (n_routes n))%Z -> leaves_track n (0, 0, 0)%Z.

(** the navigator waits: nothing to ride, or offline *)
Definition waiting (n : navigator T) : Prop := n_routes n = [] \/ (n_skip n = false /\ (0 < n_off n)%Z).

(** a sequence of NextLocation calls: the answers and the final navigator *)
Fixpoint locations (n : navigator T) (args : list (T * T * Z)) : res (list bool * navigator T) :=
  match args with
  | [] => Ret ([], n)
  | (tick, speed, draw) :: r =>
      let* (b, n1) := NextLocation n tick speed draw in
      let* (bs, n2) := locations n1 r in
      Ret (b :: bs, n2)
  end.

(** histories in which no route loses or gains tracks behind the navigator's back *)
Definition keeps_tracks (o : nav_op) : Prop :=
  match o with
  | NRemoveTrack _ _ | NRouteOp _ (RAddTrack _) | NRouteOp _ (RRemoveTrack _) => False
  | _ => True
  end.

(** effective option values: the last option of each kind wins *)
Fixpoint eff_offline (opts : list (nav_option T)) (dflt : Z * Z) : Z * Z :=
  match opts with
  | [] => dflt
  | WithOffline a b :: r => eff_offline r (a, b)
  | _ :: r => eff_offline r dflt
  end.
Fixpoint eff_elevation (opts : list (nav_option T)) (dflt : T * T * Z) : T * T * Z :=
  match opts with
  | [] => dflt
  | WithElevation a b c _ :: r => eff_elevation r (a, b, c)
  | _ :: r => eff_elevation r dflt
  end.

End NavSpec.
Arguments nav_op : clear implicits.

(** Number of segments of the current track (0 when there is none). *)
Definition current_segments {T} (n : navigator T) : nat :=
  match zget (n_routes n) (n_ri n) with
  | Some r => match zget (rt_tracks r) (n_ti n) with
              | Some t => List.length (tk_segments t)
              | None => O
              end
  | None => O
  end.
