(** C14 (a track is exactly its polyline), C15 (IsClosed), C16 (route distance). *)
From Coq Require Import Lia.
From Verif.Model Require Import Base Num NumF64 Geo Track Route.
From Verif.Spec Require Import ListSpec TrackSpec RouteSpec.
From Verif.Proofs Require Import TrackLemmas RouteLemmas TrackRouteProofs LinkProofs.
Open Scope num_scope.

(** C14. NewTrack fails exactly on fewer than two points, and otherwise returns the track through
    the points ([is_track_through], Spec/TrackSpec.v). Holds for any arithmetic. *)
Theorem C14_track_is_polyline :
  forall (T : Type) (N : Num T) (points : list (point T)) (uuid color : string),
    ((List.length points < 2)%nat ->
       NewTrack points uuid color = GErr ErrInvalidRoutePath) /\
    ((2 <= List.length points)%nat ->
       exists t, NewTrack points uuid color = GOk t /\ is_track_through points t /\
                 tk_id t = uuid /\ tk_color t = color /\ tk_name t = ""%string).
Proof. exact @C14_proof. Qed.
Print Assumptions C14_track_is_polyline.

(** C14. The link number of a segment (visible in snapshots; it decides whether a step may run on
    into the next segment): its own position, unless the track has a single segment. *)
Theorem C14_segments_linked :
  forall (T : Type) (N : Num T) (points : list (point T)) uuid color t i s,
    NewTrack points uuid color = GOk t -> Forall not_nan points -> at_pos (tk_segments t) i s ->
    sg_rel s = if (NumSegments t =? 1)%Z then (-1)%Z else i.
Proof. exact @C14_linked_proof. Qed.
Print Assumptions C14_segments_linked.

(** Non-vacuity: a binary64 track through three points has two segments and reads back. *)
Example C14_example : forall m, let N := F64Num m in
  exists t, NewTrack [mkPoint (f64_ofZ 1) (f64_ofZ 2); mkPoint (f64_ofZ 3) (f64_ofZ 4);
                      mkPoint (f64_ofZ 5) (f64_ofZ 6)] "id" "#fff" = GOk t /\
            NumSegments t = 2%Z /\
            map (fun s => sg_rel s) (tk_segments t) = [0%Z; 1%Z].
Proof. intros m. eexists. repeat split. Qed.

(** C15, the direction that holds: a closed polyline is reported as closed. *)
Theorem C15_closed_is_reported_partial :
  forall (T : Type) (N : Num T) (p : point T) (mid : list (point T)) uuid color t,
    not_nan p -> (1 <= List.length mid)%nat ->
    NewTrack (p :: mid ++ [p]) uuid color = GOk t -> tk_isClosed t = true.
Proof. exact @C15_complete. Qed.
Print Assumptions C15_closed_is_reported_partial.

(** C15, exact characterisation of what IsClosed computes: only longitudes are compared. *)
Theorem C15_characterisation_partial :
  forall (T : Type) (N : Num T) (points : list (point T)) uuid color t,
    NewTrack points uuid color = GOk t ->
    (tk_isClosed t = true <->
     exists p q mid, points = p :: mid ++ [q] /\ (1 <= List.length mid)%nat /\
       (lon p =? lon q) = true /\ (lat q =? lat q) = true).
Proof. exact @C15_char. Qed.
Print Assumptions C15_characterisation_partial.

(** C15 as stated is false: an open polyline whose end points share their longitude is
    reported as closed (binary64, any math library). *)
Theorem C15_refuted :
  forall m, exists points t p q mid, let N := F64Num m in
    NewTrack points "id" "#fff" = GOk t /\ points = p :: mid ++ [q] /\
    tk_isClosed t = true /\ (lat p =? lat q) = false.
Proof. exact C15_refuted_proof. Qed.
Print Assumptions C15_refuted.

(** C16. After any history of calls, Distance is the left-to-right sum of the distances of the
    tracks held, and the tracks held are those prescribed by [expected]. Any arithmetic. *)
Theorem C16_route_distance :
  forall (T : Type) (N : Num T) uuid color (ops : list (route_op T)),
    let r := fold_left run_route ops (NewRoute uuid color) in
    rt_dist r = fsum (map tk_dist (rt_tracks r)) /\
    held r = fold_left expected ops [].
Proof. exact @route_history. Qed.
Print Assumptions C16_route_distance.

(** Non-vacuity: two tracks added, the first removed, one remains. *)
Example C16_example : forall m, let N := F64Num m in
  let mk id := match NewTrack [mkPoint (f64_ofZ 1) (f64_ofZ 2); mkPoint (f64_ofZ 3) (f64_ofZ 4)]
                              id "#fff" with GOk t => Some t | _ => None end in
  let r := fold_left run_route [RAddTrack (mk "a"%string); RAddTrack (mk "b"%string); RRemoveTrack "a"]
                     (NewRoute "r" "#000") in
  map tk_id (rt_tracks r) = ["b"%string] /\ rt_version r = 3%Z.
Proof. intros m. split; reflexivity. Qed.
