(** Specification vocabulary for tracks and routes. *)
From Verif.Model Require Import Base Num Geo Track Route.
From Verif.Spec Require Import ListSpec.
Open Scope num_scope.

Section TrackSpec.
Context {T : Type} {N : Num T}.

(** left-to-right floating point sum *)
Definition fsum (l : list T) : T := fold_left fadd l f0.

Definition dist_pp (p q : point T) : T := Distance (lat p) (lon p) (lat q) (lon q).
Definition bearing_pp (p q : point T) : T := Bearing (lat p) (lon p) (lat q) (lon q).

(** The points of a track, read back from its segments. *)
Definition polyline_of (t : track T) : list (point T) :=
  match tk_segments t with
  | [] => []
  | s :: _ => sg_a s :: map sg_b (tk_segments t)
  end.

(** [s] is the directed segment from [p] to [q]. *)
Definition segment_between (pq : point T * point T) (s : segment T) : Prop :=
  sg_a s = fst pq /\ sg_b s = snd pq /\
  sg_dist s = dist_pp (fst pq) (snd pq) /\ sg_bearing s = bearing_pp (fst pq) (snd pq).

(** [t] is the track through [points]. *)
Definition is_track_through (points : list (point T)) (t : track T) : Prop :=
  Forall2 segment_between (pairs points) (tk_segments t) /\
  (forall i s, at_pos (tk_segments t) i s -> sg_index s = i) /\
  NumSegments t = (zlen points - 1)%Z /\
  tk_dist t = fsum (map (fun pq => dist_pp (fst pq) (snd pq)) (pairs points)) /\
  polyline_of t = points.

(** coordinates that are numbers (== is reflexive on them) *)
Definition not_nan (p : point T) : Prop := (lat p =? lat p) = true /\ (lon p =? lon p) = true.

End TrackSpec.
