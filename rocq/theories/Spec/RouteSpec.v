(** Histories of public calls on a route, and what they should do. *)
From Verif.Model Require Import Base Num Geo PropMap Track Route.
From Verif.Spec Require Import ListSpec TrackSpec.
Open Scope num_scope.

Section RouteSpec.
Context {T : Type} {N : Num T}.

(** Public calls on a route, or on one of its tracks through TrackAt / EachTrack handles. *)
Inductive route_op : Type :=
| RAddTrack (t : option (track T))
| RRemoveTrack (id : string)
| RTrackByID (id : string)
| RChangeName (name : string)
| RChangeColor (hex : option string)
| RSetProps (p : props T)                       (* writing through Props() *)
| RTrackChangeName (i : nat) (name : string)    (* TrackAt(i).ChangeName(name) *)
| RTrackChangeColor (i : nat) (parsed : option string)
| RTrackSetProps (i : nat) (p : props T).

Definition upd_track (r : route T) (i : nat) (f : track T -> track T) : route T :=
  match nth_error (rt_tracks r) i with
  | Some t => route_setTracks r (set_nth i (f t) (rt_tracks r))
  | None => r
  end.

(** Running a call on the model. *)
Definition run_route (r : route T) (o : route_op) : route T :=
  match o with
  | RAddTrack t => AddTrack r t
  | RRemoveTrack id => snd (route_RemoveTrack r id)
  | RTrackByID id => snd (TrackByID r id)
  | RChangeName s => snd (route_ChangeName r s)
  | RChangeColor h => snd (route_ChangeColor r h)
  | RSetProps p => route_setProps (snd (route_Props r)) p
  | RTrackChangeName i s => upd_track r i (fun t => snd (track_ChangeName t s))
  | RTrackChangeColor i c => upd_track r i (fun t => snd (track_ChangeColor t c))
  | RTrackSetProps i p => upd_track r i (fun t => track_setProps (snd (track_Props t)) p)
  end.

(** The IDs (and lengths) of the tracks a route should hold after a history, computed on plain
    (id, length) pairs. IDs longer than 36 bytes and the empty ID are never removed. *)
Fixpoint remove_id (id : string) (l : list (string * T)) : list (string * T) :=
  match l with
  | [] => []
  | (i, d) :: r => if String.eqb i id then r else (i, d) :: remove_id id r
  end.

Definition expected (l : list (string * T)) (o : route_op) : list (string * T) :=
  match o with
  | RAddTrack (Some t) => l ++ [(tk_id t, tk_dist t)]
  | RRemoveTrack id => if (1 <=? slen id)%Z && (slen id <=? 36)%Z then remove_id id l else l
  | _ => l
  end.

Definition held (r : route T) : list (string * T) :=
  map (fun t => (tk_id t, tk_dist t)) (rt_tracks r).

End RouteSpec.
Arguments route_op : clear implicits.
