(** Model of navigator/route.go. *)
From Verif.Model Require Import Base Num Geo PropMap Pb Track.
Open Scope num_scope.

Section Route.
Context {T : Type} {N : Num T} {J : JsonLib T}.

(** navigator/route.go 14-22 *)
Record route : Type := mkRoute {
  rt_id : string; rt_dist : T; rt_color : string; rt_name : string;
  rt_tracks : list (track T); rt_props : option (props T); rt_version : Z }.

(** the zero value new(Route) *)
Definition route_zero : route := mkRoute "" f0 "" "" [] None 0.

(** navigator/route.go 28-34 *)
Definition NewRoute (uuid color : string) : route := mkRoute uuid f0 color "" [] None 0.

(** navigator/route.go 37-48 *)
Definition RestoreRoute (routeID color : string) (p : option (props T)) : route :=
  mkRoute routeID f0 color "" [] p 0.

(** navigator/route.go 251-253 *)
Definition route_nextVersion (r : route) : route :=
  mkRoute (rt_id r) (rt_dist r) (rt_color r) (rt_name r) (rt_tracks r) (rt_props r)
          (rt_version r + 1)%Z.

(** navigator/route.go 235-240 *)
Definition route_updateState (r : route) : route :=
  mkRoute (rt_id r) (fold_left (fun d t => d + tk_dist t) (rt_tracks r) f0) (rt_color r)
          (rt_name r) (rt_tracks r) (rt_props r) (rt_version r).

Definition route_setTracks (r : route) (l : list (track T)) : route :=
  mkRoute (rt_id r) (rt_dist r) (rt_color r) (rt_name r) l (rt_props r) (rt_version r).

(** navigator/route.go 166-176 *)
Definition AddTrack (r : route) (t : option (track T)) : route :=
  match t with
  | None => r
  | Some t => route_nextVersion (route_updateState (route_setTracks r (rt_tracks r ++ [t])))
  end.

(** navigator/route.go 51-57 *)
Definition RouteFromTracks (tracks : list (option (track T))) (uuid color : string) : route :=
  fold_left AddTrack tracks (NewRoute uuid color).

(** navigator/route.go 70-77; [hex] = Some (color.Hex()) when color.IsValid() *)
Definition route_ChangeColor (r : route) (hex : option string) : option goerr * route :=
  match hex with
  | None => (Some ErrInvalidColor, r)
  | Some c => (None, route_nextVersion
      (mkRoute (rt_id r) (rt_dist r) c (rt_name r) (rt_tracks r) (rt_props r) (rt_version r)))
  end.

(** navigator/route.go 90-98 *)
Definition route_ChangeName (r : route) (name : string) : option goerr * route :=
  match ParseName name with
  | GErr e => (Some e, r)
  | GOk n => (None, route_nextVersion
      (mkRoute (rt_id r) (rt_dist r) (rt_color r) n (rt_tracks r) (rt_props r) (rt_version r)))
  end.

(** navigator/route.go 101-106 *)
Definition route_Props (r : route) : props T * route :=
  match rt_props r with
  | Some p => (p, r)
  | None => (props_Make,
      mkRoute (rt_id r) (rt_dist r) (rt_color r) (rt_name r) (rt_tracks r) (Some props_Make)
              (rt_version r))
  end.

(** a caller writing through the map returned by Props() *)
Definition route_setProps (r : route) (p : props T) : route :=
  mkRoute (rt_id r) (rt_dist r) (rt_color r) (rt_name r) (rt_tracks r) (Some p) (rt_version r).

(** navigator/route.go 109-111 *)
Definition NumTracks (r : route) : Z := zlen (rt_tracks r).

(** navigator/route.go 114-119 *)
Definition TrackAt (r : route) (i : Z) : option (track T) :=
  if ((zlen (rt_tracks r) =? 0) || (zlen (rt_tracks r) - 1 <? i) || (i <? 0))%Z then None
  else zget (rt_tracks r) i.

(** navigator/route.go 122-140 *)
Definition route_RemoveTrack (r : route) (trackID : string) : bool * route :=
  if ((slen trackID =? 0) || (36 <? slen trackID))%Z then (false, r)
  else
    match find_index (fun t => String.eqb (tk_id t) trackID) (rt_tracks r) with
    | None => (false, r)
    | Some i => (true, route_nextVersion
                         (route_updateState (route_setTracks r (del_nth i (rt_tracks r)))))
    end.

(** navigator/route.go 143-154; note that a successful lookup bumps the version *)
Definition TrackByID (r : route) (trackID : string) : goret (track T) * route :=
  if ((slen trackID =? 0) || (36 <? slen trackID))%Z then (GErr ErrTrackNotFound, r)
  else
    match find (fun t => String.eqb (tk_id t) trackID) (rt_tracks r) with
    | None => (GErr ErrTrackNotFound, r)
    | Some t => (GOk t, route_nextVersion r)
    end.

(** navigator/route.go 242-249 *)
Definition indexTrack (r : route) (trackID : string) : Z :=
  match find_index (fun t => String.eqb (tk_id t) trackID) (rt_tracks r) with
  | Some i => Z.of_nat i
  | None => -1
  end.

(** navigator/route.go 179-197 *)
Definition route_Snapshot (r : route) : pbRoute T :=
  mkPbRoute (rt_id r) (rt_dist r) (rt_color r) (map track_Snapshot (rt_tracks r))
            (marshal_props (rt_props r)) (rt_name r) (rt_version r).

(** navigator/route.go 200-233; [r] is the receiver *)
Definition RouteFromSnapshot (r : route) (snap : pbRoute T) : res (option goerr * route) :=
  let* tracks := mapM TrackFromSnapshot (pro_tracks snap) in
  let pr : option (option (props T)) :=
    if (0 <? slen (pro_props snap))%Z then json_unmarshal (pro_props snap) else Some None in
  match pr with
  | None => Ret (Some ErrJSON, r)
  | Some props =>
      let finish (name : string) : option goerr * route :=
        (None, mkRoute (pro_id snap) (pro_distance snap) (pro_color snap) name tracks props
                       (pro_version snap)) in
      if (0 <? slen (pro_name snap))%Z then
        match ParseName (pro_name snap) with
        | GErr e => Ret (Some e, r)
        | GOk n => Ret (finish n)
        end
      else Ret (finish (rt_name r))
  end.

End Route.
Arguments route : clear implicits.
