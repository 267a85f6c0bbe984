(** Model of navigator/navigator.go, navigator/options.go and navigator/location.go.

    Methods that mutate the receiver return the new navigator; [res] is used wherever the Go code
    indexes n.routes without a bounds check or dereferences n.elevation / n.offline. *)
From Verif.Model Require Import Base Num Geo Curve PropMap Pb Types TypesSnap Track Route.
Open Scope num_scope.

(** github.com/icholy/utm ToUTM as used by navigator/location.go 46-59: an oracle *)
Class UtmLib (T : Type) : Type := { utm_of : T -> T -> pbUTM T }.

Section Navigator.
Context {T : Type} {N : Num T} {J : JsonLib T} {U : UtmLib T}.

(** navigator/navigator.go 12-28; None for a nil elevation / offline *)
Record navigator : Type := mkNav {
  n_routes : list (route T);
  n_ri : Z; n_ti : Z; n_si : Z;            (* routeIndex, trackIndex, segmentIndex *)
  n_csd : T; n_crd : T; n_ctd : T; n_cd : T; (* currentSegment/Route/Track/-Distance *)
  n_off : Z;                               (* offlineIndex *)
  n_point : point T;
  n_elev : option (sensor T);
  n_rnd : option random;                   (* offline *)
  n_dist : T;
  n_skip : bool;
  n_ver : Z
}.

(** new(Navigator) *)
Definition nav_zero : navigator :=
  mkNav [] 0 0 0 f0 f0 f0 f0 0 (mkPoint f0 f0) None None f0 false 0.

(** Field updates. *)
Definition set_routes (n : navigator) l :=
  mkNav l (n_ri n) (n_ti n) (n_si n) (n_csd n) (n_crd n) (n_ctd n) (n_cd n) (n_off n)
        (n_point n) (n_elev n) (n_rnd n) (n_dist n) (n_skip n) (n_ver n).
Definition set_idx (n : navigator) ri ti si :=
  mkNav (n_routes n) ri ti si (n_csd n) (n_crd n) (n_ctd n) (n_cd n) (n_off n)
        (n_point n) (n_elev n) (n_rnd n) (n_dist n) (n_skip n) (n_ver n).
Definition set_cur (n : navigator) csd crd ctd cd :=
  mkNav (n_routes n) (n_ri n) (n_ti n) (n_si n) csd crd ctd cd (n_off n)
        (n_point n) (n_elev n) (n_rnd n) (n_dist n) (n_skip n) (n_ver n).
Definition set_off (n : navigator) o :=
  mkNav (n_routes n) (n_ri n) (n_ti n) (n_si n) (n_csd n) (n_crd n) (n_ctd n) (n_cd n) o
        (n_point n) (n_elev n) (n_rnd n) (n_dist n) (n_skip n) (n_ver n).
Definition set_point (n : navigator) p :=
  mkNav (n_routes n) (n_ri n) (n_ti n) (n_si n) (n_csd n) (n_crd n) (n_ctd n) (n_cd n) (n_off n)
        p (n_elev n) (n_rnd n) (n_dist n) (n_skip n) (n_ver n).
Definition set_elev (n : navigator) e :=
  mkNav (n_routes n) (n_ri n) (n_ti n) (n_si n) (n_csd n) (n_crd n) (n_ctd n) (n_cd n) (n_off n)
        (n_point n) e (n_rnd n) (n_dist n) (n_skip n) (n_ver n).
Definition set_dist (n : navigator) d :=
  mkNav (n_routes n) (n_ri n) (n_ti n) (n_si n) (n_csd n) (n_crd n) (n_ctd n) (n_cd n) (n_off n)
        (n_point n) (n_elev n) (n_rnd n) d (n_skip n) (n_ver n).
Definition set_ver (n : navigator) v :=
  mkNav (n_routes n) (n_ri n) (n_ti n) (n_si n) (n_csd n) (n_crd n) (n_ctd n) (n_cd n) (n_off n)
        (n_point n) (n_elev n) (n_rnd n) (n_dist n) (n_skip n) v.

(** ** Options *)

(** navigator/options.go 42-47 *)
Record navOptions : Type := mkNavOptions {
  o_elevMin : T; o_elevMax : T; o_elevMode : Z; o_minOff : Z; o_maxOff : Z;
  o_elevAmp : Z; o_skip : bool }.

(** navigator/options.go 17-40 *)
Inductive nav_option : Type :=
| SkipOfflineMode
| WithElevation (min max : T) (amplitude : Z) (mode : Z)
| WithOffline (min max : Z).

Definition apply_option (o : navOptions) (f : nav_option) : navOptions :=
  match f with
  | SkipOfflineMode =>
      mkNavOptions (o_elevMin o) (o_elevMax o) (o_elevMode o) (o_minOff o) (o_maxOff o)
                   (o_elevAmp o) true
  | WithElevation min max amp mode =>
      mkNavOptions min max mode (o_minOff o) (o_maxOff o) amp (o_skip o)
  | WithOffline min max =>
      mkNavOptions (o_elevMin o) (o_elevMax o) (o_elevMode o) min max (o_elevAmp o) (o_skip o)
  end.

(** navigator/options.go 100-108 *)
Definition defaultNavOptions : navOptions := mkNavOptions f1 (fofZ 500) 0 1 10 4 false.

(** navigator/options.go 78-98: the adjusted (min, max) *)
Definition validateOffline (min max : Z) : goret (Z * Z) :=
  if (min <? 0)%Z then GErr ErrOfflineMin
  else if (3600 <? max)%Z then GErr ErrOfflineMax
  else
    let min := if (max <? min)%Z then (max - 1)%Z else min in
    let max := if (max <? min)%Z then (min + 1)%Z else max in
    if ((min =? 0) && (max =? 0))%Z then GOk (0%Z, 10%Z) else GOk (min, max).

(** navigator/options.go 56-76: the adjusted (min, max) *)
Definition validateElevation (min max : T) : goret (T * T) :=
  if min <? f0 then GErr ErrElevationMin
  else if max >? fofZ 50000 then GErr ErrElevationMax
  else
    let min := if min >? max then max - f1 else min in
    let max := if max <? min then min + f1 else max in
    if (min =? f0) && (max =? f0) then GOk (f0, f0 + fofZ 100) else GOk (min, max).

(** navigator/navigator.go 31-62 *)
Definition navigator_New (opts : list nav_option) (uuid : string) (draws : nat -> T)
  : goret navigator :=
  let o := fold_left apply_option opts defaultNavOptions in
  match validateOffline (o_minOff o) (o_maxOff o) with
  | GErr e => GErr e
  | GOk (mino, maxo) =>
    match validateElevation (o_elevMin o) (o_elevMax o) with
    | GErr e => GErr e
    | GOk (mine, maxe) =>
      match NewSensor "elevation" mine maxe (o_elevAmp o) (o_elevMode o) uuid draws with
      | GErr e => GErr e
      | GOk s =>
          GOk (mkNav [] 0 0 0 f0 f0 f0 f0 0 (mkPoint f0 f0) (Some s)
                 (if o_skip o then None else Some (NewRandom mino maxo)) f0 (o_skip o) 0)
      end
    end
  end.

(** ** Bookkeeping *)

(** navigator/navigator.go 800-802 *)
Definition nav_nextVersion (n : navigator) : navigator := set_ver n (n_ver n + 1)%Z.

(** navigator/navigator.go 769-777 *)
Definition resetIndexes (n : navigator) : navigator :=
  set_cur (set_idx n 0 0 0) f0 f0 f0 f0.

(** navigator/navigator.go 762-767 *)
Definition calcRouteDistance (n : navigator) : navigator :=
  set_dist n (fold_left (fun d r => d + rt_dist r) (n_routes n) f0).

(** navigator/navigator.go 687-690 *)
Definition nav_Reset (n : navigator) : navigator := calcRouteDistance (resetIndexes n).

(** navigator/navigator.go 779-786 *)
Definition hasRoute (l : list (route T)) (id : string) : bool :=
  existsb (fun r => String.eqb id (rt_id r)) l.

(** navigator/navigator.go 83-90: the appended routes and the counter ok *)
Fixpoint add_routes (l : list (route T)) (routes : list (option (route T))) (ok : Z)
  : list (route T) * Z :=
  match routes with
  | [] => (l, ok)
  | None :: r => add_routes l r ok
  | Some x :: r => if hasRoute l (rt_id x) then add_routes l r ok
                   else add_routes (l ++ [x]) r (ok + 1)%Z
  end.

(** navigator/navigator.go 79-96 *)
Definition nav_AddRoute (n : navigator) (routes : list (option (route T)))
  : option goerr * navigator :=
  match routes with
  | [] => (Some ErrNoRoutes, n)
  | _ =>
      let '(l, ok) := add_routes (n_routes n) routes 0 in
      let n := set_routes n l in
      (None, if (0 <? ok)%Z then nav_nextVersion (nav_Reset n) else n)
  end.

(** navigator/navigator.go 99-110 *)
Definition nav_Sum (n : navigator) : Z * Z * Z :=
  (n_ver n,
   fold_left (fun a r => a + rt_version r)%Z (n_routes n) 0%Z,
   fold_left (fun b r => fold_left (fun b t => b + tk_version t)%Z (rt_tracks r) b)
             (n_routes n) 0%Z).

(** navigator/navigator.go 113-121 *)
Definition nav_ResetRoutes (n : navigator) : bool * navigator :=
  match n_routes n with
  | [] => (false, n)
  | _ => (true, nav_nextVersion (nav_Reset (set_routes n [])))
  end.

(** navigator/navigator.go 124-134 *)
Definition RouteByID (n : navigator) (routeID : string) : goret (route T) :=
  if ((slen routeID =? 0) || (36 <? slen routeID))%Z then GErr ErrRouteNotFound
  else match find (fun r => String.eqb (rt_id r) routeID) (n_routes n) with
       | Some r => GOk r
       | None => GErr ErrRouteNotFound
       end.

(** navigator/navigator.go 149-165 *)
Definition nav_RemoveRoute (n : navigator) (routeID : string) : bool * navigator :=
  if ((slen routeID =? 0) || (36 <? slen routeID))%Z then (false, n)
  else
    match find_index (fun r => String.eqb (rt_id r) routeID) (n_routes n) with
    | None => (false, n)
    | Some i => (true, nav_Reset (nav_nextVersion (set_routes n (del_nth i (n_routes n)))))
    end.

(** navigator/navigator.go 168-184 *)
Definition nav_RemoveTrack (n : navigator) (routeID trackID : string) : bool * navigator :=
  if ((slen routeID =? 0) || (36 <? slen routeID) || (slen trackID =? 0) || (36 <? slen trackID))%Z
  then (false, n)
  else
    match find_index (fun r => String.eqb (rt_id r) routeID) (n_routes n) with
    | None => (false, n)
    | Some i =>
        match nth_error (n_routes n) i with
        | None => (false, n)
        | Some r =>
            let '(ok, r') := route_RemoveTrack r trackID in
            if ok then (true, nav_nextVersion (set_routes n (set_nth i r' (n_routes n))))
            else (false, n)
        end
    end.

(** A caller mutating a route of this navigator through the pointer it holds (the navigator
    itself is not told): AddTrack, RemoveTrack, ChangeName, ... on route [i]. *)
Definition nav_mutateRoute (n : navigator) (i : nat) (f : route T -> route T) : navigator :=
  match nth_error (n_routes n) i with
  | Some r => set_routes n (set_nth i (f r) (n_routes n))
  | None => n
  end.

(** ** Position *)

(** navigator/navigator.go 258-263 *)
Definition CurrentRoute (n : navigator) : res (option (route T)) :=
  match n_routes n with
  | [] => Ret None
  | _ => let* r := deref (zget (n_routes n) (n_ri n)) in Ret (Some r)
  end.

(** navigator/navigator.go 266-272 *)
Definition CurrentTrack (n : navigator) : res (option (track T)) :=
  let* r := CurrentRoute n in
  Ret (match r with None => None | Some r => TrackAt r (n_ti n) end).

(** navigator/navigator.go 275-289 *)
Definition CurrentSegment (n : navigator) : res (segment T) :=
  let* r := CurrentRoute n in
  Ret (match r with
       | None => segment_zero
       | Some r =>
           match TrackAt r (n_ti n) with
           | None => segment_zero
           | Some t =>
               let s := SegmentAt t (n_si n) in
               if segment_IsEmpty s then segment_zero else s
           end
       end).

(** navigator/navigator.go 70-76 *)
Definition CurrentBearing (n : navigator) : res T :=
  let* s := CurrentSegment n in
  Ret (if segment_IsEmpty s then f0 else sg_bearing s).

(** navigator/navigator.go 197-203 *)
Definition RouteDistance (n : navigator) : res T :=
  let* r := CurrentRoute n in
  Ret (match r with None => f0 | Some r => rt_dist r end).

(** navigator/navigator.go 211-217 *)
Definition TrackDistance (n : navigator) : res T :=
  let* t := CurrentTrack n in
  Ret (match t with None => f0 | Some t => tk_dist t end).

(** navigator/navigator.go 225-231 *)
Definition SegmentDistance (n : navigator) : res T :=
  let* s := CurrentSegment n in
  Ret (if segment_IsEmpty s then f0 else sg_dist s).

(** navigator/navigator.go 239-248 *)
Definition IsFinish (n : navigator) : bool * navigator :=
  if ((n_ri n =? 0) && (n_ti n =? 0) && (n_si n =? 0))%Z && (n_cd n =? fdec 1 10)
  then (true, set_cur n (n_csd n) (n_crd n) (n_ctd n) f0)
  else (false, n).

(** navigator/navigator.go 297-302 *)
Definition RouteAt (n : navigator) (index : Z) : option (route T) :=
  if ((zlen (n_routes n) =? 0) || (zlen (n_routes n) - 1 <? index) || (index <? 0))%Z then None
  else zget (n_routes n) index.

(** navigator/navigator.go 325-327 *)
Definition nav_IsOffline (n : navigator) : bool := (0 <? n_off n)%Z.

(** ** Moves *)

(** navigator/navigator.go 423-472 *)
Definition MoveToSegment (n : navigator) (routeIndex trackIndex segmentIndex : Z)
  : bool * navigator :=
  if (zlen (n_routes n) =? 0)%Z then (false, n)
  else if ((n_ri n =? routeIndex) && (n_ti n =? trackIndex) && (n_si n =? segmentIndex))%Z
  then (false, n)
  else if ((routeIndex <? 0) || (zlen (n_routes n) - 1 <? routeIndex))%Z then (false, n)
  else
    match zget (n_routes n) routeIndex with
    | None => (false, n)
    | Some route =>
      if (zlen (rt_tracks route) =? 0)%Z then (false, n)
      else if ((trackIndex <? 0) || (zlen (rt_tracks route) - 1 <? trackIndex))%Z then (false, n)
      else
        match TrackAt route trackIndex with
        | None => (false, n)
        | Some track =>
          if ((segmentIndex <? 0) || (zlen (tk_segments track) - 1 <? segmentIndex))%Z
          then (false, n)
          else
            let segment := SegmentAt track segmentIndex in
            let csd := if (segmentIndex =? n_si n)%Z then n_csd n else f0 in
            let '(ctd, csd) := if (trackIndex =? n_ti n)%Z then (n_ctd n, csd) else (f0, f0) in
            let '(crd, ctd, csd) :=
              if (routeIndex =? n_ri n)%Z then (n_crd n, ctd, csd) else (f0, f0, f0) in
            (true,
             set_off (set_idx (set_point (set_cur n csd crd ctd (n_cd n)) (sg_a segment))
                              routeIndex trackIndex segmentIndex) 0)
        end
    end.

(** navigator/navigator.go 413-415 *)
Definition MoveToRoute (n : navigator) (routeIndex : Z) : bool * navigator :=
  MoveToSegment n routeIndex 0 0.

(** navigator/navigator.go 418-420 *)
Definition MoveToTrack (n : navigator) (routeIndex trackIndex : Z) : bool * navigator :=
  MoveToSegment n routeIndex trackIndex 0.

(** navigator/navigator.go 370-377 *)
Definition NextRoute (n : navigator) : bool * navigator :=
  if (n_ri n <? zlen (n_routes n) - 1)%Z then MoveToRoute n (n_ri n + 1)%Z else (false, n).

(** navigator/navigator.go 380-387 *)
Definition PrevRoute (n : navigator) : bool * navigator :=
  if (0 <? n_ri n)%Z then MoveToRoute n (n_ri n - 1)%Z else (false, n).

(** navigator/navigator.go 788-798 *)
Definition indexRoute (n : navigator) (routeID : string) : Z :=
  if (slen routeID =? 0)%Z then (-1)%Z
  else match find_index (fun r => String.eqb (rt_id r) routeID) (n_routes n) with
       | Some i => Z.of_nat i
       | None => (-1)%Z
       end.

(** navigator/navigator.go 390-396 *)
Definition MoveToRouteByID (n : navigator) (routeID : string) : bool * navigator :=
  let index := indexRoute n routeID in
  if (index =? -1)%Z then (false, n) else MoveToRoute n index.

(** navigator/navigator.go 399-410; n.routes[routeIndex] is in range *)
Definition MoveToTrackByID (n : navigator) (routeID trackID : string) : bool * navigator :=
  let routeIndex := indexRoute n routeID in
  if (routeIndex =? -1)%Z then (false, n)
  else
    match zget (n_routes n) routeIndex with
    | None => (false, n)
    | Some route =>
        let trackIndex := indexTrack route trackID in
        if (trackIndex =? -1)%Z then (false, n) else MoveToTrack n routeIndex trackIndex
    end.

(** navigator/navigator.go 629-636: (route, routeIndex, routeDist); [i] is the loop index *)
Fixpoint jump_routes (d : T) (i : Z) (l : list (route T)) (cur : option (route T))
    (ri : Z) (rd : T) : option (route T) * Z * T :=
  match l with
  | [] => (cur, ri, rd)
  | r :: l' =>
      let ri := (ri + i)%Z in
      if rt_dist r + rd >? d then (Some r, ri, rd)
      else jump_routes d (i + 1)%Z l' (Some r) ri (rd + rt_dist r)
  end.

(** navigator/navigator.go 641-652: (track, trackIndex, curRouteDist, routeDist) *)
Fixpoint jump_tracks (d : T) (i : Z) (l : list (track T)) (cur : option (track T))
    (ti : Z) (crd rd : T) : option (track T) * Z * T * T :=
  match l with
  | [] => (cur, ti, crd, rd)
  | t :: l' =>
      let ti := (ti + i)%Z in
      if tk_dist t + rd >? d then (Some t, ti, crd, rd)
      else jump_tracks d (i + 1)%Z l' (Some t) ti (crd + tk_dist t) (rd + tk_dist t)
  end.

(** navigator/navigator.go 657-669: (segment, segmentIndex, routeDist, curRouteDist,
    curTrackDist) *)
Fixpoint jump_segments (d : T) (i : Z) (l : list (segment T)) (cur : segment T)
    (si : Z) (rd crd ctd : T) : segment T * Z * T * T * T :=
  match l with
  | [] => (cur, si, rd, crd, ctd)
  | s :: l' =>
      if segment_IsEmpty s then jump_segments d (i + 1)%Z l' s si rd crd ctd
      else if sg_dist s + rd >? d then (s, i, rd, crd, ctd)
      else jump_segments d (i + 1)%Z l' s i (rd + sg_dist s) (crd + sg_dist s) (ctd + sg_dist s)
  end.

(** navigator/navigator.go 475-477, 609-684 *)
Definition DestinationTo (n : navigator) (meters : T) : bool * navigator :=
  let distance := if meters >? n_dist n then n_dist n else meters in
  if distance <? f1 then (false, n)
  else
    let '(r, ri, rd) := jump_routes distance 0 (n_routes n) None 0 f0 in
    match r with
    | None => (false, n)
    | Some r =>
      let '(t, ti, crd, rd) := jump_tracks distance 0 (rt_tracks r) None 0 f0 rd in
      match t with
      | None => (false, n)
      | Some t =>
        let '(s, si, rd, crd, ctd) :=
          jump_segments distance 0 (tk_segments t) segment_zero 0 rd crd f0 in
        if segment_IsEmpty s then (false, n)
        else
          let diff := fabs (distance - rd) in
          (true, set_idx (set_cur (set_point n (segment_DestinationTo s diff))
                                  diff (crd + diff) (ctd + diff) (rd + diff)) ri ti si)
      end
    end.

(** ** Steps *)

(** navigator/navigator.go 480-485; [draw] is the raw output of the offline generator *)
Definition ToOffline (n : navigator) (draw : Z) : res navigator :=
  if n_skip n then Ret n
  else let* r := deref (n_rnd n) in Ret (set_off n (random_Value r draw)).

(** navigator/navigator.go 488-490 *)
Definition NextElevation (n : navigator) (tick : T) : res navigator :=
  let* e := deref (n_elev n) in
  let* e' := sensor_Next e tick in
  Ret (set_elev n (Some e')).

(** navigator/navigator.go 493-495 *)
Definition ShuffleElevation (n : navigator) (draws : nat -> T) : res navigator :=
  let* e := deref (n_elev n) in Ret (set_elev n (Some (sensor_Shuffle e draws))).

(** navigator/navigator.go 692-697 *)
Definition updateDist (n : navigator) (d : T) : navigator :=
  set_cur n (n_csd n + d) (n_crd n + d) (n_ctd n + d) (n_cd n + d).

(** navigator/navigator.go 699-705 *)
Definition isValidDistance (n : navigator) (d : T) : res bool :=
  let* s := CurrentSegment n in
  Ret (if segment_IsEmpty s then false else n_csd n + d <=? sg_dist s).

(** navigator/navigator.go 707-709 *)
Definition isStartSegment (n : navigator) : bool := (n_si n =? 0)%Z && (n_csd n =? f0).

(** navigator/navigator.go 711-720 *)
Definition nextOffline (n : navigator) : bool * navigator :=
  if n_skip n then (false, n)
  else if (0 <? n_off n)%Z then (true, set_off n (n_off n - 1)%Z)
  else (false, n).

(** navigator/navigator.go 722-734; returns the segment being left *)
Definition nextSegment (n : navigator) : res (segment T * navigator) :=
  let* t := CurrentTrack n in
  match t with
  | None => Ret (segment_zero, n)
  | Some t =>
      if (n_si n =? NumSegments t - 1)%Z then Ret (segment_zero, n)
      else
        let* s := CurrentSegment n in
        Ret (s, set_idx (set_cur n f0 (n_crd n) (n_ctd n) (n_cd n))
                        (n_ri n) (n_ti n) (n_si n + 1)%Z)
  end.

(** navigator/navigator.go 736-750 *)
Definition nextTrack (n : navigator) : res (bool * navigator) :=
  let n := set_idx (set_cur n f0 (n_crd n) (n_ctd n) (n_cd n)) (n_ri n) (n_ti n) 0 in
  let* r := CurrentRoute n in
  match r with
  | None => Ret (false, n)
  | Some r =>
      let n := set_cur n (n_csd n) (n_crd n) f0 (n_cd n) in
      if (n_ti n <? NumTracks r - 1)%Z
      then Ret (true, set_idx n (n_ri n) (n_ti n + 1)%Z (n_si n))
      else Ret (false, set_idx n (n_ri n) 0 (n_si n))
  end.

(** navigator/navigator.go 752-760 *)
Definition nextRoute (n : navigator) : navigator :=
  let n := set_cur n (n_csd n) f0 (n_ctd n) (n_cd n) in
  if (n_ri n <? zlen (n_routes n) - 1)%Z
  then set_idx n (n_ri n + 1)%Z (n_ti n) (n_si n)
  else set_cur (set_idx n 0 (n_ti n) (n_si n)) (n_csd n) (n_crd n) (n_ctd n) (fdec 1 10).

(** navigator/navigator.go 509-543: the loop. One unit of fuel per iteration; Proofs/NavLoop.v
    shows that [nav_fuel] is always enough. [draw] feeds the single ToOffline call. *)
Fixpoint next_loop (fuel : nat) (n : navigator) (newDist : T) (draw : Z)
  : res (bool * navigator) :=
  match fuel with
  | O => NoFuel
  | S fuel' =>
      let* valid := isValidDistance n newDist in
      if valid then
        let isStartSeg := isStartSegment n in
        let n := updateDist n newDist in
        let* s := CurrentSegment n in
        if segment_IsEmpty s then Ret (false, n)
        else Ret (true, set_point n (if isStartSeg then segment_DestinationTo s f1
                                     else segment_DestinationTo s (n_csd n)))
      else
        let* (seg, n) := nextSegment n in
        if segment_IsEmpty seg then
          let* (moved, n) := nextTrack n in
          let n := if moved : bool then n else nextRoute n in
          let* n := ToOffline n draw in
          Ret (false, n)
        else if segment_hasRelation seg then next_loop fuel' n newDist draw
        else let* n := ToOffline n draw in Ret (false, n)
  end.

(** Enough iterations for any call: one per segment of the longest track, plus one. *)
Definition nav_fuel (n : navigator) : nat :=
  S (fold_right (fun r m => fold_right (fun t m => Nat.max (List.length (tk_segments t)) m) m
                                       (rt_tracks r)) O (n_routes n)).

(** navigator/navigator.go 498-545 *)
Definition NextLocation (n : navigator) (tick speed : T) (draw : Z) : res (bool * navigator) :=
  match n_routes n with
  | [] => Ret (false, n)
  | _ =>
      let '(off, n) := nextOffline n in
      if off then Ret (false, n)
      else next_loop (nav_fuel n) n (tick * speed) draw
  end.

(** ** State message *)

(** navigator/location.go 10-44, one coordinate *)
Definition dms_of (x : T) (pos neg : string) : pbDMS T :=
  let dir := if x >? f0 then pos else neg in
  let x := fabs x in
  let deg := ftrunc x in
  let min := ftrunc ((x - fofZ deg) * fofZ 60) in
  let sec := (x - fofZ deg - fofZ min / fofZ 60) * fofZ 3600 in
  mkPbDMS deg min sec dir.

(** navigator/navigator.go 804-818 *)
Definition normalizeDeviceState (d : pbDevice T) : pbDevice T :=
  let dist := match pde_distance d with
    | None => Some (mkPbDDistance f0 f0 f0 f0 f0 f0 f0 f0) | x => x end in
  let nv := match pde_navigator d with
    | None => Some (mkPbDNavigator 0 0 0 "" "") | x => x end in
  let loc := match pde_location d with
    | None => Some (mkPbDLocation f0 f0 f0 f0 (Some (mkPbDMS 0 0 f0 ""))
                      (Some (mkPbDMS 0 0 f0 "")) (Some (mkPbUTM f0 f0 f0 0 "" "" 0)))
    | x => x end in
  mkPbDevice (pde_id d) (pde_user_id d) (pde_tick d) (pde_duration d) (pde_model d)
    (pde_speed d) dist (pde_battery d) (pde_routes d) loc nv (pde_sensors d)
    (pde_description d) (pde_is_offline d) (pde_offline_duration d) (pde_color d)
    (pde_time_estimate d) (pde_units d).

(** navigator/navigator.go 335-367; writing through a nil LatDms, LonDms or Utm panics *)
Definition nav_Update (n : navigator) (state : pbDevice T) : res (pbDevice T) :=
  let d := normalizeDeviceState state in
  let* rdist := RouteDistance n in
  let* tdist := TrackDistance n in
  let* sdist := SegmentDistance n in
  let dist := mkPbDDistance (n_dist n) (n_cd n) rdist (n_crd n) tdist (n_ctd n) sdist (n_csd n) in
  let* nv := deref (pde_navigator d) in
  let* r := CurrentRoute n in
  let* t := CurrentTrack n in
  let nv := mkPbDNavigator (n_ri n) (n_ti n) (n_si n)
              (match r with Some r => rt_id r | None => pdv_current_route_id nv end)
              (match t with Some t => tk_id t | None => pdv_current_track_id nv end) in
  let* loc := deref (pde_location d) in
  let* bearing := CurrentBearing n in
  let* e := deref (n_elev n) in
  let* _ := deref (pdl_utm loc) in
  let* _ := deref (pdl_lat_dms loc) in
  let* _ := deref (pdl_lon_dms loc) in
  let la := lat (n_point n) in
  let lo := lon (n_point n) in
  let loc := mkPbDLocation la lo (s_valY e) bearing
               (Some (dms_of la "N" "S")) (Some (dms_of lo "E" "W")) (Some (utm_of la lo)) in
  Ret (mkPbDevice (pde_id d) (pde_user_id d) (pde_tick d) (pde_duration d) (pde_model d)
    (pde_speed d) (Some dist) (pde_battery d) (pde_routes d) (Some loc) (Some nv) (pde_sensors d)
    (pde_description d) (0 <? n_off n)%Z (n_off n) (pde_color d)
    (pde_time_estimate d) (pde_units d)).

(** ** Snapshots *)

(** navigator/navigator.go 548-574; a nil elevation panics *)
Definition nav_Snapshot (n : navigator) : res (pbNavigator T) :=
  let* e := deref (n_elev n) in
  let '(omin, omax) := match n_rnd n with Some r => (r_min r, r_max r) | None => (0%Z, 0%Z) end in
  Ret (mkPbNavigator (map route_Snapshot (n_routes n)) (n_ri n) (n_ti n) (n_si n)
         (n_csd n) (n_crd n) (n_ctd n) (n_cd n) (n_off n)
         (Some (mkPbPLL (lon (n_point n)) (lat (n_point n))))
         (Some (sensor_Snapshot e)) omin omax (n_dist n) (n_skip n) (n_ver n)).

(** navigator/navigator.go 577-607; [n] is the receiver; the error of RouteFromSnapshot is
    ignored (line 584); the offline generator is rebuilt according to the OLD skipOffline *)
Definition nav_FromSnapshot (n : navigator) (snap : option (pbNavigator T)) : res navigator :=
  match snap with
  | None => Ret n
  | Some s =>
      let* routes := mapM (fun r => let* er := RouteFromSnapshot route_zero r in Ret (snd er))
                          (pna_routes s) in
      let* p := deref (pna_point s) in
      let* e := sensor_FromSnapshot (pna_elevation s) in
      Ret (mkNav routes (pna_route_index s) (pna_track_index s) (pna_segment_index s)
             (pna_current_segment_distance s) (pna_current_route_distance s)
             (pna_current_track_distance s) (pna_current_distance s) (pna_offline_index s)
             (mkPoint (pll_lat p) (pll_lon p)) (Some e)
             (if n_skip n then n_rnd n
              else Some (NewRandom (pna_offline_min s) (pna_offline_max s)))
             (pna_distance s) (pna_skip_offline s) (pna_version s))
  end.

End Navigator.
Arguments navigator : clear implicits.
Arguments nav_option : clear implicits.
Arguments navOptions : clear implicits.
