(** Model of geojson/encoding.go and geojson/feature_collection.go, between routes and the documents of
    github.com/paulmach/orb. The text of a document (encoding/json and orb/geojson) is an oracle [GeoLib]. *)
From stdpp Require Import gmap strings.
From Verif.Model Require Import Base Num Geo PropMap Pb Track Route.
Open Scope go_scope.

Section GeoJSON.
Context {T : Type} {N : Num T}.

(** orb.Geometry; an orb.Point is (longitude, latitude). None is a nil member of a collection. *)
Inductive geometry : Type :=
| OPoint (p : T * T)
| OMultiPoint (l : list (T * T))
| OLineString (l : list (T * T))
| OMultiLineString (l : list (list (T * T)))
| OPolygon (l : list (list (T * T)))
| OMultiPolygon (l : list (list (list (T * T))))
| OCollection (l : list (option geometry)).

(** geojson.Feature of orb: a nil geometry and nil properties are possible *)
Record feature : Type := mkFeature { fe_type : string; fe_geom : option geometry; fe_props : option (props T) }.

(** feature_collection.go 77-88: the start of every segment, and the end of the last one *)
Fixpoint copy_segs (l : list (segment T)) : list (T * T) :=
  match l with
  | [] => []
  | [s] => [(lon (sg_a s), lat (sg_a s)); (lon (sg_b s), lat (sg_b s))]
  | s :: r => (lon (sg_a s), lat (sg_a s)) :: copy_segs r
  end.
Definition copyPoints (t : track T) : list (T * T) := copy_segs (tk_segments t).

(** feature_collection.go 29-35 *)
Definition track_geometry (t : track T) : geometry :=
  if tk_isClosed t then OPolygon [copyPoints t] else OLineString (copyPoints t).

(** feature_collection.go 37-44, 67-74: the JSON object of a trackInfo. Props() is never nil. *)
Definition track_info (t : track T) : gval T :=
  GObj [("trackID"%string, GStr (tk_id t)); ("name"%string, GStr (tk_name t)); ("color"%string, GStr (tk_color t));
        ("distance"%string, GFloat (tk_dist t)); ("numSegments"%string, GInt (NumSegments t));
        ("properties"%string, GObj (props_entries (fst (track_Props t))))].

(** feature_collection.go 57-63 *)
Definition route_info (r : route T) : list (string * gval T) :=
  [("routeID"%string, GStr (rt_id r)); ("color"%string, GStr (rt_color r)); ("name"%string, GStr (rt_name r));
   ("numTracks"%string, GInt (NumTracks r)); ("tracksInfo"%string, GArr (map track_info (rt_tracks r)));
   ("distance"%string, GFloat (rt_dist r)); ("units"%string, GStr "meters"%string)].

(** feature_collection.go 22-67, one route: None if it has no tracks (46-48). The properties of the route are
    written last and over the others (64-66). *)
Definition route_feature (r : route T) : option feature :=
  match map track_geometry (rt_tracks r) with
  | [] => None
  | [g] => Some (mkFeature "Feature" (Some g) (Some (props_Merge (props_of_entries (route_info r)) (fst (route_Props r)))))
  | gs => Some (mkFeature "Feature" (Some (OCollection (map Some gs)))
                          (Some (props_Merge (props_of_entries (route_info r)) (fst (route_Props r)))))
  end.

(** feature_collection.go 20-70. Not modelled: Props() (43, 64) replaces nil maps of the routes and tracks it
    is called on by empty ones. *)
Fixpoint ToFeatureCollection (routes : list (route T)) : list feature :=
  match routes with
  | [] => []
  | r :: rest => match route_feature r with Some f => f :: ToFeatureCollection rest | None => ToFeatureCollection rest end
  end.

(** feature_collection.go 67-74, as read back by encoding.go 86-105; Props is the list of entries of a map *)
Record trackInfo : Type := mkTrackInfo { ti_id : string; ti_color : string; ti_name : string; ti_props : list (string * gval T) }.
Definition trackInfo_zero : trackInfo := mkTrackInfo "" "" "" [].

(** looking up a key of a decoded object *)
Fixpoint obj_get (k : string) (l : list (string * gval T)) : option (gval T) :=
  match l with
  | [] => None
  | (k', v) :: r => if String.eqb k' k then Some v else obj_get k r
  end.
Definition obj_String (k : string) (l : list (string * gval T)) : string :=
  match obj_get k l with Some (GStr s) => s | _ => ""%string end.

(** encoding.go 85-106 *)
Definition read_trackInfo (v : gval T) : trackInfo :=
  match v with
  | GObj l => mkTrackInfo (obj_String "trackID" l) (obj_String "color" l) (obj_String "name" l)
                (match obj_get "properties" l with Some (GObj p) => p | _ => [] end)
  | _ => trackInfo_zero
  end.

(** encoding.go 68-72 *)
Definition routeExists (p : option (props T)) : bool :=
  match p with
  | None => false
  | Some p => match props_lookup p "routeID", props_lookup p "color" with Some _, Some _ => true | _, _ => false end
  end.

(** encoding.go 74-112 *)
Definition restoreRoute (p : props T) : goret (route T * list trackInfo) :=
  let routeID := fst (props_String p "routeID") in
  let color := fst (props_String p "color") in
  let name := fst (props_String p "name") in
  match props_lookup p "tracksInfo" with
  | Some (GArr tracks) =>
      let r := RestoreRoute routeID color (Some p) in
      let r := if (0 <? slen name)%Z then snd (route_ChangeName r name) else r in
      GOk (r, map read_trackInfo tracks)
  | _ => GErr ErrInvalidTracksInfo
  end.

(** encoding.go 114-122 *)
Definition reserved_keys : list string := ["routeID"; "color"; "distance"; "tracksInfo"; "numTracks"; "name"; "units"]%string.
Definition resetProps (p : props T) : props T := fold_left props_Remove reserved_keys p.

(** encoding.go 124-130 *)
Definition parseProperties (r : route T) (p : option (props T)) : route T :=
  match p with
  | None => r
  | Some p => route_setProps r (props_Merge (fst (route_Props r)) p)
  end.

(** encoding.go 222-231 *)
Definition toPoints (l : list (T * T)) : list (point T) := map (fun p => mkPoint (snd p) (fst p)) l.

(** encoding.go 161-171, 184-194: a track restored with the data of the first trackInfo. A failed RestoreTrack
    returns a nil track, and track.Props() (168, 191), which comes before the test of the error, panics. *)
Definition restore_first (r : route T) (ti : trackInfo) (l : list (T * T)) : res (goret (route T)) :=
  match RestoreTrack (ti_id ti) (ti_color ti) (toPoints l) with
  | GErr _ => Panic
  | GOk t => Ret (GOk (AddTrack r (Some (track_setProps t (props_MergeIn (fst (track_Props t)) (ti_props ti))))))
  end.

(** encoding.go 164-165 and likewise 178-182, 187, 201-204, 211-215: a new track; [d] its id and colour *)
Definition add_new (r : route T) (d : string * string) (l : list (T * T)) : goret (route T) :=
  match NewTrack (toPoints l) (fst d) (snd d) with
  | GErr e => GErr e
  | GOk t => GOk (AddTrack r (Some t))
  end.
Fixpoint add_news (r : route T) (d : nat -> string * string) (k : nat) (ls : list (list (T * T))) : goret (route T) :=
  match ls with
  | [] => GOk r
  | l :: rest => match add_new r (d k) l with GErr e => GErr e | GOk r => add_news r d (S k) rest end
  end.

(** encoding.go 200: the outer rings of the polygons that have one *)
Fixpoint outer_rings (l : list (list (list (T * T)))) : list (list (T * T)) :=
  match l with
  | [] => []
  | (g :: _) :: r => g :: outer_rings r
  | [] :: r => outer_rings r
  end.

(** encoding.go 156-220. [tracks] is None when tracksInfo is nil. The default case calls a method of the
    geometry, which panics for a nil one. *)
Definition parseGeometry (r : route T) (tracks : option (list trackInfo)) (g : option geometry) (d : nat -> string * string) : res (goret (route T)) :=
  let first := match tracks with Some (ti :: _) => Some ti | _ => None end in
  match g with
  | Some (OLineString l) => match first with None => Ret (add_new r (d 0%nat) l) | Some ti => restore_first r ti l end
  | Some (OMultiLineString ls) => match first with Some _ => Ret (GErr ErrInvalidRoute) | None => Ret (add_news r d 0 ls) end
  | Some (OPolygon []) => Ret (GOk r)
  | Some (OPolygon (l :: _)) => match first with None => Ret (add_new r (d 0%nat) l) | Some ti => restore_first r ti l end
  | Some (OMultiPolygon ps) => match first with Some _ => Ret (GErr ErrInvalidRoute) | None => Ret (add_news r d 0 (outer_rings ps)) end
  | Some (OMultiPoint l) => match first with Some _ => Ret (GErr ErrInvalidRoute) | None => Ret (add_new r (d 0%nat) l) end
  | Some (OPoint _) | Some (OCollection _) => Ret (GErr ErrInvalidGeometryType)
  | None => Panic
  end.

(** encoding.go 145-149 *)
Fixpoint parse_members (r : route T) (tracks : option (list trackInfo)) (gs : list (option geometry)) (d : nat -> nat -> string * string) (j : nat) : res (goret (route T)) :=
  match gs with
  | [] => Ret (GOk r)
  | g :: rest =>
      let* x := parseGeometry r tracks g (d j) in
      match x with GErr e => Ret (GErr e) | GOk r => parse_members r tracks rest d (S j) end
  end.

(** encoding.go 132-154 *)
Definition parseGeometries (r : route T) (tracks : option (list trackInfo)) (g : option geometry) (d : nat -> nat -> string * string) : res (goret (route T)) :=
  match g with
  | Some (OCollection gs) =>
      match tracks with
      | Some l => if (zlen l =? zlen gs)%Z then parse_members r tracks gs d 0 else Ret (GErr ErrInvalidRoute)
      | None => parse_members r tracks gs d 0
      end
  | _ =>
      match tracks with
      | Some l => if (zlen l =? 1)%Z then parseGeometry r tracks g (d 0%nat) else Ret (GErr ErrInvalidRoute)
      | None => parseGeometry r tracks g (d 0%nat)
      end
  end.

(** The identifiers and colours drawn by NewRoute (per feature) and NewTrack (per feature, member, part). *)
Record geoDraws : Type := mkGeoDraws { gd_route : nat -> string * string; gd_track : nat -> nat -> nat -> string * string }.

(** encoding.go 38-62, one feature; GOk None if it is skipped (39-41). RestoreRoute keeps the map it is given
    (107), so the deletions of line 51 are seen by the route; when Merge runs (129) both maps are the same. *)
Definition decode_feature (x : geoDraws) (i : nat) (f : option feature) : res (goret (option (route T))) :=
  let* f := deref f in
  if negb (String.eqb (fe_type f) "Feature") then Ret (GOk None)
  else
    let start : goret (route T * option (list trackInfo) * option (props T)) :=
      match fe_props f with
      | Some p =>
          if routeExists (Some p) then
            match restoreRoute p with
            | GErr e => GErr e
            | GOk (r, ti) => let p := resetProps p in GOk (route_setProps r p, Some ti, Some p)
            end
          else GOk (NewRoute (fst (gd_route x i)) (snd (gd_route x i)), None, Some p)
      | None => GOk (NewRoute (fst (gd_route x i)) (snd (gd_route x i)), None, None)
      end in
    match start with
    | GErr e => Ret (GErr e)
    | GOk (r, ti, p) =>
        let* y := parseGeometries (parseProperties r p) ti (fe_geom f) (gd_track x i) in
        match y with GErr e => Ret (GErr e) | GOk r => Ret (GOk (Some r)) end
    end.

(** encoding.go 36-64 *)
Fixpoint decode_features (x : geoDraws) (i : nat) (fs : list (option feature)) : res (goret (list (route T))) :=
  match fs with
  | [] => Ret (GOk [])
  | f :: rest =>
      let* y := decode_feature x i f in
      match y with
      | GErr e => Ret (GErr e)
      | GOk o =>
          let* z := decode_features x (S i) rest in
          match z with
          | GErr e => Ret (GErr e)
          | GOk l => Ret (GOk (match o with Some r => r :: l | None => l end))
          end
      end
  end.

(** The text of feature collections. [None] is a non-nil error. json.Unmarshal into a pointer (encoding.go 33)
    can leave that pointer nil (for the text null): [Some None]. *)
Class GeoLib : Type := {
  geo_marshal : list feature -> option string;
  geo_unmarshal : string -> option (option (list (option feature)))
}.
Context {G : GeoLib}.

(** encoding.go 22-27 *)
Definition geo_Encode (routes : list (route T)) : goret string :=
  if (zlen routes =? 0)%Z then GErr ErrNoRoutes
  else match geo_marshal (ToFeatureCollection routes) with Some b => GOk b | None => GErr ErrJSON end.

(** encoding.go 30-66 *)
Definition geo_Decode (data : string) (x : geoDraws) : res (goret (list (route T))) :=
  match geo_unmarshal data with
  | None => Ret (GErr ErrJSON)
  | Some fc => let* fs := deref fc in decode_features x 0 fs
  end.

End GeoJSON.
Arguments geometry : clear implicits.
Arguments feature : clear implicits.
Arguments trackInfo : clear implicits.
Arguments GeoLib : clear implicits.
