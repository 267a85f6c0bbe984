(** GeoJSON documents: what is assumed about their text, and what a round trip should give. *)
From Verif.Model Require Import Base Num Utf8 Geo PropMap Pb Track Route GeoJSON.
From Verif.Spec Require Import ListSpec TrackSpec SnapSpec.
Open Scope num_scope.

Section GeoSpec.
Context {T : Type} {N : Num T}.

(** a nil map has no entries *)
Definition entries_of (p : option (props T)) : props T := match p with Some p => p | None => props_Make end.

(** ** routes that can be written as GeoJSON *)
Definition legal_name (s : string) : Prop := s = ""%string \/ (3 <= slen s <= 256)%Z.
Definition finite_point (p : point T) : Prop := finite_num (lat p) /\ finite_num (lon p).
Definition clean_track (t : track T) : Prop :=
  (2 <= zlen (polyline_of t))%Z /\ is_track_through (polyline_of t) t /\ Forall finite_point (polyline_of t) /\
  finite_num (tk_dist t) /\ tk_id t <> ""%string /\
  utf8_valid (tk_id t) = true /\ utf8_valid (tk_color t) = true /\ utf8_valid (tk_name t) = true /\
  json_able (entries_of (tk_props t)).
Definition clean_route (r : route T) : Prop :=
  Forall clean_track (rt_tracks r) /\ finite_num (rt_dist r) /\ legal_name (rt_name r) /\
  utf8_valid (rt_id r) = true /\ utf8_valid (rt_color r) = true /\ utf8_valid (rt_name r) = true /\
  json_able (entries_of (rt_props r)).

(** the names Encode uses for its own entries *)
Definition own_keys : list string := ["routeID"; "color"; "name"; "numTracks"; "tracksInfo"; "distance"; "units"]%string.
Definition no_own_keys (r : route T) : Prop := forall k, In k own_keys -> props_lookup (entries_of (rt_props r)) k = None.

Definition has_track (r : route T) : bool := match rt_tracks r with [] => false | _ => true end.

(** ** what comes back *)
Definition same_points (t t' : track T) : Prop :=
  polyline_of t' = polyline_of t /\ is_track_through (polyline_of t) t' /\ tk_dist t' = tk_dist t.
(** the whole of a track (properties up to JSON) *)
Definition same_track (t t' : track T) : Prop :=
  same_points t t' /\ tk_id t' = tk_id t /\ tk_color t' = tk_color t /\ tk_name t' = tk_name t /\
  json_props (entries_of (tk_props t)) (entries_of (tk_props t')).
Definition same_route_head (r r' : route T) : Prop :=
  rt_id r' = rt_id r /\ rt_color r' = rt_color r /\ rt_name r' = rt_name r /\
  json_props (entries_of (rt_props r)) (entries_of (rt_props r')).
(** the claim: everything *)
Definition same_route (r r' : route T) : Prop := same_route_head r r' /\ Forall2 same_track (rt_tracks r) (rt_tracks r').
(** what is true: the points of every track, but the data of the first one, and no names *)
Definition first_track_data (r r' : route T) : Prop :=
  exists t0 rest, rt_tracks r = t0 :: rest /\
    Forall2 same_points (rt_tracks r) (rt_tracks r') /\
    Forall (fun t' => tk_id t' = tk_id t0 /\ tk_color t' = tk_color t0 /\ tk_name t' = ""%string /\
                      json_props (entries_of (tk_props t0)) (entries_of (tk_props t'))) (rt_tracks r').

(** ** the text of documents *)
Definition finite_pos (p : T * T) : Prop := finite_num (fst p) /\ finite_num (snd p).
Definition json_line (l : list (T * T)) : Prop := (2 <= zlen l)%Z /\ Forall finite_pos l.
Inductive json_simple : geometry T -> Prop :=
| js_line l : json_line l -> json_simple (OLineString l)
| js_poly l : json_line l -> json_simple (OPolygon [l]).
Inductive json_geometry : geometry T -> Prop :=
| jg_simple g : json_simple g -> json_geometry g
| jg_coll gs : gs <> [] -> Forall json_simple gs -> json_geometry (OCollection (map Some gs)).
Definition able_feature (f : feature T) : Prop :=
  fe_type f = "Feature"%string /\ (exists g, fe_geom f = Some g /\ json_geometry g) /\ (exists p, fe_props f = Some p /\ json_able p).
Definition same_feature (f f' : feature T) : Prop :=
  fe_type f' = fe_type f /\ fe_geom f' = fe_geom f /\
  exists p p', fe_props f = Some p /\ fe_props f' = Some p' /\ json_props p p'.
(** no JSON text: a property or a coordinate that is infinite, not a number, ... *)
Definition bad_line (l : list (T * T)) : Prop := exists p, In p l /\ ~ finite_pos p.
Inductive bad_geometry : geometry T -> Prop :=
| bg_line l : bad_line l -> bad_geometry (OLineString l)
| bg_poly ls l : In l ls -> bad_line l -> bad_geometry (OPolygon ls)
| bg_coll gs g : In (Some g) gs -> bad_geometry g -> bad_geometry (OCollection gs).
Definition unable_feature (f : feature T) : Prop :=
  (exists g, fe_geom f = Some g /\ bad_geometry g) \/ (exists p, fe_props f = Some p /\ json_unable p).

(** Assumed of encoding/json and orb: documents of lines, polygons of one ring and collections of these are
    read back as written (numbers in properties become floats); what has no JSON text is an error. *)
Record geo_law {G : GeoLib T} : Prop := {
  geo_able : forall fs, Forall able_feature fs -> exists b fs',
    geo_marshal fs = Some b /\ geo_unmarshal b = Some (Some (map Some fs')) /\ Forall2 same_feature fs fs';
  geo_unable : forall fs f, In f fs -> unable_feature f -> geo_marshal fs = None }.

(** ** documents from elsewhere *)
(** the lines a geometry stands for: itself, each of several, the outer ring of a polygon *)
Inductive lines_of : geometry T -> list (list (T * T)) -> Prop :=
| lo_line l : lines_of (OLineString l) [l]
| lo_points l : lines_of (OMultiPoint l) [l]
| lo_lines ls : lines_of (OMultiLineString ls) ls
| lo_poly_empty : lines_of (OPolygon []) []
| lo_poly l holes : lines_of (OPolygon (l :: holes)) [l]
| lo_polys_nil : lines_of (OMultiPolygon []) []
| lo_polys_empty ps ls : lines_of (OMultiPolygon ps) ls -> lines_of (OMultiPolygon ([] :: ps)) ls
| lo_polys l holes ps ls : lines_of (OMultiPolygon ps) ls -> lines_of (OMultiPolygon ((l :: holes) :: ps)) (l :: ls).
Inductive member_lines : list (option (geometry T)) -> list (list (T * T)) -> Prop :=
| ml_nil : member_lines [] []
| ml_cons g gs l ls : lines_of g l -> member_lines gs ls -> member_lines (Some g :: gs) (l ++ ls).
Inductive doc_lines : geometry T -> list (list (T * T)) -> Prop :=
| dl_simple g ls : lines_of g ls -> doc_lines g ls
| dl_coll gs ls : member_lines gs ls -> doc_lines (OCollection gs) ls.

(** longitude first *)
Definition latlons (l : list (T * T)) : list (point T) := map (fun p => mkPoint (snd p) (fst p)) l.

(** a feature that does not come from Encode *)
Definition foreign (f : feature T) : Prop :=
  fe_type f = "Feature"%string /\ (props_lookup (entries_of (fe_props f)) "routeID" = None \/ props_lookup (entries_of (fe_props f)) "color" = None).
Definition imported (f : feature T) (lines : list (list (T * T))) (r : route T) : Prop :=
  Forall2 (fun l t => is_track_through (latlons l) t) lines (rt_tracks r) /\
  forall k, props_lookup (entries_of (rt_props r)) k = props_lookup (entries_of (fe_props f)) k.

(** ** documents that Decode can take *)
Definition tracks_info (f : feature T) : option (list (gval T)) :=
  match props_lookup (entries_of (fe_props f)) "tracksInfo" with Some (GArr l) => Some l | _ => None end.
(** the ID of the first track in the properties *)
Definition first_id (f : feature T) : option string :=
  match tracks_info f with
  | Some (GObj l :: _) => match List.find (fun kv => String.eqb (fst kv) "trackID") l with Some (_, GStr s) => Some s | _ => None end
  | _ => None
  end.
Definition members (g : geometry T) : list (option (geometry T)) := match g with OCollection gs => gs | _ => [Some g] end.
(** lines that are there are long enough *)
Definition long_lines (g : option (geometry T)) : Prop :=
  match g with
  | Some (OLineString l) => (2 <= zlen l)%Z
  | Some (OPolygon (l :: _)) => (2 <= zlen l)%Z
  | Some _ => True
  | None => False
  end.
Definition sound_feature (f : option (feature T)) : Prop :=
  exists f', f = Some f' /\
    (fe_type f' <> "Feature"%string \/
     exists g, fe_geom f' = Some g /\ (forall m, In m (members g) -> m <> None) /\
       (foreign f' \/ tracks_info f' = None \/ tracks_info f' = Some [] \/
        (exists id, first_id f' = Some id /\ id <> ""%string /\ forall m, In m (members g) -> long_lines m))).
End GeoSpec.
Arguments geo_law T {N G}.
