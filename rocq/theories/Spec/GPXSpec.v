(** GPX documents: what is assumed about their text, and what a round trip should give. *)
From Coq Require Import Ascii Permutation.
From Verif.Model Require Import Base Num Utf8 Geo PropMap Pb Track Route GPX.
From Verif.Spec Require Import ListSpec TrackSpec SnapSpec GeoJSONSpec.
Open Scope num_scope.

(** ** texts *)
Definition every (P : ascii -> Prop) : string -> Prop :=
  fix go s := match s with EmptyString => True | String c r => P c /\ go r end.
Definition code (c : ascii) : Z := Z.of_nat (nat_of_ascii c).
Definition printable (c : ascii) : Prop := (32 <= code c <= 126)%Z.
Definition digit (c : ascii) : Prop := (48 <= code c <= 57)%Z.
Definition letter (c : ascii) : Prop := (65 <= code c <= 90)%Z \/ (97 <= code c <= 122)%Z.

(** the number that decimal digits stand for *)
Fixpoint digits_value (a : Z) (s : string) : Z := match s with EmptyString => a | String c r => digits_value (10 * a + (code c - 48)) r end.
Definition int64 (z : Z) : Prop := (- 2 ^ 63 <= z < 2 ^ 63)%Z.
(** optional sign, decimal digits, together an int64 *)
Definition int64_text (s : string) (z : Z) : Prop := int64 z /\
  exists sg r, s = (sg ++ r)%string /\ r <> ""%string /\ every digit r /\
    ((sg = "" \/ sg = "+")%string /\ z = digits_value 0 r \/ sg = "-"%string /\ z = (- digits_value 0 r)%Z).
Definition bool_texts : list string := ["1"; "t"; "T"; "true"; "TRUE"; "True"; "0"; "f"; "F"; "false"; "FALSE"; "False"]%string.

Section GpxSpec.
Context {T : Type} {N : Num T} {X : GpxLib T}.

(** a text that Go does not take for a number or a truth value *)
Definition word (s : string) : Prop := (forall z, ~ int64_text s z) /\ ~ In s bool_texts /\ parse_float s = None.

(** names of attributes: a letter, then letters, digits, _, - and . *)
Definition attr_name (s : string) : Prop :=
  (exists c r, s = String c r /\ letter c) /\ s <> "xmlns"%string /\ every (fun c => letter c \/ digit c \/ In (code c) [45; 46; 95]%Z) s.

(** ** the text of documents *)
(** Texts that encoding/xml carries unchanged, as the value of an attribute and as the text of an element, and the
    number that is read for a coordinate that was written (gpxgo writes a fixed number of decimals). *)
Record carrier : Type := mkCarrier { as_attr : string -> Prop; as_text : string -> Prop; coord : T -> T }.
Definition attrs_ok (C : carrier) (l : list (string * string)) : Prop := Forall (fun a => attr_name (fst a) /\ as_attr C (snd a)) l.
(** a node for a route, with nodes for its tracks *)
Inductive track_node_ok (C : carrier) : xnode -> Prop :=
| tno a d : attrs_ok C a -> as_text C d -> track_node_ok C (XNode "track" a d []).
Inductive route_node_ok (C : carrier) : xnode -> Prop :=
| rno a l : attrs_ok C a -> Forall (track_node_ok C) l -> route_node_ok C (XNode "route" a "" l).
(** the same nodes; the text around nodes is not claimed to be the same *)
Inductive same_node : xnode -> xnode -> Prop :=
| sn_leaf n a d : same_node (XNode n a d []) (XNode n a d [])
| sn_node n a d d' x l l' : Forall2 same_node (x :: l) l' -> same_node (XNode n a d (x :: l)) (XNode n a d' l').
Definition coords (C : carrier) (p : T * T) : T * T := (coord C (fst p), coord C (snd p)).
Definition same_doc (C : carrier) (d d' : gpxdoc T) : Prop :=
  gx_tracks d' = map (map (map (coords C))) (gx_tracks d) /\ gx_routes d' = gx_routes d /\ gx_waypoints d' = gx_waypoints d /\
  Forall2 same_node (gx_ext d) (gx_ext d').

(** Assumed of gpxgo, encoding/xml, strconv and fmt: documents of tracks with one extension node are read back as
    written, up to the rounding of coordinates; at least printable ASCII is carried unchanged (if it is the text
    of an element: not empty and without spaces around it); so are the texts of floats; the text of a float is
    that of an integer with the same value or is read as the same float. *)
Record gpx_law (C : carrier) : Prop := {
  gpx_back : forall ts ns, Forall (route_node_ok C) ns -> exists b d',
    gpx_toxml (mkGpx ts [] [] [XNode "gpsgen" [] "" ns]) = Some b /\ b <> ""%string /\ gpx_parse b = Some d' /\
    same_doc C (mkGpx ts [] [] [XNode "gpsgen" [] "" ns]) d';
  gpx_ascii : forall s, every printable s -> as_attr C s;
  gpx_ascii_text : forall s, every printable s -> s <> ""%string -> (forall r, s <> (" " ++ r)%string) -> (forall r, s <> (r ++ " ")%string) -> as_text C s;
  gpx_f2s : forall x, as_attr C (f2s x);
  gpx_fmt : forall x, as_attr C (fmt_float x);
  gpx_float : forall x, finite_num x ->
    (exists z, int64_text (fmt_float x) z /\ (fofZ z =? x) = true) \/
    ((forall z, ~ int64_text (fmt_float x) z) /\ ~ In (fmt_float x) bool_texts /\ parse_float (fmt_float x) = Some x) }.
Context (C : carrier).

(** ** routes that can be written as GPX *)
Definition gpx_track (t : track T) : Prop :=
  (2 <= zlen (polyline_of t))%Z /\ is_track_through (polyline_of t) t /\
  as_text C (tk_id t) /\ tk_id t <> ""%string /\ as_attr C (tk_color t) /\ as_attr C (tk_name t) /\ legal_name (tk_name t).
(** property values: strings, truth values, integers, floats *)
Inductive gpx_value : gval T -> Prop :=
| gv_str s : as_attr C s -> gpx_value (GStr s)
| gv_bool b : gpx_value (GBool b)
| gv_int z : int64 z -> gpx_value (GInt z)
| gv_float x : finite_num x -> gpx_value (GFloat x).
Definition gpx_route (r : route T) : Prop :=
  Forall gpx_track (rt_tracks r) /\ as_attr C (rt_id r) /\ as_attr C (rt_color r) /\ as_attr C (rt_name r) /\ legal_name (rt_name r) /\
  forall k v, props_lookup (entries_of (rt_props r)) k = Some v -> attr_name k /\ gpx_value v.

(** the names Encode uses for its own attributes, and those Decode removes *)
Definition gpx_own_keys : list string := ["id"; "name"; "color"; "distance"; "units"; "tracksInfo"; "numTracks"]%string.
Definition gpx_no_own_keys (r : route T) : Prop := forall k, In k gpx_own_keys -> props_lookup (entries_of (rt_props r)) k = None.

(** ** what comes back *)
(** a text that looks like a number or a truth value is lost *)
Definition kept (s s' : string) : Prop := (word s -> s' = s) /\ (~ word s -> s' = ""%string).
Definition gpx_points (t : track T) : list (point T) := map (fun p => mkPoint (coord C (lat p)) (coord C (lon p))) (polyline_of t).
Definition no_props (p : option (props T)) : Prop := forall k, props_lookup (entries_of p) k = None.
(** a track without its properties *)
Definition gpx_same_track (t t' : track T) : Prop :=
  polyline_of t' = gpx_points t /\ is_track_through (gpx_points t) t' /\ tk_id t' = tk_id t /\
  kept (tk_color t) (tk_color t') /\ kept (tk_name t) (tk_name t') /\ no_props (tk_props t').
(** properties: words, truth values and integers as they were, a float may become an integer *)
Inductive gpx_of : gval T -> gval T -> Prop :=
| go_str s : word s -> gpx_of (GStr s) (GStr s)
| go_text s v : ~ word s -> (forall s', v <> GStr s') -> gpx_of (GStr s) v
| go_bool b : gpx_of (GBool b) (GBool b)
| go_int z : gpx_of (GInt z) (GInt z)
| go_float x : gpx_of (GFloat x) (GFloat x)
| go_whole x z : (fofZ z =? x) = true -> gpx_of (GFloat x) (GInt z).
Definition gpx_props (p p' : props T) : Prop :=
  forall k, match props_lookup p k with
            | Some v => exists v', props_lookup p' k = Some v' /\ gpx_of v v'
            | None => props_lookup p' k = None
            end.
Definition gpx_same_route (r r' : route T) : Prop :=
  rt_id r' = rt_id r /\ kept (rt_color r) (rt_color r') /\ kept (rt_name r) (rt_name r') /\
  gpx_props (entries_of (rt_props r)) (entries_of (rt_props r')) /\ Forall2 gpx_same_track (rt_tracks r) (rt_tracks r').

(** everything *)
Definition gpx_all_track (t t' : track T) : Prop :=
  polyline_of t' = polyline_of t /\ is_track_through (polyline_of t) t' /\ tk_id t' = tk_id t /\ tk_color t' = tk_color t /\ tk_name t' = tk_name t /\
  forall k, props_lookup (entries_of (tk_props t')) k = props_lookup (entries_of (tk_props t)) k.
Definition gpx_all_route (r r' : route T) : Prop :=
  rt_id r' = rt_id r /\ rt_color r' = rt_color r /\ rt_name r' = rt_name r /\
  (forall k, props_lookup (entries_of (rt_props r')) k = props_lookup (entries_of (rt_props r)) k) /\
  Forall2 gpx_all_track (rt_tracks r) (rt_tracks r').
(** routes that lose nothing: names and colours are words, tracks have no properties, properties are words, truth
    values and integers, and coordinates have few decimals *)
Definition plain_text (s : string) : Prop := s = ""%string \/ word s.
Definition gpx_plain_track (t : track T) : Prop :=
  plain_text (tk_color t) /\ plain_text (tk_name t) /\ no_props (tk_props t) /\
  Forall (fun p => coord C (lat p) = lat p /\ coord C (lon p) = lon p) (polyline_of t).
Definition gpx_plain (r : route T) : Prop :=
  word (rt_id r) /\ plain_text (rt_color r) /\ plain_text (rt_name r) /\ Forall gpx_plain_track (rt_tracks r) /\
  forall k v, props_lookup (entries_of (rt_props r)) k = Some v -> match v with GStr s => word s | GFloat _ => False | _ => True end.

(** the order in which Go iterates over a map: any *)
Definition iterates (ord : props T -> list (string * gval T)) : Prop := forall p, Permutation (ord p) (props_entries p).

(** ** documents from elsewhere *)
Definition pts (l : list (T * T)) : list (point T) := map (fun p => mkPoint (fst p) (snd p)) l.
Definition not_ours (d : gpxdoc T) : Prop := forall n l, gx_ext d = n :: l -> xn_name n <> "gpsgen"%string.
(** what a document of one kind of lists stands for: a route for every entry, with its lines *)
Inductive gpx_lines : gpxdoc T -> list (list (list (T * T))) -> Prop :=
| gl_empty e : gpx_lines (mkGpx [] [] [] e) []
| gl_routes r rs e : gpx_lines (mkGpx [] (r :: rs) [] e) (map (fun l => [l]) (r :: rs))
| gl_tracks t ts e : gpx_lines (mkGpx (t :: ts) [] [] e) (t :: ts)
| gl_points p ps e : gpx_lines (mkGpx [] [] (p :: ps) e) [[p :: ps]].
End GpxSpec.
Arguments gpx_law T {N X} C.
Arguments carrier : clear implicits.
