(** The protobuf wire format, from its documentation (https://protobuf.dev/programming-guides/encoding), for the kinds of
    fields proto/snapshot.proto and proto/gpsgen.proto use, and the messages those two files declare. Independent of the
    codec and the descriptors in Model/Wire.v and Model/WireMsgs.v. *)
From Verif.Model Require Import Base Pb.
From Verif.Model Require WireMsgs.
From Verif.Spec Require Import Utf8Spec.
Open Scope string_scope.
Open Scope list_scope.
Open Scope Z_scope.

(** ** The declarations: message, then field name, field number, type *)
Inductive ptype : Type := PDouble | PInt64 | PBool | PString | PBytes | PMessage (m : string) | PRepeated (m : string).

Definition schema : list (string * list (string * Z * ptype)) :=
  [
   (* snapshot.proto 8-132 *)
   ("Snapshot",
     [("id", 1, PString);
      ("user_id", 2, PString);
      ("tick", 3, PDouble);
      ("duration", 4, PDouble);
      ("model", 5, PString);
      ("descr", 6, PString);
      ("status", 7, PInt64);
      ("color", 8, PString);
      ("navigator", 9, PMessage "Snapshot.Navigator");
      ("speed", 10, PMessage "Snapshot.CommonType");
      ("battery", 11, PMessage "Snapshot.BatteryType");
      ("sensors", 12, PRepeated "Snapshot.SensorType")]);
   (* snapshot.proto 10-13 *)
   ("Snapshot.PointLatLon",
     [("lon", 1, PDouble);
      ("lat", 2, PDouble)]);
   (* snapshot.proto 16-33 *)
   ("Snapshot.Curve",
     [("points", 1, PRepeated "Snapshot.Curve.ControlPoint");
      ("mode", 2, PInt64);
      ("min", 3, PDouble);
      ("max", 4, PDouble)]);
   (* snapshot.proto 18-21 *)
   ("Snapshot.Curve.Point",
     [("x", 1, PDouble);
      ("y", 2, PDouble)]);
   (* snapshot.proto 24-27 *)
   ("Snapshot.Curve.ControlPoint",
     [("vp", 1, PMessage "Snapshot.Curve.Point");
      ("cp", 2, PMessage "Snapshot.Curve.Point")]);
   (* snapshot.proto 36-41 *)
   ("Snapshot.CommonType",
     [("min", 1, PDouble);
      ("max", 2, PDouble);
      ("val", 3, PDouble);
      ("gen", 4, PMessage "Snapshot.Curve")]);
   (* snapshot.proto 44-49 *)
   ("Snapshot.BatteryType",
     [("min", 1, PDouble);
      ("max", 2, PDouble);
      ("charge_time", 4, PInt64);
      ("val", 5, PDouble)]);
   (* snapshot.proto 52-60 *)
   ("Snapshot.SensorType",
     [("id", 1, PString);
      ("min", 2, PDouble);
      ("max", 3, PDouble);
      ("val_x", 4, PDouble);
      ("val_y", 5, PDouble);
      ("name", 6, PString);
      ("gen", 7, PMessage "Snapshot.Curve")]);
   (* snapshot.proto 62-64 *)
   ("Snapshot.Sensors",
     [("sensors", 1, PRepeated "Snapshot.SensorType")]);
   (* snapshot.proto 67-118 *)
   ("Snapshot.Navigator",
     [("routes", 1, PRepeated "Snapshot.Navigator.Route");
      ("route_index", 2, PInt64);
      ("track_index", 3, PInt64);
      ("segment_index", 4, PInt64);
      ("current_segment_distance", 5, PDouble);
      ("current_route_distance", 6, PDouble);
      ("current_track_distance", 7, PDouble);
      ("current_distance", 8, PDouble);
      ("offline_index", 9, PInt64);
      ("point", 10, PMessage "Snapshot.PointLatLon");
      ("elevation", 11, PMessage "Snapshot.SensorType");
      ("offline_min", 12, PInt64);
      ("offline_max", 13, PInt64);
      ("distance", 14, PDouble);
      ("skip_offline", 15, PBool);
      ("version", 16, PInt64)]);
   (* snapshot.proto 68-96 *)
   ("Snapshot.Navigator.Route",
     [("id", 1, PString);
      ("distance", 2, PDouble);
      ("color", 3, PString);
      ("tracks", 4, PRepeated "Snapshot.Navigator.Route.Track");
      ("props", 5, PBytes);
      ("name", 6, PString);
      ("version", 7, PInt64)]);
   (* snapshot.proto 69-87 *)
   ("Snapshot.Navigator.Route.Track",
     [("id", 1, PString);
      ("segmenets", 2, PRepeated "Snapshot.Navigator.Route.Track.Segment");
      ("color", 3, PString);
      ("props", 4, PBytes);
      ("distance", 5, PDouble);
      ("is_closed", 6, PBool);
      ("name", 7, PString);
      ("version", 9, PInt64)]);
   (* snapshot.proto 70-77 *)
   ("Snapshot.Navigator.Route.Track.Segment",
     [("point_a", 1, PMessage "Snapshot.PointLatLon");
      ("point_b", 2, PMessage "Snapshot.PointLatLon");
      ("distance", 3, PDouble);
      ("bearing", 4, PDouble);
      ("index", 5, PInt64);
      ("rel", 6, PInt64)]);
   (* snapshot.proto 98-100 *)
   ("Snapshot.Navigator.Routes",
     [("routes", 1, PRepeated "Snapshot.Navigator.Route")]);
   (* gpsgen.proto 8-124 *)
   ("Device",
     [("id", 1, PString);
      ("user_id", 2, PString);
      ("tick", 3, PDouble);
      ("duration", 4, PDouble);
      ("model", 5, PString);
      ("speed", 6, PDouble);
      ("distance", 7, PMessage "Device.Distance");
      ("battery", 8, PMessage "Device.Battery");
      ("routes", 9, PMessage "Device.Routes");
      ("location", 10, PMessage "Device.Location");
      ("navigator", 11, PMessage "Device.Navigator");
      ("sensors", 12, PRepeated "Device.Sensor");
      ("description", 14, PString);
      ("is_offline", 15, PBool);
      ("offline_duration", 16, PInt64);
      ("color", 17, PString);
      ("time_estimate", 18, PDouble);
      ("units", 19, PMessage "Device.Unit")]);
   (* gpsgen.proto 10-13 *)
   ("Device.Battery",
     [("charge", 1, PDouble);
      ("charge_time", 2, PInt64)]);
   (* gpsgen.proto 16-37 *)
   ("Device.Routes",
     [("routes", 1, PRepeated "Device.Routes.Route")]);
   (* gpsgen.proto 18-35 *)
   ("Device.Routes.Route",
     [("route_id", 1, PString);
      ("tracks", 2, PRepeated "Device.Routes.Route.Track");
      ("distance", 3, PDouble);
      ("color", 4, PString);
      ("props", 5, PBytes);
      ("props_count", 6, PInt64)]);
   (* gpsgen.proto 20-27 *)
   ("Device.Routes.Route.Track",
     [("track_id", 1, PString);
      ("distance", 2, PDouble);
      ("num_segments", 3, PInt64);
      ("color", 4, PString);
      ("props", 5, PBytes);
      ("props_count", 6, PInt64)]);
   (* gpsgen.proto 40-45 *)
   ("Device.Sensor",
     [("id", 1, PString);
      ("name", 2, PString);
      ("val_x", 3, PDouble);
      ("val_y", 4, PDouble)]);
   (* gpsgen.proto 48-54 *)
   ("Device.Navigator",
     [("current_route_index", 1, PInt64);
      ("current_track_index", 2, PInt64);
      ("current_segment_index", 3, PInt64);
      ("current_route_id", 4, PString);
      ("current_track_id", 5, PString)]);
   (* gpsgen.proto 57-66 *)
   ("Device.Distance",
     [("distance", 1, PDouble);
      ("current_distance", 2, PDouble);
      ("route_distance", 3, PDouble);
      ("current_route_distance", 4, PDouble);
      ("track_distance", 5, PDouble);
      ("current_track_distance", 6, PDouble);
      ("segment_distance", 7, PDouble);
      ("current_segment_distance", 8, PDouble)]);
   (* gpsgen.proto 69-96 *)
   ("Device.Location",
     [("lat", 1, PDouble);
      ("lon", 2, PDouble);
      ("elevation", 3, PDouble);
      ("bearing", 4, PDouble);
      ("lat_dms", 12, PMessage "Device.Location.DMS");
      ("lon_dms", 13, PMessage "Device.Location.DMS");
      ("utm", 14, PMessage "Device.Location.UTM")]);
   (* gpsgen.proto 71-76 *)
   ("Device.Location.DMS",
     [("degrees", 1, PInt64);
      ("minutes", 2, PInt64);
      ("seconds", 3, PDouble);
      ("direction", 4, PString)]);
   (* gpsgen.proto 79-87 *)
   ("Device.Location.UTM",
     [("central_meridian", 1, PDouble);
      ("easting", 2, PDouble);
      ("northing", 3, PDouble);
      ("long_zone", 4, PInt64);
      ("lat_zone", 5, PString);
      ("hemisphere", 6, PString);
      ("srid", 7, PInt64)]);
   (* gpsgen.proto 98-103 *)
   ("Device.Unit",
     [("distance", 1, PString);
      ("speed", 2, PString);
      ("time", 3, PString);
      ("elevation", 4, PString)]);
   (* gpsgen.proto 127-130 *)
   ("Packet",
     [("devices", 1, PRepeated "Device");
      ("timestamp", 2, PInt64)])
  ].

Definition fields (m : string) : list (string * Z * ptype) :=
  match find (fun x => String.eqb (fst x) m) schema with Some x => snd x | None => [] end.

(** ** Documents: the fields of a message in the order they are in, by name *)
Inductive value : Type :=
| VDouble (bits : Z)
| VInt (z : Z)
| VBool (b : bool)
| VText (s : string)
| VMessage (t : list (string * value)).
Definition tree : Type := list (string * value).

(** ** Bytes *)
Definition is_byte (b : Z) : Prop := 0 <= b < 256.
Definition text (l : list Z) : string := string_of_list_ascii (map (fun b => Ascii.ascii_of_nat (Z.to_nat b)) l).

(** base 128, least significant group first, the top bit of a byte says that more follow *)
Inductive varint : Z -> list Z -> Prop :=
| vi_last b : 0 <= b < 128 -> varint b [b]
| vi_more b n l : 128 <= b < 256 -> varint n l -> varint (b - 128 + 128 * n) (b :: l).
(** a 64-bit number; more bytes than necessary are allowed, but not more than ten *)
Definition uint64 (n : Z) (l : list Z) : Prop := varint n l /\ (List.length l <= 10)%nat /\ n < 2 ^ 64.

(** little endian *)
Fixpoint fixed (l : list Z) : Z := match l with [] => 0 | b :: r => b + 256 * fixed r end.

(** two's complement *)
Definition signed (n : Z) : Z := if n <? 2 ^ 63 then n else n - 2 ^ 64.

Definition size (l : list Z) : Z := Z.of_nat (List.length l).

(** a tag: field number and wire type *)
Definition tag (max num wt : Z) (l : list Z) : Prop := 1 <= num <= max /\ 0 <= wt < 8 /\ uint64 (8 * num + wt) l.

(** scalars: type, value, wire type and bytes *)
Inductive scalar : ptype -> value -> Z -> list Z -> Prop :=
| sc_double l : List.length l = 8%nat -> scalar PDouble (VDouble (fixed l)) 1 l
| sc_int n l : uint64 n l -> scalar PInt64 (VInt (signed n)) 0 l
| sc_bool n l : uint64 n l -> scalar PBool (VBool (negb (n =? 0))) 0 l
| sc_string len l : uint64 (size l) len -> utf8_text l -> scalar PString (VText (text l)) 2 (len ++ l)
| sc_bytes len l : uint64 (size l) len -> scalar PBytes (VText (text l)) 2 (len ++ l).
Definition wire_type (ty : ptype) : Z :=
  match ty with PDouble => 1 | PInt64 | PBool => 0 | PString | PBytes | PMessage _ | PRepeated _ => 2 end.

(** the value of a field nobody knows; groups nest at most [depth] deep, field numbers in them are below 2^31 *)
Inductive skipped : nat -> Z -> Z -> list Z -> Prop :=
| sk_varint depth num n l : uint64 n l -> skipped depth num 0 l
| sk_fixed64 depth num l : List.length l = 8%nat -> skipped depth num 1 l
| sk_fixed32 depth num l : List.length l = 4%nat -> skipped depth num 5 l
| sk_bytes depth num len l : uint64 (size l) len -> skipped depth num 2 (len ++ l)
| sk_group depth num l : group depth num l -> skipped (S depth) num 3 l
with group : nat -> Z -> list Z -> Prop :=
| gr_end depth num t : tag 2147483647 num 4 t -> group depth num t
| gr_field depth num num' wt t v l : wt <> 4 -> tag 2147483647 num' wt t -> skipped depth num' wt v -> group depth num l ->
    group depth num (t ++ v ++ l).
Definition group_limit : nat := Z.to_nat 10001.

(** The bytes [b] are message [m] with the fields [t]: fields in any order, any number of times, and fields that are
    unknown or whose wire type is not that of the declaration in between. *)
Inductive doc : string -> tree -> list Z -> Prop :=
| doc_end m : doc m [] []
| doc_scalar m f num ty v wt tg b t r :
    In (f, num, ty) (fields m) -> scalar ty v wt b -> tag 536870911 num wt tg -> doc m t r ->
    doc m ((f, v) :: t) (tg ++ b ++ r)
| doc_message m f num ty m' t' b len tg t r :
    In (f, num, ty) (fields m) -> ty = PMessage m' \/ ty = PRepeated m' -> doc m' t' b ->
    tag 536870911 num 2 tg -> uint64 (size b) len -> doc m t r ->
    doc m ((f, VMessage t') :: t) (tg ++ len ++ b ++ r)
| doc_unknown m num wt tg b t r :
    (forall f ty, In (f, num, ty) (fields m) -> wire_type ty <> wt) ->
    tag 536870911 num wt tg -> skipped group_limit num wt b -> doc m t r -> doc m t (tg ++ b ++ r).

(** ** What a document means: of a scalar the last one counts, without any the default; a message that occurs several times
    is the message of all their fields; of a repeated message all occurrences count *)
Definition last_of {A} (g : value -> option A) (default : A) (f : string) (t : tree) : A :=
  fold_left (fun acc e => if String.eqb (fst e) f then match g (snd e) with Some x => x | None => acc end else acc) t default.
Definition the_double (f : string) (t : tree) : Z := last_of (fun v => match v with VDouble b => Some b | _ => None end) 0 f t.
Definition the_int (f : string) (t : tree) : Z := last_of (fun v => match v with VInt z => Some z | _ => None end) 0 f t.
Definition the_bool (f : string) (t : tree) : bool := last_of (fun v => match v with VBool b => Some b | _ => None end) false f t.
Definition the_text (f : string) (t : tree) : string := last_of (fun v => match v with VText s => Some s | _ => None end) "" f t.
Definition messages (f : string) (t : tree) : list tree :=
  flat_map (fun e => if String.eqb (fst e) f then match snd e with VMessage t' => [t'] | _ => [] end else []) t.
Definition the_message {A} (g : tree -> A) (f : string) (t : tree) : option A :=
  match messages f t with [] => None | l => Some (g (List.concat l)) end.
Definition the_list {A} (g : tree -> A) (f : string) (t : tree) : list A := map g (messages f t).

(** ** The messages, field by field *)
Section Messages.
Context {T : Type} {B : WireMsgs.Bits64 T}.
Notation of_bits := WireMsgs.of_bits.

(** message Snapshot.PointLatLon, snapshot.proto 10-13 *)
Definition PointLatLon_of (t : tree) : pbPointLatLon T :=
  {| pll_lon := of_bits (the_double "lon" t);
     pll_lat := of_bits (the_double "lat" t) |}.

(** message Snapshot.Curve.Point, snapshot.proto 18-21 *)
Definition CurvePoint_of (t : tree) : pbCurvePoint T :=
  {| pcp_x := of_bits (the_double "x" t);
     pcp_y := of_bits (the_double "y" t) |}.

(** message Snapshot.Curve.ControlPoint, snapshot.proto 24-27 *)
Definition ControlPoint_of (t : tree) : pbControlPoint T :=
  {| pct_vp := the_message CurvePoint_of "vp" t;
     pct_cp := the_message CurvePoint_of "cp" t |}.

(** message Snapshot.Curve, snapshot.proto 16-33 *)
Definition Curve_of (t : tree) : pbCurve T :=
  {| pcv_points := the_list ControlPoint_of "points" t;
     pcv_mode := the_int "mode" t;
     pcv_min := of_bits (the_double "min" t);
     pcv_max := of_bits (the_double "max" t) |}.

(** message Snapshot.CommonType, snapshot.proto 36-41 *)
Definition Common_of (t : tree) : pbCommon T :=
  {| pco_min := of_bits (the_double "min" t);
     pco_max := of_bits (the_double "max" t);
     pco_val := of_bits (the_double "val" t);
     pco_gen := the_message Curve_of "gen" t |}.

(** message Snapshot.BatteryType, snapshot.proto 44-49 *)
Definition Battery_of (t : tree) : pbBattery T :=
  {| pba_min := of_bits (the_double "min" t);
     pba_max := of_bits (the_double "max" t);
     pba_charge_time := the_int "charge_time" t;
     pba_val := of_bits (the_double "val" t) |}.

(** message Snapshot.SensorType, snapshot.proto 52-60 *)
Definition Sensor_of (t : tree) : pbSensor T :=
  {| pse_id := the_text "id" t;
     pse_min := of_bits (the_double "min" t);
     pse_max := of_bits (the_double "max" t);
     pse_val_x := of_bits (the_double "val_x" t);
     pse_val_y := of_bits (the_double "val_y" t);
     pse_name := the_text "name" t;
     pse_gen := the_message Curve_of "gen" t |}.

(** message Snapshot.Sensors, snapshot.proto 62-64 *)
Definition Sensors_of (t : tree) : pbSensors T :=
  {| pss_sensors := the_list Sensor_of "sensors" t |}.

(** message Snapshot.Navigator.Route.Track.Segment, snapshot.proto 70-77 *)
Definition Segment_of (t : tree) : pbSegment T :=
  {| psg_point_a := the_message PointLatLon_of "point_a" t;
     psg_point_b := the_message PointLatLon_of "point_b" t;
     psg_distance := of_bits (the_double "distance" t);
     psg_bearing := of_bits (the_double "bearing" t);
     psg_index := the_int "index" t;
     psg_rel := the_int "rel" t |}.

(** message Snapshot.Navigator.Route.Track, snapshot.proto 69-87 *)
Definition Track_of (t : tree) : pbTrack T :=
  {| ptr_id := the_text "id" t;
     ptr_segments := the_list Segment_of "segmenets" t;
     ptr_color := the_text "color" t;
     ptr_props := the_text "props" t;
     ptr_distance := of_bits (the_double "distance" t);
     ptr_is_closed := the_bool "is_closed" t;
     ptr_name := the_text "name" t;
     ptr_version := the_int "version" t |}.

(** message Snapshot.Navigator.Route, snapshot.proto 68-96 *)
Definition Route_of (t : tree) : pbRoute T :=
  {| pro_id := the_text "id" t;
     pro_distance := of_bits (the_double "distance" t);
     pro_color := the_text "color" t;
     pro_tracks := the_list Track_of "tracks" t;
     pro_props := the_text "props" t;
     pro_name := the_text "name" t;
     pro_version := the_int "version" t |}.

(** message Snapshot.Navigator.Routes, snapshot.proto 98-100 *)
Definition Routes_of (t : tree) : pbRoutes T :=
  {| prs_routes := the_list Route_of "routes" t |}.

(** message Snapshot.Navigator, snapshot.proto 67-118 *)
Definition Navigator_of (t : tree) : pbNavigator T :=
  {| pna_routes := the_list Route_of "routes" t;
     pna_route_index := the_int "route_index" t;
     pna_track_index := the_int "track_index" t;
     pna_segment_index := the_int "segment_index" t;
     pna_current_segment_distance := of_bits (the_double "current_segment_distance" t);
     pna_current_route_distance := of_bits (the_double "current_route_distance" t);
     pna_current_track_distance := of_bits (the_double "current_track_distance" t);
     pna_current_distance := of_bits (the_double "current_distance" t);
     pna_offline_index := the_int "offline_index" t;
     pna_point := the_message PointLatLon_of "point" t;
     pna_elevation := the_message Sensor_of "elevation" t;
     pna_offline_min := the_int "offline_min" t;
     pna_offline_max := the_int "offline_max" t;
     pna_distance := of_bits (the_double "distance" t);
     pna_skip_offline := the_bool "skip_offline" t;
     pna_version := the_int "version" t |}.

(** message Snapshot, snapshot.proto 8-132 *)
Definition Snapshot_of (t : tree) : pbSnapshot T :=
  {| psn_id := the_text "id" t;
     psn_user_id := the_text "user_id" t;
     psn_tick := of_bits (the_double "tick" t);
     psn_duration := of_bits (the_double "duration" t);
     psn_model := the_text "model" t;
     psn_descr := the_text "descr" t;
     psn_status := the_int "status" t;
     psn_color := the_text "color" t;
     psn_navigator := the_message Navigator_of "navigator" t;
     psn_speed := the_message Common_of "speed" t;
     psn_battery := the_message Battery_of "battery" t;
     psn_sensors := the_list Sensor_of "sensors" t |}.

(** message Device.Battery, gpsgen.proto 10-13 *)
Definition DBattery_of (t : tree) : pbDBattery T :=
  {| pdb_charge := of_bits (the_double "charge" t);
     pdb_charge_time := the_int "charge_time" t |}.

(** message Device.Routes.Route.Track, gpsgen.proto 20-27 *)
Definition DTrack_of (t : tree) : pbDTrack T :=
  {| pdt_track_id := the_text "track_id" t;
     pdt_distance := of_bits (the_double "distance" t);
     pdt_num_segments := the_int "num_segments" t;
     pdt_color := the_text "color" t;
     pdt_props := the_text "props" t;
     pdt_props_count := the_int "props_count" t |}.

(** message Device.Routes.Route, gpsgen.proto 18-35 *)
Definition DRoute_of (t : tree) : pbDRoute T :=
  {| pdr_route_id := the_text "route_id" t;
     pdr_tracks := the_list DTrack_of "tracks" t;
     pdr_distance := of_bits (the_double "distance" t);
     pdr_color := the_text "color" t;
     pdr_props := the_text "props" t;
     pdr_props_count := the_int "props_count" t |}.

(** message Device.Routes, gpsgen.proto 16-37 *)
Definition DRoutes_of (t : tree) : pbDRoutes T :=
  {| pds_routes := the_list DRoute_of "routes" t |}.

(** message Device.Sensor, gpsgen.proto 40-45 *)
Definition DSensor_of (t : tree) : pbDSensor T :=
  {| pdn_id := the_text "id" t;
     pdn_name := the_text "name" t;
     pdn_val_x := of_bits (the_double "val_x" t);
     pdn_val_y := of_bits (the_double "val_y" t) |}.

(** message Device.Navigator, gpsgen.proto 48-54 *)
Definition DNavigator_of (t : tree) : pbDNavigator :=
  {| pdv_current_route_index := the_int "current_route_index" t;
     pdv_current_track_index := the_int "current_track_index" t;
     pdv_current_segment_index := the_int "current_segment_index" t;
     pdv_current_route_id := the_text "current_route_id" t;
     pdv_current_track_id := the_text "current_track_id" t |}.

(** message Device.Distance, gpsgen.proto 57-66 *)
Definition DDistance_of (t : tree) : pbDDistance T :=
  {| pdd_distance := of_bits (the_double "distance" t);
     pdd_current_distance := of_bits (the_double "current_distance" t);
     pdd_route_distance := of_bits (the_double "route_distance" t);
     pdd_current_route_distance := of_bits (the_double "current_route_distance" t);
     pdd_track_distance := of_bits (the_double "track_distance" t);
     pdd_current_track_distance := of_bits (the_double "current_track_distance" t);
     pdd_segment_distance := of_bits (the_double "segment_distance" t);
     pdd_current_segment_distance := of_bits (the_double "current_segment_distance" t) |}.

(** message Device.Location.DMS, gpsgen.proto 71-76 *)
Definition DMS_of (t : tree) : pbDMS T :=
  {| dms_degrees := the_int "degrees" t;
     dms_minutes := the_int "minutes" t;
     dms_seconds := of_bits (the_double "seconds" t);
     dms_direction := the_text "direction" t |}.

(** message Device.Location.UTM, gpsgen.proto 79-87 *)
Definition UTM_of (t : tree) : pbUTM T :=
  {| utm_central_meridian := of_bits (the_double "central_meridian" t);
     utm_easting := of_bits (the_double "easting" t);
     utm_northing := of_bits (the_double "northing" t);
     utm_long_zone := the_int "long_zone" t;
     utm_lat_zone := the_text "lat_zone" t;
     utm_hemisphere := the_text "hemisphere" t;
     utm_srid := the_int "srid" t |}.

(** message Device.Location, gpsgen.proto 69-96 *)
Definition DLocation_of (t : tree) : pbDLocation T :=
  {| pdl_lat := of_bits (the_double "lat" t);
     pdl_lon := of_bits (the_double "lon" t);
     pdl_elevation := of_bits (the_double "elevation" t);
     pdl_bearing := of_bits (the_double "bearing" t);
     pdl_lat_dms := the_message DMS_of "lat_dms" t;
     pdl_lon_dms := the_message DMS_of "lon_dms" t;
     pdl_utm := the_message UTM_of "utm" t |}.

(** message Device.Unit, gpsgen.proto 98-103 *)
Definition DUnit_of (t : tree) : pbDUnit :=
  {| pdu_distance := the_text "distance" t;
     pdu_speed := the_text "speed" t;
     pdu_time := the_text "time" t;
     pdu_elevation := the_text "elevation" t |}.

(** message Device, gpsgen.proto 8-124 *)
Definition Device_of (t : tree) : pbDevice T :=
  {| pde_id := the_text "id" t;
     pde_user_id := the_text "user_id" t;
     pde_tick := of_bits (the_double "tick" t);
     pde_duration := of_bits (the_double "duration" t);
     pde_model := the_text "model" t;
     pde_speed := of_bits (the_double "speed" t);
     pde_distance := the_message DDistance_of "distance" t;
     pde_battery := the_message DBattery_of "battery" t;
     pde_routes := the_message DRoutes_of "routes" t;
     pde_location := the_message DLocation_of "location" t;
     pde_navigator := the_message DNavigator_of "navigator" t;
     pde_sensors := the_list DSensor_of "sensors" t;
     pde_description := the_text "description" t;
     pde_is_offline := the_bool "is_offline" t;
     pde_offline_duration := the_int "offline_duration" t;
     pde_color := the_text "color" t;
     pde_time_estimate := of_bits (the_double "time_estimate" t);
     pde_units := the_message DUnit_of "units" t |}.

(** message Packet, gpsgen.proto 127-130 *)
Definition Packet_of (t : tree) : pbPacket T :=
  {| ppk_devices := the_list Device_of "devices" t;
     ppk_timestamp := the_int "timestamp" t |}.

End Messages.
