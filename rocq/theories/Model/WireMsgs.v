(** Descriptors of the messages of proto/snapshot.proto and proto/gpsgen.proto and the conversion
    between the records of Pb.v and wire-level messages (generated from the .proto files: field
    numbers, kinds and order are those of the cited lines). *)
From Verif.Model Require Import Base Pb Wire.

(** math.Float64bits / math.Float64frombits *)
Class Bits64 (T : Type) : Type := { to_bits : T -> Z; of_bits : Z -> T }.

(** Slot readers; a slot of the wrong shape does not occur in a decoded message. *)
Definition gF {T} {B : Bits64 T} (s : slot) : T := match s with SF b => of_bits b | _ => of_bits 0 end.
Definition gI (s : slot) : Z := match s with SI z => z | _ => 0 end.
Definition gB (s : slot) : bool := match s with SB b => b | _ => false end.
Definition gS (s : slot) : string := match s with SS x => x | _ => ""%string end.
Definition gM {A} (f : msg -> A) (s : slot) : option A :=
  match s with SM (Some m) => Some (f m) | _ => None end.
Definition gR {A} (f : msg -> A) (s : slot) : list A :=
  match s with SR l => map f l | _ => [] end.
Definition fld (m : msg) (i : nat) : slot := nth i m (SI 0).


(** proto/snapshot.proto 10-13: message PointLatLon *)
Definition d_PointLatLon : desc :=
  [(1, KDouble); (2, KDouble)].

(** proto/snapshot.proto 18-21: message Curve.Point *)
Definition d_CurvePoint : desc :=
  [(1, KDouble); (2, KDouble)].

(** proto/snapshot.proto 24-27: message Curve.ControlPoint *)
Definition d_ControlPoint : desc :=
  [(1, KMsg d_CurvePoint); (2, KMsg d_CurvePoint)].

(** proto/snapshot.proto 16-33: message Curve *)
Definition d_Curve : desc :=
  [(1, KRep d_ControlPoint); (2, KInt); (3, KDouble); (4, KDouble)].

(** proto/snapshot.proto 36-41: message CommonType *)
Definition d_Common : desc :=
  [(1, KDouble); (2, KDouble); (3, KDouble); (4, KMsg d_Curve)].

(** proto/snapshot.proto 44-49: message BatteryType *)
Definition d_Battery : desc :=
  [(1, KDouble); (2, KDouble); (4, KInt); (5, KDouble)].

(** proto/snapshot.proto 52-60: message SensorType *)
Definition d_Sensor : desc :=
  [(1, KStr); (2, KDouble); (3, KDouble); (4, KDouble); (5, KDouble); (6, KStr); (7, KMsg d_Curve)].

(** proto/snapshot.proto 62-64: message Sensors *)
Definition d_Sensors : desc :=
  [(1, KRep d_Sensor)].

(** proto/snapshot.proto 70-77: message Navigator.Route.Track.Segment *)
Definition d_Segment : desc :=
  [(1, KMsg d_PointLatLon); (2, KMsg d_PointLatLon); (3, KDouble); (4, KDouble); (5, KInt); (6, KInt)].

(** proto/snapshot.proto 69-87: message Navigator.Route.Track *)
Definition d_Track : desc :=
  [(1, KStr); (2, KRep d_Segment); (3, KStr); (4, KBytes); (5, KDouble); (6, KBool); (7, KStr); (9, KInt)].

(** proto/snapshot.proto 68-96: message Navigator.Route *)
Definition d_Route : desc :=
  [(1, KStr); (2, KDouble); (3, KStr); (4, KRep d_Track); (5, KBytes); (6, KStr); (7, KInt)].

(** proto/snapshot.proto 98-100: message Navigator.Routes *)
Definition d_Routes : desc :=
  [(1, KRep d_Route)].

(** proto/snapshot.proto 67-118: message Navigator *)
Definition d_Navigator : desc :=
  [(1, KRep d_Route); (2, KInt); (3, KInt); (4, KInt); (5, KDouble); (6, KDouble); (7, KDouble); (8, KDouble); (9, KInt); (10, KMsg d_PointLatLon); (11, KMsg d_Sensor); (12, KInt); (13, KInt); (14, KDouble); (15, KBool); (16, KInt)].

(** proto/snapshot.proto 8-132: message Snapshot *)
Definition d_Snapshot : desc :=
  [(1, KStr); (2, KStr); (3, KDouble); (4, KDouble); (5, KStr); (6, KStr); (7, KInt); (8, KStr); (9, KMsg d_Navigator); (10, KMsg d_Common); (11, KMsg d_Battery); (12, KRep d_Sensor)].

(** proto/gpsgen.proto 10-13: message Device.Battery *)
Definition d_DBattery : desc :=
  [(1, KDouble); (2, KInt)].

(** proto/gpsgen.proto 20-27: message Device.Routes.Route.Track *)
Definition d_DTrack : desc :=
  [(1, KStr); (2, KDouble); (3, KInt); (4, KStr); (5, KBytes); (6, KInt)].

(** proto/gpsgen.proto 18-35: message Device.Routes.Route *)
Definition d_DRoute : desc :=
  [(1, KStr); (2, KRep d_DTrack); (3, KDouble); (4, KStr); (5, KBytes); (6, KInt)].

(** proto/gpsgen.proto 16-37: message Device.Routes *)
Definition d_DRoutes : desc :=
  [(1, KRep d_DRoute)].

(** proto/gpsgen.proto 40-45: message Device.Sensor *)
Definition d_DSensor : desc :=
  [(1, KStr); (2, KStr); (3, KDouble); (4, KDouble)].

(** proto/gpsgen.proto 48-54: message Device.Navigator *)
Definition d_DNavigator : desc :=
  [(1, KInt); (2, KInt); (3, KInt); (4, KStr); (5, KStr)].

(** proto/gpsgen.proto 57-66: message Device.Distance *)
Definition d_DDistance : desc :=
  [(1, KDouble); (2, KDouble); (3, KDouble); (4, KDouble); (5, KDouble); (6, KDouble); (7, KDouble); (8, KDouble)].

(** proto/gpsgen.proto 71-76: message Device.Location.DMS *)
Definition d_DMS : desc :=
  [(1, KInt); (2, KInt); (3, KDouble); (4, KStr)].

(** proto/gpsgen.proto 79-87: message Device.Location.UTM *)
Definition d_UTM : desc :=
  [(1, KDouble); (2, KDouble); (3, KDouble); (4, KInt); (5, KStr); (6, KStr); (7, KInt)].

(** proto/gpsgen.proto 69-96: message Device.Location *)
Definition d_DLocation : desc :=
  [(1, KDouble); (2, KDouble); (3, KDouble); (4, KDouble); (12, KMsg d_DMS); (13, KMsg d_DMS); (14, KMsg d_UTM)].

(** proto/gpsgen.proto 98-103: message Device.Unit *)
Definition d_DUnit : desc :=
  [(1, KStr); (2, KStr); (3, KStr); (4, KStr)].

(** proto/gpsgen.proto 8-124: message Device *)
Definition d_Device : desc :=
  [(1, KStr); (2, KStr); (3, KDouble); (4, KDouble); (5, KStr); (6, KDouble); (7, KMsg d_DDistance); (8, KMsg d_DBattery); (9, KMsg d_DRoutes); (10, KMsg d_DLocation); (11, KMsg d_DNavigator); (12, KRep d_DSensor); (14, KStr); (15, KBool); (16, KInt); (17, KStr); (18, KDouble); (19, KMsg d_DUnit)].

(** proto/gpsgen.proto 127-130: message Packet *)
Definition d_Packet : desc :=
  [(1, KRep d_Device); (2, KInt)].


Section Msgs.
Context {T : Type} {B : Bits64 T}.

(** proto/snapshot.proto 10-13 *)
Definition w_PointLatLon (x : pbPointLatLon T) : msg :=
  [SF (to_bits (pll_lon x)); SF (to_bits (pll_lat x))].

Definition r_PointLatLon (m : msg) : pbPointLatLon T :=
  mkPbPLL (gF (fld m 0)) (gF (fld m 1)).

(** proto/snapshot.proto 18-21 *)
Definition w_CurvePoint (x : pbCurvePoint T) : msg :=
  [SF (to_bits (pcp_x x)); SF (to_bits (pcp_y x))].

Definition r_CurvePoint (m : msg) : pbCurvePoint T :=
  mkPbCP (gF (fld m 0)) (gF (fld m 1)).

(** proto/snapshot.proto 24-27 *)
Definition w_ControlPoint (x : pbControlPoint T) : msg :=
  [SM (option_map w_CurvePoint (pct_vp x)); SM (option_map w_CurvePoint (pct_cp x))].

Definition r_ControlPoint (m : msg) : pbControlPoint T :=
  mkPbCtrl (gM r_CurvePoint (fld m 0)) (gM r_CurvePoint (fld m 1)).

(** proto/snapshot.proto 16-33 *)
Definition w_Curve (x : pbCurve T) : msg :=
  [SR (map w_ControlPoint (pcv_points x)); SI (pcv_mode x); SF (to_bits (pcv_min x)); SF (to_bits (pcv_max x))].

Definition r_Curve (m : msg) : pbCurve T :=
  mkPbCurve (gR r_ControlPoint (fld m 0)) (gI (fld m 1)) (gF (fld m 2)) (gF (fld m 3)).

(** proto/snapshot.proto 36-41 *)
Definition w_Common (x : pbCommon T) : msg :=
  [SF (to_bits (pco_min x)); SF (to_bits (pco_max x)); SF (to_bits (pco_val x)); SM (option_map w_Curve (pco_gen x))].

Definition r_Common (m : msg) : pbCommon T :=
  mkPbCommon (gF (fld m 0)) (gF (fld m 1)) (gF (fld m 2)) (gM r_Curve (fld m 3)).

(** proto/snapshot.proto 44-49 *)
Definition w_Battery (x : pbBattery T) : msg :=
  [SF (to_bits (pba_min x)); SF (to_bits (pba_max x)); SI (pba_charge_time x); SF (to_bits (pba_val x))].

Definition r_Battery (m : msg) : pbBattery T :=
  mkPbBattery (gF (fld m 0)) (gF (fld m 1)) (gI (fld m 2)) (gF (fld m 3)).

(** proto/snapshot.proto 52-60 *)
Definition w_Sensor (x : pbSensor T) : msg :=
  [SS (pse_id x); SF (to_bits (pse_min x)); SF (to_bits (pse_max x)); SF (to_bits (pse_val_x x)); SF (to_bits (pse_val_y x)); SS (pse_name x); SM (option_map w_Curve (pse_gen x))].

Definition r_Sensor (m : msg) : pbSensor T :=
  mkPbSensor (gS (fld m 0)) (gF (fld m 1)) (gF (fld m 2)) (gF (fld m 3)) (gF (fld m 4)) (gS (fld m 5)) (gM r_Curve (fld m 6)).

(** proto/snapshot.proto 62-64 *)
Definition w_Sensors (x : pbSensors T) : msg :=
  [SR (map w_Sensor (pss_sensors x))].

Definition r_Sensors (m : msg) : pbSensors T :=
  mkPbSensors (gR r_Sensor (fld m 0)).

(** proto/snapshot.proto 70-77 *)
Definition w_Segment (x : pbSegment T) : msg :=
  [SM (option_map w_PointLatLon (psg_point_a x)); SM (option_map w_PointLatLon (psg_point_b x)); SF (to_bits (psg_distance x)); SF (to_bits (psg_bearing x)); SI (psg_index x); SI (psg_rel x)].

Definition r_Segment (m : msg) : pbSegment T :=
  mkPbSegment (gM r_PointLatLon (fld m 0)) (gM r_PointLatLon (fld m 1)) (gF (fld m 2)) (gF (fld m 3)) (gI (fld m 4)) (gI (fld m 5)).

(** proto/snapshot.proto 69-87 *)
Definition w_Track (x : pbTrack T) : msg :=
  [SS (ptr_id x); SR (map w_Segment (ptr_segments x)); SS (ptr_color x); SS (ptr_props x); SF (to_bits (ptr_distance x)); SB (ptr_is_closed x); SS (ptr_name x); SI (ptr_version x)].

Definition r_Track (m : msg) : pbTrack T :=
  mkPbTrack (gS (fld m 0)) (gR r_Segment (fld m 1)) (gS (fld m 2)) (gS (fld m 3)) (gF (fld m 4)) (gB (fld m 5)) (gS (fld m 6)) (gI (fld m 7)).

(** proto/snapshot.proto 68-96 *)
Definition w_Route (x : pbRoute T) : msg :=
  [SS (pro_id x); SF (to_bits (pro_distance x)); SS (pro_color x); SR (map w_Track (pro_tracks x)); SS (pro_props x); SS (pro_name x); SI (pro_version x)].

Definition r_Route (m : msg) : pbRoute T :=
  mkPbRoute (gS (fld m 0)) (gF (fld m 1)) (gS (fld m 2)) (gR r_Track (fld m 3)) (gS (fld m 4)) (gS (fld m 5)) (gI (fld m 6)).

(** proto/snapshot.proto 98-100 *)
Definition w_Routes (x : pbRoutes T) : msg :=
  [SR (map w_Route (prs_routes x))].

Definition r_Routes (m : msg) : pbRoutes T :=
  mkPbRoutes (gR r_Route (fld m 0)).

(** proto/snapshot.proto 67-118 *)
Definition w_Navigator (x : pbNavigator T) : msg :=
  [SR (map w_Route (pna_routes x)); SI (pna_route_index x); SI (pna_track_index x); SI (pna_segment_index x); SF (to_bits (pna_current_segment_distance x)); SF (to_bits (pna_current_route_distance x)); SF (to_bits (pna_current_track_distance x)); SF (to_bits (pna_current_distance x)); SI (pna_offline_index x); SM (option_map w_PointLatLon (pna_point x)); SM (option_map w_Sensor (pna_elevation x)); SI (pna_offline_min x); SI (pna_offline_max x); SF (to_bits (pna_distance x)); SB (pna_skip_offline x); SI (pna_version x)].

Definition r_Navigator (m : msg) : pbNavigator T :=
  mkPbNavigator (gR r_Route (fld m 0)) (gI (fld m 1)) (gI (fld m 2)) (gI (fld m 3)) (gF (fld m 4)) (gF (fld m 5)) (gF (fld m 6)) (gF (fld m 7)) (gI (fld m 8)) (gM r_PointLatLon (fld m 9)) (gM r_Sensor (fld m 10)) (gI (fld m 11)) (gI (fld m 12)) (gF (fld m 13)) (gB (fld m 14)) (gI (fld m 15)).

(** proto/snapshot.proto 8-132 *)
Definition w_Snapshot (x : pbSnapshot T) : msg :=
  [SS (psn_id x); SS (psn_user_id x); SF (to_bits (psn_tick x)); SF (to_bits (psn_duration x)); SS (psn_model x); SS (psn_descr x); SI (psn_status x); SS (psn_color x); SM (option_map w_Navigator (psn_navigator x)); SM (option_map w_Common (psn_speed x)); SM (option_map w_Battery (psn_battery x)); SR (map w_Sensor (psn_sensors x))].

Definition r_Snapshot (m : msg) : pbSnapshot T :=
  mkPbSnapshot (gS (fld m 0)) (gS (fld m 1)) (gF (fld m 2)) (gF (fld m 3)) (gS (fld m 4)) (gS (fld m 5)) (gI (fld m 6)) (gS (fld m 7)) (gM r_Navigator (fld m 8)) (gM r_Common (fld m 9)) (gM r_Battery (fld m 10)) (gR r_Sensor (fld m 11)).

(** proto/gpsgen.proto 10-13 *)
Definition w_DBattery (x : pbDBattery T) : msg :=
  [SF (to_bits (pdb_charge x)); SI (pdb_charge_time x)].

Definition r_DBattery (m : msg) : pbDBattery T :=
  mkPbDBattery (gF (fld m 0)) (gI (fld m 1)).

(** proto/gpsgen.proto 20-27 *)
Definition w_DTrack (x : pbDTrack T) : msg :=
  [SS (pdt_track_id x); SF (to_bits (pdt_distance x)); SI (pdt_num_segments x); SS (pdt_color x); SS (pdt_props x); SI (pdt_props_count x)].

Definition r_DTrack (m : msg) : pbDTrack T :=
  mkPbDTrack (gS (fld m 0)) (gF (fld m 1)) (gI (fld m 2)) (gS (fld m 3)) (gS (fld m 4)) (gI (fld m 5)).

(** proto/gpsgen.proto 18-35 *)
Definition w_DRoute (x : pbDRoute T) : msg :=
  [SS (pdr_route_id x); SR (map w_DTrack (pdr_tracks x)); SF (to_bits (pdr_distance x)); SS (pdr_color x); SS (pdr_props x); SI (pdr_props_count x)].

Definition r_DRoute (m : msg) : pbDRoute T :=
  mkPbDRoute (gS (fld m 0)) (gR r_DTrack (fld m 1)) (gF (fld m 2)) (gS (fld m 3)) (gS (fld m 4)) (gI (fld m 5)).

(** proto/gpsgen.proto 16-37 *)
Definition w_DRoutes (x : pbDRoutes T) : msg :=
  [SR (map w_DRoute (pds_routes x))].

Definition r_DRoutes (m : msg) : pbDRoutes T :=
  mkPbDRoutes (gR r_DRoute (fld m 0)).

(** proto/gpsgen.proto 40-45 *)
Definition w_DSensor (x : pbDSensor T) : msg :=
  [SS (pdn_id x); SS (pdn_name x); SF (to_bits (pdn_val_x x)); SF (to_bits (pdn_val_y x))].

Definition r_DSensor (m : msg) : pbDSensor T :=
  mkPbDSensor (gS (fld m 0)) (gS (fld m 1)) (gF (fld m 2)) (gF (fld m 3)).

(** proto/gpsgen.proto 48-54 *)
Definition w_DNavigator (x : pbDNavigator) : msg :=
  [SI (pdv_current_route_index x); SI (pdv_current_track_index x); SI (pdv_current_segment_index x); SS (pdv_current_route_id x); SS (pdv_current_track_id x)].

Definition r_DNavigator (m : msg) : pbDNavigator :=
  mkPbDNavigator (gI (fld m 0)) (gI (fld m 1)) (gI (fld m 2)) (gS (fld m 3)) (gS (fld m 4)).

(** proto/gpsgen.proto 57-66 *)
Definition w_DDistance (x : pbDDistance T) : msg :=
  [SF (to_bits (pdd_distance x)); SF (to_bits (pdd_current_distance x)); SF (to_bits (pdd_route_distance x)); SF (to_bits (pdd_current_route_distance x)); SF (to_bits (pdd_track_distance x)); SF (to_bits (pdd_current_track_distance x)); SF (to_bits (pdd_segment_distance x)); SF (to_bits (pdd_current_segment_distance x))].

Definition r_DDistance (m : msg) : pbDDistance T :=
  mkPbDDistance (gF (fld m 0)) (gF (fld m 1)) (gF (fld m 2)) (gF (fld m 3)) (gF (fld m 4)) (gF (fld m 5)) (gF (fld m 6)) (gF (fld m 7)).

(** proto/gpsgen.proto 71-76 *)
Definition w_DMS (x : pbDMS T) : msg :=
  [SI (dms_degrees x); SI (dms_minutes x); SF (to_bits (dms_seconds x)); SS (dms_direction x)].

Definition r_DMS (m : msg) : pbDMS T :=
  mkPbDMS (gI (fld m 0)) (gI (fld m 1)) (gF (fld m 2)) (gS (fld m 3)).

(** proto/gpsgen.proto 79-87 *)
Definition w_UTM (x : pbUTM T) : msg :=
  [SF (to_bits (utm_central_meridian x)); SF (to_bits (utm_easting x)); SF (to_bits (utm_northing x)); SI (utm_long_zone x); SS (utm_lat_zone x); SS (utm_hemisphere x); SI (utm_srid x)].

Definition r_UTM (m : msg) : pbUTM T :=
  mkPbUTM (gF (fld m 0)) (gF (fld m 1)) (gF (fld m 2)) (gI (fld m 3)) (gS (fld m 4)) (gS (fld m 5)) (gI (fld m 6)).

(** proto/gpsgen.proto 69-96 *)
Definition w_DLocation (x : pbDLocation T) : msg :=
  [SF (to_bits (pdl_lat x)); SF (to_bits (pdl_lon x)); SF (to_bits (pdl_elevation x)); SF (to_bits (pdl_bearing x)); SM (option_map w_DMS (pdl_lat_dms x)); SM (option_map w_DMS (pdl_lon_dms x)); SM (option_map w_UTM (pdl_utm x))].

Definition r_DLocation (m : msg) : pbDLocation T :=
  mkPbDLocation (gF (fld m 0)) (gF (fld m 1)) (gF (fld m 2)) (gF (fld m 3)) (gM r_DMS (fld m 4)) (gM r_DMS (fld m 5)) (gM r_UTM (fld m 6)).

(** proto/gpsgen.proto 98-103 *)
Definition w_DUnit (x : pbDUnit) : msg :=
  [SS (pdu_distance x); SS (pdu_speed x); SS (pdu_time x); SS (pdu_elevation x)].

Definition r_DUnit (m : msg) : pbDUnit :=
  mkPbDUnit (gS (fld m 0)) (gS (fld m 1)) (gS (fld m 2)) (gS (fld m 3)).

(** proto/gpsgen.proto 8-124 *)
Definition w_Device (x : pbDevice T) : msg :=
  [SS (pde_id x); SS (pde_user_id x); SF (to_bits (pde_tick x)); SF (to_bits (pde_duration x)); SS (pde_model x); SF (to_bits (pde_speed x)); SM (option_map w_DDistance (pde_distance x)); SM (option_map w_DBattery (pde_battery x)); SM (option_map w_DRoutes (pde_routes x)); SM (option_map w_DLocation (pde_location x)); SM (option_map w_DNavigator (pde_navigator x)); SR (map w_DSensor (pde_sensors x)); SS (pde_description x); SB (pde_is_offline x); SI (pde_offline_duration x); SS (pde_color x); SF (to_bits (pde_time_estimate x)); SM (option_map w_DUnit (pde_units x))].

Definition r_Device (m : msg) : pbDevice T :=
  mkPbDevice (gS (fld m 0)) (gS (fld m 1)) (gF (fld m 2)) (gF (fld m 3)) (gS (fld m 4)) (gF (fld m 5)) (gM r_DDistance (fld m 6)) (gM r_DBattery (fld m 7)) (gM r_DRoutes (fld m 8)) (gM r_DLocation (fld m 9)) (gM r_DNavigator (fld m 10)) (gR r_DSensor (fld m 11)) (gS (fld m 12)) (gB (fld m 13)) (gI (fld m 14)) (gS (fld m 15)) (gF (fld m 16)) (gM r_DUnit (fld m 17)).

(** proto/gpsgen.proto 127-130 *)
Definition w_Packet (x : pbPacket T) : msg :=
  [SR (map w_Device (ppk_devices x)); SI (ppk_timestamp x)].

Definition r_Packet (m : msg) : pbPacket T :=
  mkPbPacket (gR r_Device (fld m 0)) (gI (fld m 1)).


End Msgs.
