(** Which snapshots and packets can be put on the wire: every integer is an int64, every proto3 string
    is valid UTF-8. One predicate per message, field by field (generated from the .proto files). *)
From Verif.Model Require Import Base Utf8 Pb.

Definition is_int64 (z : Z) : Prop := (- 2 ^ 63 <= z < 2 ^ 63)%Z.
Definition is_utf8 (s : string) : Prop := utf8_valid s = true.
Definition if_set {A} (P : A -> Prop) (o : option A) : Prop := match o with Some x => P x | None => True end.

Section WireMsgSpec.
Context {T : Type}.

(** message PointLatLon *)
Definition int64_PointLatLon (x : pbPointLatLon T) : Prop :=
  True.
Definition utf8_PointLatLon (x : pbPointLatLon T) : Prop :=
  True.

(** message Curve.Point *)
Definition int64_CurvePoint (x : pbCurvePoint T) : Prop :=
  True.
Definition utf8_CurvePoint (x : pbCurvePoint T) : Prop :=
  True.

(** message Curve.ControlPoint *)
Definition int64_ControlPoint (x : pbControlPoint T) : Prop :=
  if_set int64_CurvePoint (pct_vp x) /\ if_set int64_CurvePoint (pct_cp x).
Definition utf8_ControlPoint (x : pbControlPoint T) : Prop :=
  if_set utf8_CurvePoint (pct_vp x) /\ if_set utf8_CurvePoint (pct_cp x).

(** message Curve *)
Definition int64_Curve (x : pbCurve T) : Prop :=
  Forall int64_ControlPoint (pcv_points x) /\ is_int64 (pcv_mode x).
Definition utf8_Curve (x : pbCurve T) : Prop :=
  Forall utf8_ControlPoint (pcv_points x).

(** message CommonType *)
Definition int64_Common (x : pbCommon T) : Prop :=
  if_set int64_Curve (pco_gen x).
Definition utf8_Common (x : pbCommon T) : Prop :=
  if_set utf8_Curve (pco_gen x).

(** message BatteryType *)
Definition int64_Battery (x : pbBattery T) : Prop :=
  is_int64 (pba_charge_time x).
Definition utf8_Battery (x : pbBattery T) : Prop :=
  True.

(** message SensorType *)
Definition int64_Sensor (x : pbSensor T) : Prop :=
  if_set int64_Curve (pse_gen x).
Definition utf8_Sensor (x : pbSensor T) : Prop :=
  is_utf8 (pse_id x) /\ is_utf8 (pse_name x) /\ if_set utf8_Curve (pse_gen x).

(** message Sensors *)
Definition int64_Sensors (x : pbSensors T) : Prop :=
  Forall int64_Sensor (pss_sensors x).
Definition utf8_Sensors (x : pbSensors T) : Prop :=
  Forall utf8_Sensor (pss_sensors x).

(** message Navigator.Route.Track.Segment *)
Definition int64_Segment (x : pbSegment T) : Prop :=
  if_set int64_PointLatLon (psg_point_a x) /\ if_set int64_PointLatLon (psg_point_b x) /\ is_int64 (psg_index x) /\ is_int64 (psg_rel x).
Definition utf8_Segment (x : pbSegment T) : Prop :=
  if_set utf8_PointLatLon (psg_point_a x) /\ if_set utf8_PointLatLon (psg_point_b x).

(** message Navigator.Route.Track *)
Definition int64_Track (x : pbTrack T) : Prop :=
  Forall int64_Segment (ptr_segments x) /\ is_int64 (ptr_version x).
Definition utf8_Track (x : pbTrack T) : Prop :=
  is_utf8 (ptr_id x) /\ Forall utf8_Segment (ptr_segments x) /\ is_utf8 (ptr_color x) /\ is_utf8 (ptr_name x).

(** message Navigator.Route *)
Definition int64_Route (x : pbRoute T) : Prop :=
  Forall int64_Track (pro_tracks x) /\ is_int64 (pro_version x).
Definition utf8_Route (x : pbRoute T) : Prop :=
  is_utf8 (pro_id x) /\ is_utf8 (pro_color x) /\ Forall utf8_Track (pro_tracks x) /\ is_utf8 (pro_name x).

(** message Navigator.Routes *)
Definition int64_Routes (x : pbRoutes T) : Prop :=
  Forall int64_Route (prs_routes x).
Definition utf8_Routes (x : pbRoutes T) : Prop :=
  Forall utf8_Route (prs_routes x).

(** message Navigator *)
Definition int64_Navigator (x : pbNavigator T) : Prop :=
  Forall int64_Route (pna_routes x) /\ is_int64 (pna_route_index x) /\ is_int64 (pna_track_index x) /\ is_int64 (pna_segment_index x) /\ is_int64 (pna_offline_index x) /\ if_set int64_PointLatLon (pna_point x) /\ if_set int64_Sensor (pna_elevation x) /\ is_int64 (pna_offline_min x) /\ is_int64 (pna_offline_max x) /\ is_int64 (pna_version x).
Definition utf8_Navigator (x : pbNavigator T) : Prop :=
  Forall utf8_Route (pna_routes x) /\ if_set utf8_PointLatLon (pna_point x) /\ if_set utf8_Sensor (pna_elevation x).

(** message Snapshot *)
Definition int64_Snapshot (x : pbSnapshot T) : Prop :=
  is_int64 (psn_status x) /\ if_set int64_Navigator (psn_navigator x) /\ if_set int64_Common (psn_speed x) /\ if_set int64_Battery (psn_battery x) /\ Forall int64_Sensor (psn_sensors x).
Definition utf8_Snapshot (x : pbSnapshot T) : Prop :=
  is_utf8 (psn_id x) /\ is_utf8 (psn_user_id x) /\ is_utf8 (psn_model x) /\ is_utf8 (psn_descr x) /\ is_utf8 (psn_color x) /\ if_set utf8_Navigator (psn_navigator x) /\ if_set utf8_Common (psn_speed x) /\ if_set utf8_Battery (psn_battery x) /\ Forall utf8_Sensor (psn_sensors x).

(** message Device.Battery *)
Definition int64_DBattery (x : pbDBattery T) : Prop :=
  is_int64 (pdb_charge_time x).
Definition utf8_DBattery (x : pbDBattery T) : Prop :=
  True.

(** message Device.Routes.Route.Track *)
Definition int64_DTrack (x : pbDTrack T) : Prop :=
  is_int64 (pdt_num_segments x) /\ is_int64 (pdt_props_count x).
Definition utf8_DTrack (x : pbDTrack T) : Prop :=
  is_utf8 (pdt_track_id x) /\ is_utf8 (pdt_color x).

(** message Device.Routes.Route *)
Definition int64_DRoute (x : pbDRoute T) : Prop :=
  Forall int64_DTrack (pdr_tracks x) /\ is_int64 (pdr_props_count x).
Definition utf8_DRoute (x : pbDRoute T) : Prop :=
  is_utf8 (pdr_route_id x) /\ Forall utf8_DTrack (pdr_tracks x) /\ is_utf8 (pdr_color x).

(** message Device.Routes *)
Definition int64_DRoutes (x : pbDRoutes T) : Prop :=
  Forall int64_DRoute (pds_routes x).
Definition utf8_DRoutes (x : pbDRoutes T) : Prop :=
  Forall utf8_DRoute (pds_routes x).

(** message Device.Sensor *)
Definition int64_DSensor (x : pbDSensor T) : Prop :=
  True.
Definition utf8_DSensor (x : pbDSensor T) : Prop :=
  is_utf8 (pdn_id x) /\ is_utf8 (pdn_name x).

(** message Device.Navigator *)
Definition int64_DNavigator (x : pbDNavigator) : Prop :=
  is_int64 (pdv_current_route_index x) /\ is_int64 (pdv_current_track_index x) /\ is_int64 (pdv_current_segment_index x).
Definition utf8_DNavigator (x : pbDNavigator) : Prop :=
  is_utf8 (pdv_current_route_id x) /\ is_utf8 (pdv_current_track_id x).

(** message Device.Distance *)
Definition int64_DDistance (x : pbDDistance T) : Prop :=
  True.
Definition utf8_DDistance (x : pbDDistance T) : Prop :=
  True.

(** message Device.Location.DMS *)
Definition int64_DMS (x : pbDMS T) : Prop :=
  is_int64 (dms_degrees x) /\ is_int64 (dms_minutes x).
Definition utf8_DMS (x : pbDMS T) : Prop :=
  is_utf8 (dms_direction x).

(** message Device.Location.UTM *)
Definition int64_UTM (x : pbUTM T) : Prop :=
  is_int64 (utm_long_zone x) /\ is_int64 (utm_srid x).
Definition utf8_UTM (x : pbUTM T) : Prop :=
  is_utf8 (utm_lat_zone x) /\ is_utf8 (utm_hemisphere x).

(** message Device.Location *)
Definition int64_DLocation (x : pbDLocation T) : Prop :=
  if_set int64_DMS (pdl_lat_dms x) /\ if_set int64_DMS (pdl_lon_dms x) /\ if_set int64_UTM (pdl_utm x).
Definition utf8_DLocation (x : pbDLocation T) : Prop :=
  if_set utf8_DMS (pdl_lat_dms x) /\ if_set utf8_DMS (pdl_lon_dms x) /\ if_set utf8_UTM (pdl_utm x).

(** message Device.Unit *)
Definition int64_DUnit (x : pbDUnit) : Prop :=
  True.
Definition utf8_DUnit (x : pbDUnit) : Prop :=
  is_utf8 (pdu_distance x) /\ is_utf8 (pdu_speed x) /\ is_utf8 (pdu_time x) /\ is_utf8 (pdu_elevation x).

(** message Device *)
Definition int64_Device (x : pbDevice T) : Prop :=
  if_set int64_DDistance (pde_distance x) /\ if_set int64_DBattery (pde_battery x) /\ if_set int64_DRoutes (pde_routes x) /\ if_set int64_DLocation (pde_location x) /\ if_set int64_DNavigator (pde_navigator x) /\ Forall int64_DSensor (pde_sensors x) /\ is_int64 (pde_offline_duration x) /\ if_set int64_DUnit (pde_units x).
Definition utf8_Device (x : pbDevice T) : Prop :=
  is_utf8 (pde_id x) /\ is_utf8 (pde_user_id x) /\ is_utf8 (pde_model x) /\ if_set utf8_DDistance (pde_distance x) /\ if_set utf8_DBattery (pde_battery x) /\ if_set utf8_DRoutes (pde_routes x) /\ if_set utf8_DLocation (pde_location x) /\ if_set utf8_DNavigator (pde_navigator x) /\ Forall utf8_DSensor (pde_sensors x) /\ is_utf8 (pde_description x) /\ is_utf8 (pde_color x) /\ if_set utf8_DUnit (pde_units x).

(** message Packet *)
Definition int64_Packet (x : pbPacket T) : Prop :=
  Forall int64_Device (ppk_devices x) /\ is_int64 (ppk_timestamp x).
Definition utf8_Packet (x : pbPacket T) : Prop :=
  Forall utf8_Device (ppk_devices x).

End WireMsgSpec.
