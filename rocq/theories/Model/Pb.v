(** The protobuf messages (proto/snapshot.proto, proto/gpsgen.proto) as plain records.

    A singular message field is a Go pointer, hence an [option]; elements of a repeated message
    field are assumed non-nil (protobuf never decodes a nil element and the library only stores
    non-nil ones; the only exception, nil device slots of a packet, is modelled separately in
    Generator.v). [double] fields have the float type [T], [bytes] and [string] fields are byte
    strings (a nil and an empty byte slice are the same to the library: it only tests len). *)
From Verif.Model Require Import Base.

Section Pb.
Variable T : Type.

(** ** proto/snapshot.proto *)

(** proto/snapshot.proto 10-13: message PointLatLon *)
Record pbPointLatLon := mkPbPLL { pll_lon : T; pll_lat : T }.
(** proto/snapshot.proto 18-21: message Curve.Point *)
Record pbCurvePoint := mkPbCP { pcp_x : T; pcp_y : T }.
(** proto/snapshot.proto 24-27: message Curve.ControlPoint *)
Record pbControlPoint := mkPbCtrl { pct_vp : option pbCurvePoint; pct_cp : option pbCurvePoint }.
(** proto/snapshot.proto 16-33: message Curve *)
Record pbCurve := mkPbCurve {
  pcv_points : list pbControlPoint; pcv_mode : Z; pcv_min : T; pcv_max : T }.
(** proto/snapshot.proto 36-41: message CommonType *)
Record pbCommon := mkPbCommon { pco_min : T; pco_max : T; pco_val : T; pco_gen : option pbCurve }.
(** proto/snapshot.proto 44-49: message BatteryType *)
Record pbBattery := mkPbBattery { pba_min : T; pba_max : T; pba_charge_time : Z; pba_val : T }.
(** proto/snapshot.proto 52-60: message SensorType *)
Record pbSensor := mkPbSensor {
  pse_id : string; pse_min : T; pse_max : T; pse_val_x : T; pse_val_y : T;
  pse_name : string; pse_gen : option pbCurve }.
(** proto/snapshot.proto 62-64: message Sensors *)
Record pbSensors := mkPbSensors { pss_sensors : list pbSensor }.
(** proto/snapshot.proto 70-77: message Navigator.Route.Track.Segment *)
Record pbSegment := mkPbSegment {
  psg_point_a : option pbPointLatLon; psg_point_b : option pbPointLatLon;
  psg_distance : T; psg_bearing : T; psg_index : Z; psg_rel : Z }.
(** proto/snapshot.proto 69-87: message Navigator.Route.Track *)
Record pbTrack := mkPbTrack {
  ptr_id : string; ptr_segments : list pbSegment; ptr_color : string; ptr_props : string;
  ptr_distance : T; ptr_is_closed : bool; ptr_name : string; ptr_version : Z }.
(** proto/snapshot.proto 68-96: message Navigator.Route *)
Record pbRoute := mkPbRoute {
  pro_id : string; pro_distance : T; pro_color : string; pro_tracks : list pbTrack;
  pro_props : string; pro_name : string; pro_version : Z }.
(** proto/snapshot.proto 98-100: message Navigator.Routes *)
Record pbRoutes := mkPbRoutes { prs_routes : list pbRoute }.
(** proto/snapshot.proto 67-118: message Navigator *)
Record pbNavigator := mkPbNavigator {
  pna_routes : list pbRoute; pna_route_index : Z; pna_track_index : Z; pna_segment_index : Z;
  pna_current_segment_distance : T; pna_current_route_distance : T;
  pna_current_track_distance : T; pna_current_distance : T; pna_offline_index : Z;
  pna_point : option pbPointLatLon; pna_elevation : option pbSensor;
  pna_offline_min : Z; pna_offline_max : Z; pna_distance : T; pna_skip_offline : bool;
  pna_version : Z }.
(** proto/snapshot.proto 8-132: message Snapshot *)
Record pbSnapshot := mkPbSnapshot {
  psn_id : string; psn_user_id : string; psn_tick : T; psn_duration : T; psn_model : string;
  psn_descr : string; psn_status : Z; psn_color : string; psn_navigator : option pbNavigator;
  psn_speed : option pbCommon; psn_battery : option pbBattery; psn_sensors : list pbSensor }.

(** ** proto/gpsgen.proto *)

(** proto/gpsgen.proto 10-13: message Device.Battery *)
Record pbDBattery := mkPbDBattery { pdb_charge : T; pdb_charge_time : Z }.
(** proto/gpsgen.proto 20-27: message Device.Routes.Route.Track *)
Record pbDTrack := mkPbDTrack {
  pdt_track_id : string; pdt_distance : T; pdt_num_segments : Z; pdt_color : string;
  pdt_props : string; pdt_props_count : Z }.
(** proto/gpsgen.proto 18-35: message Device.Routes.Route *)
Record pbDRoute := mkPbDRoute {
  pdr_route_id : string; pdr_tracks : list pbDTrack; pdr_distance : T; pdr_color : string;
  pdr_props : string; pdr_props_count : Z }.
(** proto/gpsgen.proto 16-37: message Device.Routes *)
Record pbDRoutes := mkPbDRoutes { pds_routes : list pbDRoute }.
(** proto/gpsgen.proto 40-45: message Device.Sensor *)
Record pbDSensor := mkPbDSensor {
  pdn_id : string; pdn_name : string; pdn_val_x : T; pdn_val_y : T }.
(** proto/gpsgen.proto 48-54: message Device.Navigator *)
Record pbDNavigator := mkPbDNavigator {
  pdv_current_route_index : Z; pdv_current_track_index : Z; pdv_current_segment_index : Z;
  pdv_current_route_id : string; pdv_current_track_id : string }.
(** proto/gpsgen.proto 57-66: message Device.Distance *)
Record pbDDistance := mkPbDDistance {
  pdd_distance : T; pdd_current_distance : T; pdd_route_distance : T;
  pdd_current_route_distance : T; pdd_track_distance : T; pdd_current_track_distance : T;
  pdd_segment_distance : T; pdd_current_segment_distance : T }.
(** proto/gpsgen.proto 71-76: message Device.Location.DMS *)
Record pbDMS := mkPbDMS {
  dms_degrees : Z; dms_minutes : Z; dms_seconds : T; dms_direction : string }.
(** proto/gpsgen.proto 79-87: message Device.Location.UTM *)
Record pbUTM := mkPbUTM {
  utm_central_meridian : T; utm_easting : T; utm_northing : T; utm_long_zone : Z;
  utm_lat_zone : string; utm_hemisphere : string; utm_srid : Z }.
(** proto/gpsgen.proto 69-96: message Device.Location *)
Record pbDLocation := mkPbDLocation {
  pdl_lat : T; pdl_lon : T; pdl_elevation : T; pdl_bearing : T;
  pdl_lat_dms : option pbDMS; pdl_lon_dms : option pbDMS; pdl_utm : option pbUTM }.
(** proto/gpsgen.proto 98-103: message Device.Unit *)
Record pbDUnit := mkPbDUnit {
  pdu_distance : string; pdu_speed : string; pdu_time : string; pdu_elevation : string }.
(** proto/gpsgen.proto 8-124: message Device *)
Record pbDevice := mkPbDevice {
  pde_id : string; pde_user_id : string; pde_tick : T; pde_duration : T; pde_model : string;
  pde_speed : T; pde_distance : option pbDDistance; pde_battery : option pbDBattery;
  pde_routes : option pbDRoutes; pde_location : option pbDLocation;
  pde_navigator : option pbDNavigator; pde_sensors : list pbDSensor; pde_description : string;
  pde_is_offline : bool; pde_offline_duration : Z; pde_color : string; pde_time_estimate : T;
  pde_units : option pbDUnit }.
(** proto/gpsgen.proto 127-130: message Packet; the devices of a decoded packet *)
Record pbPacket := mkPbPacket { ppk_devices : list pbDevice; ppk_timestamp : Z }.

End Pb.

Arguments mkPbPLL {T}. Arguments pll_lon {T}. Arguments pll_lat {T}.
Arguments mkPbCP {T}. Arguments pcp_x {T}. Arguments pcp_y {T}.
Arguments mkPbCtrl {T}. Arguments pct_vp {T}. Arguments pct_cp {T}.
Arguments mkPbCurve {T}. Arguments pcv_points {T}. Arguments pcv_mode {T}.
Arguments pcv_min {T}. Arguments pcv_max {T}.
Arguments mkPbCommon {T}. Arguments pco_min {T}. Arguments pco_max {T}.
Arguments pco_val {T}. Arguments pco_gen {T}.
Arguments mkPbBattery {T}. Arguments pba_min {T}. Arguments pba_max {T}.
Arguments pba_charge_time {T}. Arguments pba_val {T}.
Arguments mkPbSensor {T}. Arguments pse_id {T}. Arguments pse_min {T}. Arguments pse_max {T}.
Arguments pse_val_x {T}. Arguments pse_val_y {T}. Arguments pse_name {T}. Arguments pse_gen {T}.
Arguments mkPbSensors {T}. Arguments pss_sensors {T}.
Arguments mkPbSegment {T}. Arguments psg_point_a {T}. Arguments psg_point_b {T}.
Arguments psg_distance {T}. Arguments psg_bearing {T}. Arguments psg_index {T}.
Arguments psg_rel {T}.
Arguments mkPbTrack {T}. Arguments ptr_id {T}. Arguments ptr_segments {T}.
Arguments ptr_color {T}. Arguments ptr_props {T}. Arguments ptr_distance {T}.
Arguments ptr_is_closed {T}. Arguments ptr_name {T}. Arguments ptr_version {T}.
Arguments mkPbRoute {T}. Arguments pro_id {T}. Arguments pro_distance {T}.
Arguments pro_color {T}. Arguments pro_tracks {T}. Arguments pro_props {T}.
Arguments pro_name {T}. Arguments pro_version {T}.
Arguments mkPbRoutes {T}. Arguments prs_routes {T}.
Arguments mkPbNavigator {T}. Arguments pna_routes {T}. Arguments pna_route_index {T}.
Arguments pna_track_index {T}. Arguments pna_segment_index {T}.
Arguments pna_current_segment_distance {T}. Arguments pna_current_route_distance {T}.
Arguments pna_current_track_distance {T}. Arguments pna_current_distance {T}.
Arguments pna_offline_index {T}. Arguments pna_point {T}. Arguments pna_elevation {T}.
Arguments pna_offline_min {T}. Arguments pna_offline_max {T}. Arguments pna_distance {T}.
Arguments pna_skip_offline {T}. Arguments pna_version {T}.
Arguments mkPbSnapshot {T}. Arguments psn_id {T}. Arguments psn_user_id {T}.
Arguments psn_tick {T}. Arguments psn_duration {T}. Arguments psn_model {T}.
Arguments psn_descr {T}. Arguments psn_status {T}. Arguments psn_color {T}.
Arguments psn_navigator {T}. Arguments psn_speed {T}. Arguments psn_battery {T}.
Arguments psn_sensors {T}.
Arguments mkPbDBattery {T}. Arguments pdb_charge {T}. Arguments pdb_charge_time {T}.
Arguments mkPbDTrack {T}. Arguments pdt_track_id {T}. Arguments pdt_distance {T}.
Arguments pdt_num_segments {T}. Arguments pdt_color {T}. Arguments pdt_props {T}.
Arguments pdt_props_count {T}.
Arguments mkPbDRoute {T}. Arguments pdr_route_id {T}. Arguments pdr_tracks {T}.
Arguments pdr_distance {T}. Arguments pdr_color {T}. Arguments pdr_props {T}.
Arguments pdr_props_count {T}.
Arguments mkPbDRoutes {T}. Arguments pds_routes {T}.
Arguments mkPbDSensor {T}. Arguments pdn_id {T}. Arguments pdn_name {T}.
Arguments pdn_val_x {T}. Arguments pdn_val_y {T}.
Arguments mkPbDDistance {T}. Arguments pdd_distance {T}. Arguments pdd_current_distance {T}.
Arguments pdd_route_distance {T}. Arguments pdd_current_route_distance {T}.
Arguments pdd_track_distance {T}. Arguments pdd_current_track_distance {T}.
Arguments pdd_segment_distance {T}. Arguments pdd_current_segment_distance {T}.
Arguments mkPbDMS {T}. Arguments dms_degrees {T}. Arguments dms_minutes {T}.
Arguments dms_seconds {T}. Arguments dms_direction {T}.
Arguments mkPbUTM {T}. Arguments utm_central_meridian {T}. Arguments utm_easting {T}.
Arguments utm_northing {T}. Arguments utm_long_zone {T}. Arguments utm_lat_zone {T}.
Arguments utm_hemisphere {T}. Arguments utm_srid {T}.
Arguments mkPbDLocation {T}. Arguments pdl_lat {T}. Arguments pdl_lon {T}.
Arguments pdl_elevation {T}. Arguments pdl_bearing {T}. Arguments pdl_lat_dms {T}.
Arguments pdl_lon_dms {T}. Arguments pdl_utm {T}.
Arguments mkPbDevice {T}. Arguments pde_id {T}. Arguments pde_user_id {T}.
Arguments pde_tick {T}. Arguments pde_duration {T}. Arguments pde_model {T}.
Arguments pde_speed {T}. Arguments pde_distance {T}. Arguments pde_battery {T}.
Arguments pde_routes {T}. Arguments pde_location {T}. Arguments pde_navigator {T}.
Arguments pde_sensors {T}. Arguments pde_description {T}. Arguments pde_is_offline {T}.
Arguments pde_offline_duration {T}. Arguments pde_color {T}. Arguments pde_time_estimate {T}.
Arguments pde_units {T}.
Arguments mkPbPacket {T}. Arguments ppk_devices {T}. Arguments ppk_timestamp {T}.
