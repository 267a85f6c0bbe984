{
 "claims": [
  {
   "property": "C01",
   "status": "proved",
   "theorems": [
    "C01_distance_is_a_metric",
    "C01_distance_is_the_angle",
    "C01_same_place_coordinates"
   ],
   "note": "real-number reading"
  },
  {
   "property": "C02",
   "status": "proved",
   "theorems": [
    "C02_destination_distance",
    "C02_destination_bearing",
    "C02_destination_is_on_the_great_circle"
   ],
   "note": "real-number reading"
  },
  {
   "property": "C03",
   "status": "proved",
   "theorems": [
    "C03_normalised",
    "C03_far_west"
   ],
   "note": "real-number reading"
  },
  {
   "property": "C04",
   "status": "proved",
   "theorems": [
    "C04_walking_a_segment"
   ],
   "note": "real-number reading"
  },
  {
   "property": "C05",
   "status": "proved",
   "theorems": [
    "C05_haversine_inverse"
   ],
   "note": "real-number reading"
  },
  {
   "property": "C06",
   "status": "proved",
   "theorems": [
    "C06_curve_range"
   ],
   "note": "real-number reading"
  },
  {
   "property": "C07",
   "status": "proved",
   "theorems": [
    "C07_pinned_ends"
   ],
   "note": "real-number reading"
  },
  {
   "property": "C08",
   "status": "proved",
   "theorems": [
    "C08_point_pure"
   ],
   "note": "any arithmetic"
  },
  {
   "property": "C09",
   "status": "partial",
   "theorems": [
    "C09_bound_partial",
    "C09_sensor_partial",
    "C09_speed_partial",
    "C09_refuted"
   ],
   "note": "false: witnesses below the minimum and above the maximum in binary64; the excess is at most 2^-40 of the larger limit for up to 512 control points, and at most 1e-9 for speeds"
  },
  {
   "property": "C10",
   "status": "proved",
   "theorems": [
    "C10_new_speed_fails",
    "C10_speed_range"
   ],
   "note": "real-number reading"
  },
  {
   "property": "C11",
   "status": "proved",
   "theorems": [
    "C11_battery_law",
    "C11_zero_charge_time_refuted"
   ],
   "note": "real-number reading; charge time zero gives NaN"
  },
  {
   "property": "C12",
   "status": "partial",
   "theorems": [
    "C12_at_most_100_partial",
    "C12_refuted"
   ],
   "note": "false: the configured maximum is never used"
  },
  {
   "property": "C13",
   "status": "proved",
   "theorems": [
    "C13_offline_interval"
   ],
   "note": "any arithmetic"
  },
  {
   "property": "C14",
   "status": "proved",
   "theorems": [
    "C14_track_is_polyline",
    "C14_segments_linked"
   ],
   "note": "any arithmetic"
  },
  {
   "property": "C15",
   "status": "partial",
   "theorems": [
    "C15_closed_is_reported_partial",
    "C15_characterisation_partial",
    "C15_refuted"
   ],
   "note": "false as stated: IsClosed compares only longitudes; what it computes is characterised exactly"
  },
  {
   "property": "C16",
   "status": "proved",
   "theorems": [
    "C16_route_distance"
   ],
   "note": "any arithmetic"
  },
  {
   "property": "C17",
   "status": "proved",
   "theorems": [
    "C17_add_route",
    "C17_ids_distinct"
   ],
   "note": "any arithmetic"
  },
  {
   "property": "C18",
   "status": "proved",
   "theorems": [
    "C18_find_and_remove_route"
   ],
   "note": "any arithmetic"
  },
  {
   "property": "C19",
   "status": "partial",
   "theorems": [
    "C19_total_distance_partial",
    "C19_reset_repairs_partial",
    "C19_exact_lengths_partial",
    "C19_refuted"
   ],
   "note": "false for RemoveTrack and for AddTrack/RemoveTrack through a route handle"
  },
  {
   "property": "C20",
   "status": "partial",
   "theorems": [
    "C20_navigation_in_range_partial",
    "C20_refuted"
   ],
   "note": "false for DestinationTo with three or more routes; proved for all other histories, any arithmetic"
  },
  {
   "property": "C21",
   "status": "partial",
   "theorems": [
    "C21_jump_partial",
    "C21_right_indices_partial",
    "C21_below_one",
    "C21_beyond_total",
    "C21_at_total",
    "C21_refuted"
   ],
   "note": "counters and location are right for every route set; the position indices only for two routes of two tracks, false beyond"
  },
  {
   "property": "C22",
   "status": "proved",
   "theorems": [
    "C22_next_location_terminates",
    "C22_next_location_returns"
   ],
   "note": "any arithmetic with 0 == 0"
  },
  {
   "property": "C23",
   "status": "proved",
   "theorems": [
    "C23_successful_step"
   ],
   "note": "any arithmetic with 0 == 0"
  },
  {
   "property": "C24",
   "status": "partial",
   "theorems": [
    "C24_segment_progress_partial",
    "C24_refuted"
   ],
   "note": "real-number reading; false after a DestinationTo on a route of four tracks, proved for all histories without wrong jumps"
  },
  {
   "property": "C25",
   "status": "proved",
   "theorems": [
    "C25_progress",
    "C25_progress_asked"
   ],
   "note": "real-number reading"
  },
  {
   "property": "C26",
   "status": "proved",
   "theorems": [
    "C26_traversal_order"
   ],
   "note": "any arithmetic with 0 == 0"
  },
  {
   "property": "C27",
   "status": "proved",
   "theorems": [
    "C27_completes",
    "C27_offline_bound"
   ],
   "note": "real-number reading; explicit bound"
  },
  {
   "property": "C28",
   "status": "partial",
   "theorems": [
    "C28_visits_every_segment_partial",
    "C28_refuted",
    "C28_binary64_partial"
   ],
   "note": "real-number reading and binary64; false for tracks with an empty segment, proved for all others"
  },
  {
   "property": "C29",
   "status": "proved",
   "theorems": [
    "C29_offline_countdown",
    "C29_to_offline"
   ],
   "note": "any arithmetic"
  },
  {
   "property": "C30",
   "status": "proved",
   "theorems": [
    "C30_moves_all_or_nothing",
    "C30_other_moves"
   ],
   "note": "any arithmetic"
  },
  {
   "property": "C31",
   "status": "proved",
   "theorems": [
    "C31_next_prev_route"
   ],
   "note": "any arithmetic"
  },
  {
   "property": "C32",
   "status": "partial",
   "theorems": [
    "C32_completion_reported_partial",
    "C32_refuted",
    "C32_binary64_partial"
   ],
   "note": "real-number reading and binary64; false for a first step of exactly ten centimetres, proved for longer steps from a rewound navigator"
  },
  {
   "property": "C33",
   "status": "proved",
   "theorems": [
    "C33_version_grows",
    "C33_equal_versions"
   ],
   "note": "any arithmetic"
  },
  {
   "property": "C34",
   "status": "proved",
   "theorems": [
    "C34_options_validated"
   ],
   "note": "any arithmetic"
  },
  {
   "property": "C42",
   "status": "proved",
   "theorems": [
    "C42_no_routes_no_change"
   ],
   "note": "any arithmetic"
  },
  {
   "property": "C43",
   "status": "proved",
   "theorems": [
    "C43_step",
    "C43_elapsed_time"
   ],
   "note": "any arithmetic"
  },
  {
   "property": "C44",
   "status": "partial",
   "theorems": [
    "C44_step_published",
    "C44_update_published_partial",
    "C44_refuted"
   ],
   "note": "proved in full after a successful step; Update does not refresh the speed and, without a current route, keeps the former IDs"
  },
  {
   "property": "C45",
   "status": "proved",
   "theorems": [
    "C45_add_sensor",
    "C45_remove_sensor",
    "C45_lookup",
    "C45_ids_distinct"
   ],
   "note": "any arithmetic"
  },
  {
   "property": "C46",
   "status": "proved",
   "theorems": [
    "C46_recharge",
    "C46_never_low",
    "C46_charge_above_minimum"
   ],
   "note": "any arithmetic; the charge bound over the reals"
  },
  {
   "property": "C47",
   "status": "proved",
   "theorems": [
    "C47_speed_in_range",
    "C47_values_in_range",
    "C47_no_length_refuted"
   ],
   "note": "real-number reading; routes of length zero (outside the claim) give NaN"
  },
  {
   "property": "C58",
   "status": "partial",
   "theorems": [
    "C58_lengths",
    "C58_all_or_nothing",
    "C58_models_legal_partial",
    "C58_refuted"
   ],
   "note": "false for devices restored from a snapshot"
  },
  {
   "property": "C61",
   "status": "partial",
   "theorems": [
    "C61_refuted"
   ],
   "note": "false: NaN limits are accepted everywhere; nothing of the claim is left to prove"
  },
  {
   "property": "C62",
   "status": "proved",
   "theorems": [
    "C62_navigator_trace"
   ],
   "note": "any arithmetic"
  },
  {
   "property": "C63",
   "status": "partial",
   "theorems": [
    "C63_no_panic_partial",
    "C63_refuted"
   ],
   "note": "false for DestinationTo with three routes; proved for all other histories, any arithmetic with 0 == 0"
  },
  {
   "property": "C64",
   "status": "proved",
   "theorems": [
    "C64_routes_published"
   ],
   "note": "any arithmetic"
  },
  {
   "property": "C37",
   "status": "proved",
   "theorems": [
    "C37_snapshot",
    "C37_routes",
    "C37_sensors",
    "C37_float64_bits",
    "C37_packet",
    "C37_not_utf8",
    "C37_unknown_fields"
   ],
   "note": "encodings up to 2^63 bytes; group-typed unknown fields are modelled but the insertion theorem is stated for the other wire types"
  },
  {
   "property": "C35",
   "status": "proved",
   "theorems": [
    "C35_types",
    "C35_track",
    "C35_route",
    "C35_navigator"
   ],
   "note": "any arithmetic; properties up to the stated behaviour of encoding/json (json_law); maps JSON cannot encode are lost"
  },
  {
   "property": "C36",
   "status": "partial",
   "theorems": [
    "C36_goes_on_partial",
    "C36_speed_published",
    "C36_owed_refuted",
    "C36_stale_refuted",
    "C36_speed_refuted"
   ],
   "note": "false if seconds are owed for contended calls, if IDs of removed routes are still shown, or for a new device with a constant speed; proved for all other devices and all later calls, any arithmetic"
  },
  {
   "property": "C38",
   "status": "proved",
   "theorems": [
    "C38_routes",
    "C38_sensors",
    "C38_decode_errors"
   ],
   "note": "any arithmetic; encodings up to 2^63 bytes; properties up to json_law"
  },
  {
   "property": "C39",
   "status": "partial",
   "theorems": [
    "C39_decode_partial",
    "C39_refuted"
   ],
   "note": "false: well-formed messages with a missing part make all three decoders panic; proved to be the only case"
  },
  {
   "property": "C56",
   "status": "proved",
   "theorems": [
    "C56_exact",
    "C56_binary64",
    "C56_seconds_refuted"
   ],
   "note": "exact over the reals; at binary64 up to stated rounding (the seconds can be slightly negative)"
  },
  {
   "property": "C57",
   "status": "proved",
   "theorems": [
    "C57_map",
    "C57_merge_order",
    "C57_getters",
    "C57_extensional",
    "C57_length"
   ],
   "note": "value semantics: two handles on one map are not modelled; Set and Merge on a nil map panic in Go and are outside the claim"
  },
  {
   "property": "C48",
   "status": "partial",
   "theorems": [
    "C48_ledger_partial",
    "C48_next_partial",
    "C48_refuted"
   ],
   "note": "false: an increment between the load and the store of a successful call is lost for good; exact ledger proved for every interleaving"
  },
  {
   "property": "C49",
   "status": "proved",
   "theorems": [
    "C49_New",
    "C49_slices"
   ],
   "note": "all settings with a worker and room for a device, which New guarantees"
  },
  {
   "property": "C50",
   "status": "partial",
   "theorems": [
    "C50_reported_partial",
    "C50_all_sizes_partial",
    "C50_lost_devices",
    "C50_refuted"
   ],
   "note": "false with at least PacketSize devices: every PacketSize-th device is dropped; exact contents proved for all sizes; C52_tick links them to the goroutines"
  },
  {
   "property": "C51",
   "status": "proved",
   "theorems": [
    "C51_membership",
    "C51_attach",
    "C51_detach",
    "C51_queries",
    "C51_each_stops",
    "C51_restored_refuted"
   ],
   "note": "histories of Attach, Detach and every other device call; restoring an attached device in place (FromSnapshot) breaks it, see C51_restored_refuted"
  },
  {
   "property": "C52",
   "status": "proved",
   "theorems": [
    "C52_not_torn",
    "C52_flush",
    "C52_tick"
   ],
   "note": "all schedules of the transition system of Model/GenConc.v"
  },
  {
   "property": "C53",
   "status": "proved",
   "theorems": [
    "C53_no_deadlock",
    "C53_tick_finishes"
   ],
   "note": "all schedules; callbacks are assumed to return"
  },
  {
   "property": "C54",
   "status": "partial",
   "theorems": [
    "C54_between_ticks_partial",
    "C54_few_devices_partial",
    "C54_refuted"
   ],
   "note": "false for every generator New makes, with enough devices and Close during a tick; proved between ticks, and at any point for devices sent as one slice"
  },
  {
   "property": "C55",
   "status": "proved",
   "theorems": [
    "C55_at_most_once",
    "C55_follows"
   ],
   "note": "all schedules; callbacks are assumed to return"
  },
  {
   "property": "C59",
   "status": "partial",
   "theorems": [
    "C59_well_formed",
    "C59_closed_partial",
    "C59_on_circle",
    "C59_zero_draws_refuted"
   ],
   "note": "false if all 16 draws of Float64 are 0 (NaN coordinates); otherwise proved, closed at binary64 for sin and cos bounded by 1, the circle over the reals"
  },
  {
   "property": "C60",
   "status": "proved",
   "theorems": [
    "C60_names_and_boxes",
    "C60_lookup",
    "C60_listed",
    "C60_case",
    "C60_errors",
    "C60_inside",
    "C60_anywhere"
   ],
   "note": "binary64, all draws; strings.ToUpper on non-ASCII codes by upper_law"
  },
  {
   "property": "C65",
   "status": "partial",
   "theorems": [
    "C65_on_globe_partial",
    "C65_refuted"
   ],
   "note": "false near the edges of the map: from the south pole every track leaves it; proved for circles inside"
  },
  {
   "property": "C40",
   "status": "partial",
   "theorems": [
    "C40_roundtrip_partial",
    "C40_single",
    "C40_tracks_refuted",
    "C40_color_refuted",
    "C40_errors"
   ],
   "note": "false: names of tracks and the ID, colour and properties of tracks after the first are lost, reserved property names collide; the rest is proved, under geo_law for encoding/json and orb"
  },
  {
   "property": "C66",
   "status": "partial",
   "theorems": [
    "C66_partial",
    "C66_null_refuted",
    "C66_feature_refuted",
    "C66_geometry_refuted",
    "C66_restored_refuted"
   ],
   "note": "false: null, missing features or geometries, and restored routes without a track ID or with short lines panic; proved for the others"
  },
  {
   "property": "C41",
   "status": "partial",
   "theorems": [
    "C41_roundtrip_partial",
    "C41_exact",
    "C41_id_refuted",
    "C41_track_props_refuted"
   ],
   "note": "false: a route ID that looks like a number makes the document unreadable, properties of tracks and names or colours that look like numbers are lost; the rest is proved, under gpx_law for gpxgo, encoding/xml, strconv and fmt"
  },
  {
   "property": "C67",
   "status": "proved",
   "theorems": [
    "C67_no_panic"
   ],
   "note": "all data; ParseBytes of gpxgo is assumed to return"
  },
  {
   "property": "C68",
   "status": "partial",
   "theorems": [
    "C68_geojson",
    "C68_gpx_partial",
    "C68_waypoints_refuted",
    "C68_tracks_refuted",
    "C68_waypoint_refuted"
   ],
   "note": "GeoJSON in full; GPX documents that mix waypoints, routes and tracks lose all but one kind; proved for the others"
  },
  {
   "property": "C69",
   "status": "partial",
   "theorems": [
    "C69_serial_partial",
    "C69_history_partial",
    "C69_panic_partial",
    "C69_no_panic_partial",
    "C69_sensor_at_refuted",
    "C69_snapshot_panic_refuted",
    "C69_snapshot_torn_refuted",
    "C69_snapshot_step_refuted",
    "C69_is_finish_refuted"
   ],
   "note": "false of Snapshot, MarshalBinary, SensorAt and IsFinish, which read or write outside the lock; for Next and all methods that hold the lock throughout it is proved, panics included: the calls panic only where the same calls one at a time would"
  },
  {
   "property": "C70",
   "status": "partial",
   "theorems": [
    "C70_all_return_partial",
    "C70_callback_change_refuted",
    "C70_callback_query_refuted"
   ],
   "note": "false of EachSensor and EachRoute with callbacks that use the device; proved for Next and for all methods that hold the lock throughout"
  },
  {
   "property": "C71",
   "status": "partial",
   "theorems": [
    "C71_answer_partial",
    "C71_completed_refuted",
    "C71_spurious_refuted"
   ],
   "note": "false both ways: Next consumes the mark itself, and any position 0.1 m after the start is taken for it; the exact answer is proved"
  },
  {
   "property": "C72",
   "status": "partial",
   "theorems": [
    "C72_all_return_partial",
    "C72_each_refuted",
    "C72_each_reader_refuted",
    "C72_sensors_refuted"
   ],
   "note": "false of callbacks that use the generator: Each waits for itself or for a waiting writer, EachSensor for an Attach of its device; proved for all calls and for callbacks of Each that use devices; ticks that send one packet"
  },
  {
   "property": "C73",
   "status": "proved",
   "theorems": [
    "C73_history",
    "C73_membership",
    "C73_one_owner"
   ],
   "note": "all schedules, at every moment; a device's Next, SensorAt, IsFinish, Snapshot and FromSnapshot are not among the calls (C69)"
  },
  {
   "property": "C74",
   "status": "partial",
   "theorems": [
    "C74_tick_partial",
    "C74_attach_partial",
    "C74_few_devices_partial",
    "C74_refuted"
   ],
   "note": "false where devices are detached between two packets of a tick: later devices move up and are skipped, for every generator New makes; what the packets are made of is proved for all schedules, and the property for Attach only and for fewer devices than a packet holds"
  },
  {
   "property": "C75",
   "status": "proved",
   "theorems": [
    "C75_packet",
    "C75_marshal_packet",
    "C75_marshal_device",
    "C75_encode_routes",
    "C75_encode_sensors",
    "C75_decode",
    "C75_utf8"
   ],
   "note": "against an independent description of the wire format and of the .proto files; integers in the int64 range; what the decoders do with a document that lacks a message they need is C39"
  },
  {
   "property": "C76",
   "status": "partial",
   "theorems": [
    "C76_no_panic_partial",
    "C76_stuck",
    "C76_refuted"
   ],
   "note": "false as stated: a message whose elevation, sensor or varying speed curve has no control points is accepted, and the first step panics; proved for messages with control points (parts that are missing altogether are C39), DestinationTo with three or more routes excepted as in C63"
  },
  {
   "property": "C77",
   "status": "partial",
   "theorems": [
    "C77_untouched_partial",
    "C77_moves_partial",
    "C77_alone",
    "C77_torn_refuted",
    "C77_unreadable_refuted"
   ],
   "note": "false as stated: packets hold the live state of the device and are encoded without its lock, so a change may show in half, or leave bytes that cannot be read, for every device that can be encoded; proved for all schedules of calls that leave alone what State() returns; one device of the packet is used"
  },
  {
   "property": "C78",
   "status": "partial",
   "theorems": [
    "C78_history",
    "C78_alone_partial",
    "C78_no_panic_partial",
    "C78_remove_track_refuted",
    "C78_sensor_refuted"
   ],
   "note": "false as stated: RemoveTrack of one device takes the track from all devices that hold the route, and a step of one device moves the sensors of the others; proved: any sharing leaves each device with a history of a device of its own (so the other properties hold for it), a device that shares routes only is not affected by the others unless they remove tracks, and no call panics; tracks are not shared between routes"
  },
  {
   "property": "C79",
   "status": "partial",
   "theorems": [
    "C79_accepts",
    "C79_as_asked",
    "C79_presets",
    "C79_options_partial",
    "C79_reuse_refuted",
    "C79_generator",
    "C79_defaults_refuted"
   ],
   "note": "false of two things: NewDevice writes the ID it made up into the options, so that devices made of the same options all have the same ID, and generator options left at zero do not get the documented defaults; the rest is proved, for binary64"
  },
  {
   "property": "C80",
   "status": "partial",
   "theorems": [
    "C80_delivered_partial",
    "C80_error_partial",
    "C80_tick_partial",
    "C80_seen",
    "C80_garbage_refuted",
    "C80_lost_refuted"
   ],
   "note": "false as stated: without OnError, OnPacket gets the broken bytes of every packet that cannot be encoded, and one device with a string that is not UTF-8 hides all devices of its packet; proved for UTF-8 strings, with an exact account of what is seen for any strings; packets below 2^63 bytes"
  },
  {
   "property": "C81",
   "status": "partial",
   "theorems": [
    "C81_segment_partial",
    "C81_completes_partial",
    "C81_tiny_steps_refuted",
    "C81_track_progress_refuted",
    "C81_progress_bound_partial",
    "C81_reported_bound_partial"
   ],
   "note": "the segment in any arithmetic; completion in binary64 for steps of at least 2^-52 of the longest segment; false otherwise: smaller steps are lost to rounding and the journey never ends, and the progress on a track exceeds its length by a rounding error (10 m + 0.6 m in steps of 10, 0.3, 0.3), but never by more than a part in 2^50 per step (and, against the reported distances, per segment, track and route)"
  },
  {
   "property": "C82",
   "status": "partial",
   "theorems": [
    "C82_refresh",
    "C82_step_partial",
    "C82_stale_refuted"
   ],
   "note": "false as stated: writing through Props() raises no version, so a step does not publish what was written; proved: Update and every change of the list of routes publish the properties, they stay published at every successful step as long as none is written, and exactly when the published list is wrong after a property was written"
  },
  {
   "property": "C83",
   "status": "partial",
   "theorems": [
    "C83_handle_partial",
    "C83_separate_partial",
    "C83_panic",
    "C83_reset_refuted",
    "C83_restore_refuted",
    "C83_snapshot_refuted"
   ],
   "note": "false of three calls: Reset through a handle leaves the entries of the route, RestoreRoute shares the map it is given, and RouteFromSnapshot/TrackFromSnapshot leave older handles with the old map; proved without these, for all histories"
  },
  {
   "property": "C84",
   "status": "partial",
   "theorems": [
    "C84_device_partial",
    "C84_sensors_refuted",
    "C84_route_partial",
    "C84_name_refuted",
    "C84_navigator_partial",
    "C84_new_navigator",
    "C84_skip_refuted"
   ],
   "note": "false of leftovers: sensors and the name of the old life stay if the snapshot has none, seconds owed stay, and a navigator in skip-offline mode restored from one that goes offline panics when it is to go offline; proved that nothing else stays and that a failed RouteFromSnapshot changes nothing; the FromSnapshot of curves, speeds, batteries, sensors and tracks assign every field and have no receiver in the model"
  },
  {
   "property": "C85",
   "status": "partial",
   "theorems": [
    "C85_tracks_partial",
    "C85_routes_partial",
    "C85_devices",
    "C85_remove_tracks_refuted",
    "C85_remove_routes_refuted",
    "C85_append_tracks_refuted",
    "C85_append_routes_refuted"
   ],
   "note": "false of callbacks that change the list: removing passes over every second element, adding never ends; proved for all other callbacks; a callback that panics is not considered; a device's EachRoute holds its lock (C70)"
  },
  {
   "property": "C86",
   "status": "partial",
   "theorems": [
    "C86_tick",
    "C86_whole_seconds",
    "C86_keeps_up_partial",
    "C86_never_behind_partial",
    "C86_interval_refuted",
    "C86_late_refuted"
   ],
   "note": "false in two cases: a tick counts as one second at least, so that with intervals below a second simulated time runs ahead, and a generator that is run later than one interval after New counts the time before Run twice; proved for intervals of a second or more (sums over the reals, each tick in binary64); time.Ticker as documented, the saturation of time.Sub is left out"
  },
  {
   "property": "C87",
   "status": "partial",
   "theorems": [
    "C87_tracker_partial",
    "C87_settles_partial",
    "C87_routes_partial",
    "C87_sensors",
    "C87_plain_properties",
    "C87_skip_offline_refuted",
    "C87_unencodable_refuted"
   ],
   "note": "false in two cases: a device in skip-offline mode is saved with the offline range 0..0 and loaded with 0..1, and a property JSON cannot encode leaves no text the first time and an empty map the second; proved for the other devices, and that the bytes settle after one reload in either mode; properties whose JSON text is not read and written the same (integers beyond 2^53) are excluded; encodings below 2^63 bytes"
  },
  {
   "property": "C88",
   "status": "partial",
   "theorems": [
    "C88_until_close",
    "C88_between_ticks_partial",
    "C88_few_devices_partial",
    "C88_settles_partial",
    "C88_refuted",
    "C88_again_refuted"
   ],
   "note": "false for every generator New makes, with any number of devices one flush sends as one slice, even none: a worker can stay blocked for ever on its last send after Run has returned, and Run called again after Close leaves all its workers; proved when Close comes between ticks, and that at most one goroutine stays for such devices whenever Close comes; for any devices the OnNext loop returns and what stays is blocked for ever"
  },
  {
   "property": "C89",
   "status": "partial",
   "theorems": [
    "C89_at_most_once",
    "C89_ends",
    "C89_no_panic_partial",
    "C89_packet_partial",
    "C89_next_partial",
    "C89_error_partial",
    "C89_unchanged",
    "C89_nil_refuted",
    "C89_order_refuted"
   ],
   "note": "false in two cases: a callback set to nil between the test and the call panics, and OnError followed by OnPacket can still send a failed packet to OnPacket; proved otherwise; reads without the lock are taken as sequentially consistent, which Go does not promise"
  },
  {
   "property": "C90",
   "status": "proved",
   "theorems": [
    "C90_few",
    "C90_rests",
    "C90_returned"
   ],
   "note": "for all devices, schedules and moments of Close, and also when Run never returns (C54) or leaves goroutines behind (C88)"
  }
 ]
}