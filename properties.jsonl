{"id": "C01", "title": "Distance is a metric on the sphere", "statement": "geo.Distance is symmetric, non-negative, never more than half the circumference of the sphere, zero exactly when the two coordinates denote the same place, and satisfies the triangle inequality.", "quantifier": "all pairs/triples of latitude/longitude coordinates (real-number reading of the formulas)", "why_tests_cant": "uncountably many coordinate triples; tests sample a handful", "anchors": ["geo/distance.go: Distance, Haversine, DistanceFromHaversine"]}
{"id": "C02", "title": "Destination lands at the requested distance and in the requested direction", "statement": "For a start point and a distance between 0 and half the circumference, geo.Destination returns a point whose geo.Distance from the start is exactly the requested distance; and, off the poles and for a distance strictly inside that range, geo.Bearing from the start to it is the requested bearing modulo 360.", "quantifier": "all start points, all distances in range, all bearings (real-number reading)", "why_tests_cant": "continuous four-dimensional input space", "anchors": ["geo/destination.go: Destination", "geo/bearing.go: Bearing"]}
{"id": "C03", "title": "Bearings and destinations are normalised", "statement": "geo.Bearing always lies in [0,360); geo.Destination always returns a latitude in [-90,90] and, for start longitudes in [-360,360], a longitude in [-180,180]; for start longitudes below -360 degrees (outside any GPS input) the lower bound fails.", "quantifier": "all coordinates, distances and bearings (real-number reading)", "why_tests_cant": "continuous input space, boundary cases have measure zero", "anchors": ["geo/bearing.go: Bearing", "geo/destination.go: Destination"]}
{"id": "C04", "title": "Walking a whole segment ends at its end point", "statement": "For a track segment built from points A and B (distinct, not antipodal, A not a pole), Segment.DestinationTo(0) is A, DestinationTo(Distance()) is B, and for every d in between DestinationTo(d) is at distance d from A and Distance()-d from B, i.e. it lies on the great-circle arc from A to B.", "quantifier": "all pairs of valid coordinates and all intermediate distances (real-number reading)", "why_tests_cant": "continuous input space", "anchors": ["navigator/route_track_segment.go: Segment.DestinationTo, makeSegments", "geo/*.go"]}
{"id": "C05", "title": "Haversine conversions are inverse", "statement": "geo.DistanceFromHaversine and geo.DistanceToHaversine are mutually inverse on [0, half circumference] and [0,1]; geo.NormalizeDistance does not change the haversine of a non-negative distance.", "quantifier": "all distances and haversine values (real-number reading)", "why_tests_cant": "continuous input space", "anchors": ["geo/distance.go: DistanceToHaversine, DistanceFromHaversine, NormalizeDistance"]}
{"id": "C06", "title": "Generated values stay inside the configured range", "statement": "For every curve built by curve.New or reshuffled by Shuffle with min <= max, every Point(t) with t in [0,1] has Y between min and max and X equal to t*(NumControlPoints-1).", "quantifier": "all ranges, all control point counts, all modes, all random draws, all t in [0,1] (real-number reading)", "why_tests_cant": "unbounded number of control points and continuous t and random draws", "anchors": ["curve/curve.go: New, Shuffle, Point"]}
{"id": "C07", "title": "Start/end modes pin the ends of the curve to the minimum", "statement": "With the min-start mode Point(0) has Y = min; with the min-end mode Point(1) has Y = min; in all modes Point(0) and Point(1) are the first and last generated values; still true after any number of Shuffle calls.", "quantifier": "all ranges, counts, modes, random draws and shuffle histories", "why_tests_cant": "quantifies over all random draws and histories", "anchors": ["curve/curve.go: New, Shuffle, Point"]}
{"id": "C08", "title": "Curve evaluation does not depend on earlier evaluations", "statement": "Although Point writes intermediate results into the curve, the value of Point(t) is the same whatever sequence of Point calls was made before, for any floating point arithmetic.", "quantifier": "all curves, all t, all call histories", "why_tests_cant": "all call histories", "anchors": ["curve/curve.go: Point"]}
{"id": "C09", "title": "The range guarantee survives IEEE-754 rounding", "statement": "With float64 arithmetic a curve value never leaves [min,max] for t in [0,1].", "quantifier": "all binary64 ranges, control point counts 4..512, draws and t", "why_tests_cant": "2^64 values per input; the violating inputs are sparse", "anchors": ["curve/curve.go: New, Point", "types/speed.go", "types/sensor.go"]}
{"id": "C10", "title": "Speed objects are only created for sane ranges and report values in range", "statement": "NewSpeed fails exactly when min < 0, max > 1000, amplitude outside 4..512, or min > max > 0; otherwise the resulting Min/Max satisfy 0 <= min <= max <= max(1000,min), and after any Next(t), t in [0,1], Value is between Min and Max; a speed with Min = Max reports that value always.", "quantifier": "all arguments, draws and call histories", "why_tests_cant": "all inputs and histories", "anchors": ["types/speed.go: NewSpeed, Next, Value", "types/validator.go"]}
{"id": "C11", "title": "Battery discharge law", "statement": "For a battery with a non-zero charge time (negative means nine hours), Battery.Value is the linear discharge 100*(1 - elapsed/chargeTime) clamped from below at Min; it never increases between resets, IsLow holds exactly when that clamp is active or reached, and Reset brings it back to 100.", "quantifier": "all mins, positive charge times and tick histories (real-number reading)", "why_tests_cant": "all histories of ticks", "anchors": ["types/battery.go: NewBattery, Value, IsLow, Next, Reset"]}
{"id": "C12", "title": "Battery charge never exceeds the configured maximum", "statement": "For a battery created with a maximum charge level, Value never exceeds that maximum.", "quantifier": "all constructor arguments and histories", "why_tests_cant": "all histories; holds for the default maximum only", "anchors": ["types/battery.go: NewBattery, Value"]}
{"id": "C13", "title": "Offline duration is drawn from the configured interval", "statement": "For any navigator that New accepts, ToOffline sets an offline duration in [min,max] of the (normalised) offline options, strictly below max when min < max; with offline mode skipped it never changes anything.", "quantifier": "all option values and all 2^32 random draws", "why_tests_cant": "all option values times all draws", "anchors": ["types/random.go: NewRandom, Value", "navigator/options.go", "navigator/navigator.go: New, ToOffline"]}
{"id": "C14", "title": "A track is exactly its polyline", "statement": "NewTrack fails exactly on fewer than two points; otherwise the track has one segment per consecutive pair of points, in order, whose end points, bearing and length are those of the pair, Distance is the left-to-right sum of the segment lengths, and reading the points back gives the input points.", "quantifier": "all point lists, any arithmetic", "why_tests_cant": "unbounded list lengths", "anchors": ["navigator/route_track.go: NewTrack, RestoreTrack", "navigator/route_track_segment.go: makeSegments"]}
{"id": "C15", "title": "IsClosed tells whether the polyline is closed", "statement": "IsClosed is true exactly when the track has at least three points and its first and last points coincide.", "quantifier": "all point lists", "why_tests_cant": "all point lists; existing tests miss open polylines whose end points share a longitude", "anchors": ["navigator/route_track.go: isClosed"]}
{"id": "C16", "title": "Route distance is the sum of its tracks", "statement": "After any sequence of AddTrack / RemoveTrack / ChangeName / ChangeColor / TrackByID calls on a new route, Distance is the left-to-right sum of the distances of the tracks it currently holds, and the track list is the one obtained by appending and deleting the first track with the given ID.", "quantifier": "all operation histories, any arithmetic", "why_tests_cant": "all histories", "anchors": ["navigator/route.go: AddTrack, RemoveTrack, updateState"]}
{"id": "C17", "title": "AddRoute appends exactly the new routes", "statement": "AddRoute fails exactly when called without arguments; otherwise it appends, in order, the non-nil routes whose IDs are not yet present (nor added earlier in the same call), keeps existing routes untouched, and rewinds to the start with a recomputed distance exactly when something was appended. Consequently route IDs are pairwise distinct in every reachable navigator.", "quantifier": "all navigator states and argument lists; all histories", "why_tests_cant": "all histories", "anchors": ["navigator/navigator.go: AddRoute, hasRoute"]}
{"id": "C18", "title": "Routes are found and removed by ID", "statement": "For an ID of 1 to 36 bytes, RouteByID returns the first route with that ID or an error (other IDs are never found); RemoveRoute removes exactly that route, keeps the order of the others, rewinds, and reports true; if no route has the ID nothing changes and it reports false.", "quantifier": "all states and IDs", "why_tests_cant": "all states and IDs; IDs longer than 36 bytes are accepted by AddRoute but never found", "anchors": ["navigator/navigator.go: RouteByID, RemoveRoute, MoveToRouteByID"]}
{"id": "C19", "title": "Total distance equals the sum of the route distances", "statement": "In every reachable navigator, Distance() equals the sum of the Distance() of its current routes.", "quantifier": "all histories of AddRoute, RemoveRoute, RemoveTrack, ResetRoutes, Reset, moves and steps", "why_tests_cant": "all histories", "anchors": ["navigator/navigator.go: Distance, calcRouteDistance, RemoveTrack"]}
{"id": "C20", "title": "Navigation never indexes out of range", "statement": "For every history of public navigator calls (any ticks, speeds, indices, IDs, including NaN), no call panics, and whenever routes exist CurrentRoute is one of them.", "quantifier": "all histories of public calls, any arithmetic", "why_tests_cant": "all histories; the violating ones need at least three routes and DestinationTo", "anchors": ["navigator/navigator.go: CurrentRoute, CurrentSegment, NextLocation, MoveToSegment, DestinationTo"]}
{"id": "C21", "title": "DestinationTo jumps to the right place", "statement": "DestinationTo(d) with 1 <= d < Distance() selects the route, track and segment in which the point at distance d along the concatenated path lies, sets all four distance counters accordingly and puts the location d minus the start of that segment metres along it; d beyond the total is treated as the total; d < 1 changes nothing and returns false.", "quantifier": "all route sets with positive lengths and all distances (real-number reading)", "why_tests_cant": "all route structures and continuous d", "anchors": ["navigator/navigator.go: DestinationTo, jump"]}
{"id": "C22", "title": "NextLocation always terminates", "statement": "NextLocation returns after at most as many loop iterations as the current track has segments plus one, for any state, tick and speed, including NaN and infinities.", "quantifier": "all states and inputs, any arithmetic", "why_tests_cant": "non-termination cannot be observed by tests", "anchors": ["navigator/navigator.go: NextLocation"]}
{"id": "C23", "title": "A successful step advances all counters by exactly tick*speed", "statement": "When NextLocation returns true, the total, route and track counters grow by exactly tick*speed, the segment counter grows by tick*speed from its old value (same segment) or from zero (later segment of the same track), route and track stay the same, and the location is the point that many metres along the current segment (one metre on the very first step of a track).", "quantifier": "all states, ticks, speeds, any arithmetic", "why_tests_cant": "all states and inputs", "anchors": ["navigator/navigator.go: NextLocation, updateDist, isStartSegment"]}
{"id": "C24", "title": "Segment progress never exceeds the segment length", "statement": "In every state reachable by adding/removing routes, stepping and moving, CurrentSegmentDistance is between 0 and SegmentDistance (when a segment is current), for non-negative ticks and speeds.", "quantifier": "all histories (real-number reading); the upper bound after a successful step for any arithmetic", "why_tests_cant": "all histories", "anchors": ["navigator/navigator.go: NextLocation, MoveToSegment"]}
{"id": "C25", "title": "Track, route and total progress never exceed the track, route and total length", "statement": "In every state reachable from a rewound navigator by NextLocation steps (with the finish flag consumed when reported), CurrentTrackDistance <= TrackDistance, CurrentRouteDistance <= RouteDistance and CurrentDistance <= Distance.", "quantifier": "all stepping histories (real-number reading)", "why_tests_cant": "all histories", "anchors": ["navigator/navigator.go: NextLocation, IsFinish", "device.go: Next"]}
{"id": "C26", "title": "Routes, tracks and segments are traversed in order", "statement": "Each NextLocation call either leaves the position alone, moves forward inside the current track, moves to the start of the next track, the start of the first track of the next route, or from the last track of the last route back to the very beginning; it never skips a track or route and never moves backwards otherwise.", "quantifier": "all states with valid indices, all inputs, any arithmetic", "why_tests_cant": "all states", "anchors": ["navigator/navigator.go: NextLocation, nextSegment, nextTrack, nextRoute"]}
{"id": "C27", "title": "The device eventually completes its routes", "statement": "If every step covers at least e > 0 metres and all offline periods are finite, a navigator with at least one route reports completion (wraps to the start and IsFinish becomes true) after finitely many NextLocation calls, with an explicit bound.", "quantifier": "all route sets, all step sequences with that lower bound", "why_tests_cant": "liveness over infinite executions", "anchors": ["navigator/navigator.go: NextLocation, IsFinish"]}
{"id": "C28", "title": "Every segment of a track is visited", "statement": "Stepping through a track with steps no longer than its shortest non-empty segment visits every non-empty segment before leaving the track.", "quantifier": "all tracks, all small enough steps", "why_tests_cant": "all tracks; violated by tracks containing repeated points", "anchors": ["navigator/navigator.go: NextLocation, nextSegment"]}
{"id": "C29", "title": "Offline countdown", "statement": "After ToOffline chose d, exactly the next d NextLocation calls return false leaving position, counters and location untouched while OfflineDuration counts down to 0; IsOffline is true exactly while it is positive.", "quantifier": "all states and all d", "why_tests_cant": "unbounded d", "anchors": ["navigator/navigator.go: nextOffline, ToOffline, NextLocation"]}
{"id": "C30", "title": "Moves are all-or-nothing", "statement": "MoveToSegment(r,t,s) succeeds exactly when the target exists and differs from the current position; then the position and location are exactly the target's start, the counters of every level that changed are zero and the offline state is cleared; on failure nothing changes. MoveToTrack/MoveToRoute/ByID variants are the special cases.", "quantifier": "all states and all (possibly negative) indices and IDs", "why_tests_cant": "all states and integers", "anchors": ["navigator/navigator.go: MoveToSegment, MoveToTrack, MoveToRoute, MoveToRouteByID, MoveToTrackByID"]}
{"id": "C31", "title": "Next/previous route", "statement": "NextRoute/PrevRoute move to the start of the adjacent route when it exists and has a track, and do nothing at the ends; PrevRoute after a successful NextRoute returns to the start of the original route if that has a track.", "quantifier": "all states", "why_tests_cant": "all states", "anchors": ["navigator/navigator.go: NextRoute, PrevRoute"]}
{"id": "C32", "title": "Completion is reported exactly once, exactly on completion", "statement": "IsFinish returns true exactly when the last NextLocation call that did not merely wait completed the last route and this has not been reported yet; a second call returns false.", "quantifier": "all histories", "why_tests_cant": "all histories; a sentinel distance value of 0.1 can also be reached by ordinary movement", "anchors": ["navigator/navigator.go: IsFinish, nextRoute", "device.go: Next, IsFinish"]}
{"id": "C33", "title": "Every structural change is visible in the version", "statement": "Each operation that changes the set of routes, a route's tracks, name or colour, or a track's name or colour strictly increases the version triple lexicographically; hence two equal triples along one history mean nothing of this changed in between.", "quantifier": "all histories of mutating operations", "why_tests_cant": "all histories", "anchors": ["navigator/navigator.go: Sum, nextVersion", "navigator/route.go", "navigator/route_track.go", "device.go: Version, isNotValidNS"]}
{"id": "C34", "title": "Navigator options are validated", "statement": "New fails exactly for a negative minimum offline, a maximum offline above 3600, a negative minimum elevation, a maximum elevation above 50000 or an amplitude outside 4..512; otherwise the navigator starts empty, rewound, online.", "quantifier": "all option lists", "why_tests_cant": "all option lists", "anchors": ["navigator/options.go", "navigator/navigator.go: New"]}
{"id": "C35", "title": "Snapshots lose nothing", "statement": "FromSnapshot(Snapshot()) on a fresh navigator, route, track, segment, sensor, speed, battery or curve reproduces every field, except that property values go through JSON (integers become floats, maps JSON cannot encode are lost).", "quantifier": "all reachable objects, any arithmetic", "why_tests_cant": "all object graphs", "anchors": ["navigator/navigator.go: Snapshot, FromSnapshot", "navigator/route.go", "navigator/route_track.go", "types/*.go", "curve/curve.go"]}
{"id": "C36", "title": "A restored device continues exactly like the original", "statement": "Let a device be encoded with EncodeTracker and decoded with DecodeTracker at any moment. Fed the same ticks, operations and random draws, the decoded device returns the same results and exposes the same state as the original for ever after.", "quantifier": "all reachable devices, all crash/restore points, all future operation sequences", "why_tests_cant": "all histories before and after the snapshot point", "anchors": ["device.go: Snapshot, FromSnapshot, Next, Update", "io.go: EncodeTracker, DecodeTracker"]}
{"id": "C37", "title": "Wire encoding round-trips", "statement": "For every Snapshot, Routes, Sensors and Packet message with valid UTF-8 strings and in-range integers, decoding the protobuf encoding gives back the message; encodings are self-delimiting so concatenation of unknown fields is skipped.", "quantifier": "all messages of the schema", "why_tests_cant": "all messages", "anchors": ["proto/snapshot.proto", "proto/gpsgen.proto", "encoding.go: PacketFromBytes", "io.go"]}
{"id": "C38", "title": "EncodeRoutes/DecodeRoutes and EncodeSensors/DecodeSensors round-trip", "statement": "DecodeRoutes(EncodeRoutes(rs)) succeeds and returns routes equal to rs (properties up to JSON normalisation); likewise for sensors; encoding fails exactly on the empty list or unencodable strings, decoding fails exactly on empty or malformed input.", "quantifier": "all route and sensor lists", "why_tests_cant": "all lists", "anchors": ["io.go: EncodeRoutes, DecodeRoutes, EncodeSensors, DecodeSensors"]}
{"id": "C39", "title": "Decoding hostile bytes returns an error instead of crashing", "statement": "DecodeTracker, DecodeRoutes and DecodeSensors never panic on any input bytes.", "quantifier": "all byte strings", "why_tests_cant": "all byte strings", "anchors": ["io.go", "device.go: FromSnapshot", "types/*.go: FromSnapshot"]}
{"id": "C40", "title": "GeoJSON round-trip", "statement": "DecodeGeoJSONRoutes(EncodeGeoJSONRoutes(rs)) returns the routes with at least one track, with the same IDs, colours, names, properties, and for each track the same ID, colour, name, properties and points.", "quantifier": "all route lists", "why_tests_cant": "all route lists", "anchors": ["geojson/feature_collection.go", "geojson/encoding.go"]}
{"id": "C41", "title": "GPX round-trip", "statement": "DecodeGPXRoutes(EncodeGPXRoutes(rs)) returns the routes with at least one track, with the same IDs, colours, names, and for each track the same ID, colour, name, properties and points.", "quantifier": "all route lists", "why_tests_cant": "all route lists", "anchors": ["gpx/encoding.go"]}
{"id": "C42", "title": "Next on a device without routes changes nothing", "statement": "Device.Next returns false and leaves every observable of the device unchanged when the device has no routes.", "quantifier": "all devices without routes, all ticks", "why_tests_cant": "all states", "anchors": ["device.go: Next"]}
{"id": "C43", "title": "Elapsed time is accounted for", "statement": "The reported Duration is the left-to-right sum of the seconds passed to uncontended Next calls (plus one per contended call since) since creation or the last completion, and Tick is the last such amount.", "quantifier": "all call histories, any arithmetic", "why_tests_cant": "all histories", "anchors": ["device.go: Next, incTick, resetTick, Duration"]}
{"id": "C44", "title": "The published state mirrors the device", "statement": "After every Next that returns true, and after Update, the published state message carries exactly the navigator's indices, IDs, distances, location, bearing, elevation and offline status, the battery charge, the speed and the sensors' values, one entry per sensor in order.", "quantifier": "all device states and ticks", "why_tests_cant": "all histories", "anchors": ["device.go: updateState, updateSensors, updateRoutes, State", "navigator/navigator.go: Update"]}
{"id": "C45", "title": "Sensors form an ordered set keyed by ID", "statement": "AddSensor appends exactly the non-nil sensors with unseen IDs; RemoveSensor deletes exactly the one with the given ID; SensorByID/SensorAt/NumSensors/EachSensor agree with that list; sensor IDs stay distinct and the published sensor list always matches.", "quantifier": "all histories", "why_tests_cant": "all histories", "anchors": ["device.go: AddSensor, RemoveSensor, ResetSensors, SensorByID, SensorAt, updateSensors"]}
{"id": "C46", "title": "An empty battery recharges and takes the device offline", "statement": "When a step drains the battery to its minimum, the battery is reset to full in that same step and the device goes offline for a duration in the configured interval (unless offline mode is skipped), so no published charge stays at the minimum.", "quantifier": "all device states and ticks", "why_tests_cant": "all histories", "anchors": ["device.go: Next", "types/battery.go"]}
{"id": "C47", "title": "Speed, elevation and sensor values stay in range for the whole simulation", "statement": "For every device and every history of Next calls with non-negative ticks, the curve parameter is in [0,1] and hence speed, elevation and sensor values are within their configured ranges after the first step.", "quantifier": "all devices with positive total distance, all tick histories, all draws (real-number reading)", "why_tests_cant": "all histories", "anchors": ["device.go: nextT, calcAvgT, Next"]}
{"id": "C48", "title": "Contended ticks are not lost", "statement": "If k Next calls find the device locked, the next successful Next adds exactly k extra seconds.", "quantifier": "all interleavings of callers", "why_tests_cant": "all schedules", "anchors": ["device.go: Next, incTick, resetTick"]}
{"id": "C49", "title": "Worker slices partition the packet", "statement": "For any number of filled entries, workers and packet size, flush hands out slices that are contiguous, non-overlapping and cover exactly the filled entries, each at most once.", "quantifier": "all entry counts, worker counts and packet sizes", "why_tests_cant": "all integers", "anchors": ["generator.go: flush"]}
{"id": "C50", "title": "Every attached device is reported exactly once per tick", "statement": "With no attach/detach during a tick, the packets emitted for that tick contain each attached device exactly once, in attachment order.", "quantifier": "all device counts, packet sizes and worker counts", "why_tests_cant": "all sizes; the violating ones need at least PacketSize (>=1024) devices", "anchors": ["generator.go: run, flush, doWorker"]}
{"id": "C51", "title": "Attach/Detach bookkeeping", "statement": "A device is attached to at most one generator at a time; Attach of a running device fails and changes nothing; Detach removes exactly the first device with that ID and stops it; Lookup/HasTracker/NumDevices/Each agree with the list.", "quantifier": "all histories of Attach/Detach on any number of generators and devices", "why_tests_cant": "all histories", "anchors": ["generator.go: Attach, Detach, Lookup, HasTracker, NumDevices, Each", "device.go: mount, unmount"]}
{"id": "C52", "title": "Packets are never torn", "statement": "In every interleaving of the run loop and the workers, while the generator is not closed no packet entry is overwritten or cleared while a worker still has to serialise it, and each slice is serialised exactly once before the tick ends.", "quantifier": "all worker counts, all schedules", "why_tests_cant": "all schedules", "anchors": ["generator.go: run, flush, doWorker, resetPacket"]}
{"id": "C53", "title": "The running generator never deadlocks", "statement": "In every reachable state of an open generator some goroutine can make progress without waiting for the clock, or the run loop is waiting for the next tick; every started tick finishes.", "quantifier": "all worker counts, device counts and schedules", "why_tests_cant": "all schedules", "anchors": ["generator.go"]}
{"id": "C54", "title": "Close makes Run return", "statement": "After Close, in every schedule, Run returns.", "quantifier": "all closing points and all schedules", "why_tests_cant": "all schedules and crash points; violated only in rare races", "anchors": ["generator.go: Close, Run, run, doWorker, doNext, flush"]}
{"id": "C55", "title": "OnNext notifications", "statement": "The OnNext callback is invoked at most once per completed tick, and after the last completed tick of an open generator at least one invocation follows.", "quantifier": "all schedules", "why_tests_cant": "all schedules", "anchors": ["generator.go: notifyNextTick, doNext"]}
{"id": "C56", "title": "Degrees/minutes/seconds", "statement": "For every latitude/longitude within range the published DMS has degrees = whole part, minutes in 0..59, the correct hemisphere letter, and degrees + minutes/60 + seconds/3600 equal to the absolute coordinate.", "quantifier": "all coordinates (real-number reading for the reconstruction; binary64 for ranges)", "why_tests_cant": "2^64 inputs", "anchors": ["navigator/location.go: setDMS"]}
{"id": "C57", "title": "Properties behave like a map", "statement": "Set/Remove/Merge/Reset and the typed getters behave as a finite map with right-biased union; getters succeed exactly on a present value of the requested type.", "quantifier": "all property maps and keys", "why_tests_cant": "all maps", "anchors": ["properties/properties.go"]}
{"id": "C58", "title": "Names and models are length-checked", "statement": "ParseName accepts exactly byte lengths 3..256, NewModel exactly 3..64; rejected values leave the object unchanged; every device reachable through the API has a model of legal length; random models are always legal.", "quantifier": "all strings and histories", "why_tests_cant": "all strings", "anchors": ["navigator/types.go", "types/model.go", "device.go: SetModel", "device_options.go: applyFor"]}
{"id": "C59", "title": "Random routes are well formed", "statement": "RandomRoute(lon,lat,n,level) never panics and yields a route with n tracks (one if n is negative), all named by their prefix and eight letters or digits; each track is a closed loop of exactly 16 segments whose corners are at (1+4e)/10000 times the level (clamped to 10..600) degrees from the requested centre, for the exponential draw e of that corner, for all random draws.", "quantifier": "all coordinates, counts, levels and draws", "why_tests_cant": "all draws", "anchors": ["route.go: RandomRoute", "random/polygon.go: Polygon", "geo/normalize.go"]}
{"id": "C60", "title": "Country tables", "statement": "Every listed country has a bounding box and vice versa, each box is non-empty and inside the world, lookups are case-insensitive, and LatLonByCountry returns a point inside the country's box for all draws.", "quantifier": "all country codes and draws", "why_tests_cant": "continuous draws", "anchors": ["random/latlon.go"]}
{"id": "C61", "title": "Constructors never accept NaN limits", "statement": "NewSpeed, NewBattery, NewSensor and the elevation option of a navigator reject NaN limits, so that the values they generate are numbers.", "quantifier": "all float64 arguments", "why_tests_cant": "NaN compares false with everything, so range checks silently pass; absence of acceptance is a statement about all inputs", "anchors": ["types/speed.go: NewSpeed", "types/battery.go: NewBattery", "navigator/options.go"]}
{"id": "C62", "title": "A device drives its navigator only by public navigator calls", "statement": "Every method of a device changes its navigator exactly as some sequence of the navigator's own public calls would, the ones its name promises; so every invariant of navigator histories carries over to devices.", "quantifier": "all devices and all histories of device calls", "why_tests_cant": "all histories", "anchors": ["device.go", "navigator/navigator.go"]}
{"id": "C63", "title": "No history of public calls panics a device", "statement": "Starting from NewDevice, no sequence of public calls, including calls on routes, tracks and sensors the device handed out, makes any of them panic or loop.", "quantifier": "all options, draws and call histories, any arithmetic", "why_tests_cant": "all histories; panics hide in rare combinations of positions and route edits", "anchors": ["device.go", "navigator/navigator.go", "types/"]}
{"id": "C64", "title": "The published list of routes is current", "statement": "After every successful step and after Update the published list of routes (IDs, lengths, colours, tracks and their segment counts) is that of the device, whatever was done to routes and tracks before, including through handles.", "quantifier": "all histories", "why_tests_cant": "the list is refreshed only when a version sum changes; that no change escapes the sum is a statement about all histories", "anchors": ["device.go: Next, updateRoutes", "navigator/navigator.go: Sum"]}
{"id": "C65", "title": "Random routes stay on the globe", "statement": "For every centre with a latitude in [-90,90] and a longitude in [-180,180], all points of RandomRoute have latitudes and longitudes in these ranges.", "quantifier": "all centres, counts, levels and draws", "why_tests_cant": "continuous draws; the edge of the map is only reached for some centres", "anchors": ["route.go: RandomRoute", "random/polygon.go: Polygon", "geo/normalize.go"]}
{"id": "C66", "title": "Decoding GeoJSON never panics", "statement": "For all byte strings DecodeGeoJSONRoutes returns routes or an error and does not panic.", "quantifier": "all byte strings", "why_tests_cant": "all documents, including hostile ones", "anchors": ["geojson/encoding.go: Decode, restoreRoute, parseGeometries, parseGeometry"]}
{"id": "C67", "title": "Decoding GPX never panics", "statement": "For all byte strings DecodeGPXRoutes returns routes or an error and does not panic.", "quantifier": "all byte strings", "why_tests_cant": "all documents, including hostile ones", "anchors": ["gpx/encoding.go: Decode, validateRoutes"]}
{"id": "C68", "title": "Files from elsewhere are imported whole", "statement": "A GeoJSON or GPX document not written by this library gives one route per feature, track or route of the document, with one track per line through exactly its points; nothing in it is dropped, and a line of fewer than two points is an error.", "quantifier": "all documents", "why_tests_cant": "all combinations of geometries, nesting and sizes", "anchors": ["geojson/encoding.go: Decode, parseGeometries, parseGeometry, toPoints", "gpx/encoding.go: Decode, makePoints"]}
{"id": "C69", "title": "Concurrent calls on a device behave like some sequential order", "statement": "When several goroutines call methods of the same Device, every call returns what it would have returned, and the device ends up as it would have, if the calls had been made one at a time in some order; no call panics that would not panic alone.", "quantifier": "all devices, all numbers of goroutines, all calls, all interleavings", "why_tests_cant": "interleavings are unbounded; the race detector only sees the schedules that happen", "anchors": ["device.go: Device.mu, Next, Snapshot, SensorAt, IsFinish, and all methods that take the lock"]}
{"id": "C70", "title": "Concurrent calls on a device all return", "statement": "When several goroutines call methods of the same Device, including from the callbacks of EachSensor and EachRoute, all calls return: there is no deadlock and no endless waiting.", "quantifier": "all devices, all numbers of goroutines, all calls and callbacks, all interleavings", "why_tests_cant": "a deadlock needs a particular interleaving", "anchors": ["device.go: Device.mu, Next, EachSensor, EachRoute, and all methods that take the lock"]}
{"id": "C71", "title": "IsFinish tells when the journey is complete", "statement": "Device.IsFinish answers true after the Next that completed the journey, and false while the device is on its way.", "quantifier": "all devices, histories and steps", "why_tests_cant": "all routes, speeds, ticks and histories", "anchors": ["device.go: IsFinish, Next", "navigator/navigator.go: IsFinish, NextLocation"]}
{"id": "C72", "title": "Concurrent calls on generators and devices all return", "statement": "When several goroutines call methods of the same generators and devices, while the generators run and including from the callbacks of Each and EachSensor, all calls return: there is no deadlock and no endless waiting.", "quantifier": "all generators and devices, all numbers of goroutines, all calls and callbacks, all interleavings", "why_tests_cant": "a deadlock needs a particular interleaving of calls that take several locks", "anchors": ["generator.go: Generator.mu, Generator.dmu, Attach, Detach, HasTracker, Lookup, NumDevices, Each, OnError, OnPacket, OnNext, Run", "device.go: Device.mu, mount, unmount, EachSensor"]}
{"id": "C73", "title": "Attaching, detaching and asking are atomic", "statement": "When several goroutines call Attach, Detach, HasTracker, Lookup, NumDevices and Each of generators, and methods that change or query their devices under the device's lock (all but Next, SensorAt, IsFinish, Snapshot and FromSnapshot), every call returns what it would have returned if the calls had been made one at a time in some order, and the generators and devices end up as that order leaves them. So a device is never in two generators, and of several concurrent calls that attach it exactly one succeeds.", "quantifier": "all generators and devices, all numbers of goroutines, all such calls, all interleavings", "why_tests_cant": "interleavings are unbounded; each call takes and releases the locks of several devices in turn", "anchors": ["generator.go: Attach, Detach, HasTracker, Lookup, NumDevices, Each", "device.go: mount, unmount, ID, and all methods that take the lock"]}
{"id": "C74", "title": "Attaching and detaching during a tick", "statement": "While other goroutines call Attach and Detach during a tick, the packets of that tick are those of the devices attached at some moment of it: no device is torn out of, counted twice in or left out of the tick because another one came or went.", "quantifier": "all generators, all schedules, all Attach and Detach calls at any moment of a tick", "why_tests_cant": "the call has to hit the short time between two packets of one tick; needs more devices than a packet holds", "anchors": ["generator.go: run, flush, Attach, Detach"]}
{"id": "C75", "title": "The bytes are the protobuf messages of the .proto files", "statement": "Packets, snapshots, route lists and sensor lists are written as documents of the messages Packet, Snapshot, Snapshot.Navigator.Routes and Snapshot.Sensors declared in proto/gpsgen.proto and proto/snapshot.proto, in the protobuf wire format, so programs in other languages can read them. PacketFromBytes, DecodeTracker, DecodeRoutes and DecodeSensors accept exactly such documents, with fields in any order, repeated or unknown fields, and read them as protobuf says; for anything else they return an error.", "quantifier": "all packets, devices, route lists and sensor lists, and all byte strings", "why_tests_cant": "unbounded messages, field orders, unknown fields and malformed inputs", "anchors": ["encoding.go: PacketFromBytes", "io.go: EncodeRoutes, DecodeRoutes, EncodeSensors, DecodeSensors, DecodeTracker", "device.go: MarshalBinary, UnmarshalBinary", "proto/gpsgen.proto", "proto/snapshot.proto", "proto/gpsgen.pb.go", "proto/snapshot.pb.go"]}
{"id": "C76", "title": "A device that was accepted can be used", "statement": "If DecodeTracker or UnmarshalBinary accepts some bytes without an error, or RouteFromSnapshot accepts a route, the device can be used like one from NewDevice: no later call on it panics, whatever is called and whatever else is unmarshalled into it.", "quantifier": "all byte strings, all devices, all histories of calls, unmarshalled bytes and reloaded routes", "why_tests_cant": "all byte strings and histories; needs hostile or damaged bytes that still decode", "anchors": ["device.go: FromSnapshot, Next, Update, all methods of Device", "encoding.go: UnmarshalBinary", "io.go: DecodeTracker", "navigator/route.go: RouteFromSnapshot", "curve/curve.go: Point, FromSnapshot", "types/speed.go: Next, FromSnapshot", "types/sensor.go: Next, FromSnapshot"]}
{"id": "C77", "title": "Packets show devices as they were, also while they are used", "statement": "While the generator sends packets, other goroutines may use the devices. Each packet handed to OnPacket can be read with PacketFromBytes, and shows each device as it was at one moment, as if the packet and the calls had been made one at a time.", "quantifier": "all devices, all calls on them by any number of goroutines, all schedules, all packets", "why_tests_cant": "the change has to hit the short time in which a worker encodes the device", "anchors": ["generator.go: run, worker", "device.go: State, SetUserID, SetDescription, all methods that take the lock", "encoding.go: PacketFromBytes"]}
{"id": "C78", "title": "Devices that share routes and sensors", "statement": "Routes and sensors are pointers, and the same ones may be added to several devices. Each device then behaves like a device with routes and sensors of its own: what one device does never changes what another answers and reports, and calls made on a route or sensor itself reach all devices that hold it.", "quantifier": "all numbers of devices, routes and sensors, all ways to share them, all histories of calls on devices, routes and sensors", "why_tests_cant": "all histories of several devices and of objects they share; a test shares an object only where its author thought of it", "anchors": ["device.go: AddRoute, RemoveRoute, RemoveTrack, ResetRoutes, AddSensor, RemoveSensor, ResetSensors, Next, Update", "navigator/navigator.go: AddRoute, RemoveTrack", "types/sensor.go: Next, Shuffle"]}
{"id": "C79", "title": "Options", "statement": "NewDevice makes a device exactly when the options keep to their documented limits, and the device has the ID, model, color, user, description and limits the options ask for; an ID, model or color that is left empty is made up. NewTracker, NewKidsTracker, NewAnimalTracker, NewBicycleTracker and NewDroneTracker always return a device. Options are not changed, so the same options can be used for several devices, each with an ID of its own, and for several generators; New accepts any options, and a generator option left at zero has its documented default.", "quantifier": "all options, including NaN and negative numbers, all random draws", "why_tests_cant": "all options; that the same options are used twice is not tried", "anchors": ["device.go: NewDevice, NewTracker, NewKidsTracker, NewAnimalTracker, NewBicycleTracker, NewDroneTracker", "device_options.go: DeviceOptions, applyFor, navOpts", "generator.go: New, Options", "navigator/options.go", "types/speed.go: NewSpeed", "types/battery.go: NewBattery", "types/model.go: NewModel"]}
{"id": "C80", "title": "What OnPacket and OnError are given", "statement": "At each tick the generator hands every packet of device states to OnPacket once, as bytes that PacketFromBytes reads back to the same states; a packet that cannot be encoded is reported to OnError instead, and what one device was given never keeps the others from being reported.", "quantifier": "all states of all devices, all strings users can set, all numbers of devices and generator settings, with and without OnError", "why_tests_cant": "the content of the strings and of all the other devices matters; the tests use ASCII names and always set OnError", "anchors": ["generator.go: run, doWorker, flush, OnPacket, OnError", "device.go: SetDescription, SetUserID, State", "encoding.go: PacketFromBytes"]}
{"id": "C81", "title": "Riding in float64", "statement": "With every sum rounded to float64, as the program computes it: without jumps the progress on a segment and on a track never exceeds its length, and a navigator that is moved on by positive steps completes its journey after a number of calls that can be told in advance.", "quantifier": "all routes with any stored lengths, all histories of the navigator, all steps (for the segment also negative ones, infinities and NaN), all sine and cosine functions", "why_tests_cant": "rounding errors add up over millions of steps and depend on every length and step; the tests ride a few short tracks", "anchors": ["navigator/navigator.go: NextLocation, isValidDistance, updateDist, nextSegment, IsFinish", "navigator/navigator.go: CurrentSegmentDistance, CurrentTrackDistance", "navigator/route_track_segment.go"]}
{"id": "C82", "title": "Properties in the published state", "statement": "The published list of routes shows, for every route and every track, the properties it has (as JSON, and their number), after every successful step and after Update.", "quantifier": "all histories of a device and of its routes and tracks, all properties, any JSON encoder", "why_tests_cant": "what is shown depends on which calls came since a property was written; the tests never look at published properties after writing them", "anchors": ["device.go: Next, Update, updateRoutes, AddRoute, RemoveRoute, RemoveTrack, ResetRoutes, State", "navigator/route.go: Props", "navigator/route_track.go: Props", "navigator/navigator.go: Sum"]}
{"id": "C83", "title": "Props() is a live handle", "statement": "What Props() of a route or track returns stands for its properties from then on: what is done through it (Set, Remove, Merge, Reset) is done to the route or track, to no other one, and never panics.", "quantifier": "all histories of calls on any number of variables, routes and tracks, all keys and values", "why_tests_cant": "sharing shows only in combinations of calls on several variables and routes; the tests use each handle once", "anchors": ["properties/properties.go: Make, Merge, Set, Remove, Reset", "navigator/route.go: Props, RestoreRoute, RouteFromSnapshot", "navigator/route_track.go: Props, TrackFromSnapshot"]}
{"id": "C84", "title": "Restoring in place", "statement": "FromSnapshot on a device, route or navigator that is in use leaves nothing of what it was: the result is what a new object would be after the same call. A failed RouteFromSnapshot changes nothing.", "quantifier": "all states of the receiver, all snapshots (also ones no object made)", "why_tests_cant": "the receiver's whole past state is a hidden input; the tests restore into new objects only", "anchors": ["device.go: FromSnapshot", "navigator/route.go: RouteFromSnapshot", "navigator/navigator.go: FromSnapshot, ToOffline", "navigator/options.go: SkipOfflineMode"]}
{"id": "C85", "title": "Iterating with callbacks", "statement": "EachTrack, EachRoute and Generator.Each call the callback once for every track (route) there was, in order and with its index, until it answers false, and then return, whatever the callback does.", "quantifier": "all routes and navigators, all callbacks, with any state of their own and any calls on the route or navigator", "why_tests_cant": "callbacks are arbitrary programs; the tests only read in them", "anchors": ["navigator/route.go: EachTrack, RemoveTrack, AddTrack", "navigator/navigator.go: EachRoute, RemoveRoute, AddRoute"]}
{"id": "C86", "title": "Simulated time keeps up with the clock", "statement": "The seconds a running generator hands to its devices at each tick add up to the time that has passed since Run, whatever the interval and whenever Run was called, also if ticks were missed.", "quantifier": "all intervals, all times at which the ticker goes off and the loop gets to it, all moments of New and Run", "why_tests_cant": "it depends on the whole history of the clock; the tests wait for a few ticks and do not compare times", "anchors": ["generator.go: New, Run, run", "generator.go: Options.Interval"]}
{"id": "C87", "title": "Saving what was loaded", "statement": "Loading saved bytes and saving again gives the same bytes: EncodeTracker after DecodeTracker after EncodeTracker returns what the first one returned; likewise for EncodeRoutes and EncodeSensors.", "quantifier": "all devices a program can get hold of, at any moment of their history; all lists of routes and sensors; any JSON encoder with the documented behaviour", "why_tests_cant": "every field of every part must be written as it was read, for all values and histories; the tests compare a few fields after one round", "anchors": ["io.go: EncodeTracker, DecodeTracker, EncodeRoutes, DecodeRoutes, EncodeSensors, DecodeSensors", "device.go: Snapshot, FromSnapshot, Update", "navigator/navigator.go: Snapshot, FromSnapshot", "navigator/route.go: Snapshot, RouteFromSnapshot", "types/random.go: NewRandom"]}
{"id": "C88", "title": "No goroutine is left behind", "statement": "After Close every goroutine Run started comes to an end; Run has not only returned, nothing of the generator is running any more.", "quantifier": "all generators New makes, all devices, all moments of Close, all schedules of the goroutines", "why_tests_cant": "whether a goroutine stays depends on the schedule around Close; the tests see Run return once and count no goroutines", "anchors": ["generator.go: Run, Close, run, doWorker, doNext, flush"]}
{"id": "C89", "title": "Replacing callbacks while running", "statement": "OnPacket, OnError and OnNext may be called while the generator runs: every packet, error and notification goes to the function it belongs to at some moment of its handling, to one only, and nothing panics.", "quantifier": "all functions including nil, all sequences of these calls by any goroutines, all schedules, all packets", "why_tests_cant": "it depends on what happens between two reads of a field; the tests set the callbacks before Run", "anchors": ["generator.go: OnError, OnPacket, OnNext, doWorker, doNext"]}
{"id": "C90", "title": "After Close the callbacks stop", "statement": "After Close OnNext is not called again and each worker calls back for at most the one packet it was already serialising; in every schedule the generator comes to rest and no callback is ever called again; once Run has returned none is called.", "quantifier": "all generators, all devices attached or detached at any time, all moments of Close, all schedules of the goroutines", "why_tests_cant": "a late call depends on the schedule around Close; the tests stop looking when Run has returned", "anchors": ["generator.go: Run, Close, run, doWorker, doNext, flush", "generator.go: OnPacket, OnError, OnNext"]}
