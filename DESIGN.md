# Formal model of mmadfox/go-gpsgen in Rocq (Coq 8.16.1)

## 1. Layout

* `rocq/theories/Model/*.v`: executable Gallina model, function by function. Every definition cites the
  Go file and lines it models. No proofs in these files.
* `rocq/theories/Spec/*.v`: small specifications, independent of the model's helpers: what the theorems say.
* `rocq/theories/Proofs/*.v`: lemmas and examples.
* `rocq/theories/Props/*.v`: the property theorems only (`exact lemma`), each with `Print Assumptions`
  and `Example`s showing that a concrete, non-trivial case meets the hypotheses.
* `properties.jsonl`: the properties in English. `MANIFEST.json`: property, status, theorem names.
* `seeded/LOG.jsonl`: wrong programs tried against the theorems, and which theorems failed.

Naming: `Cnn_...` is a theorem of property `Cnn`. A suffix `_partial` marks a theorem that proves only a part of the
stated property; `_refuted` marks a theorem that shows by a witness, about the model of the code as it is, that the
stated property (or the part outside the `_partial` theorem) is false. A property with a refuted part has status
`partial` in the manifest, unless the refuted part was outside the property's own statement.

## 2. How the code is modelled

### Numbers
All model code that uses `float64` is written once, over a type class `Num T` (`Model/Num.v`) holding the operations
the Go code uses (`+ - * / < <= ==`, `float64(int)`, `int(float64)`, `math.Abs/Min/Sqrt/Sin/...`, literals),
**without any laws**. It is then read at three instances:

* *any arithmetic*: theorems of the form `forall T (N : Num T), ...` use no property of arithmetic at all, so they
  hold of IEEE-754 float64 including NaN and infinities. A few need `zero_eq_zero` (0 == 0, `Spec/NumLaws.v`), proved
  for the two other instances.
* `F64` (`Model/NumF64.v`): IEEE-754 binary64 (Flocq `BinarySingleNaN`, round to nearest even); the transcendental
  functions are an arbitrary oracle `MathLib`.
* `R` (`Model/NumR.v`): the real numbers ("real-number reading" in `properties.jsonl`), for geometry, Bezier bounds and
  distance sums, where the float code only approximates the claim.

Limits of this reading: Go may fuse `x*y + z` on platforms other than amd64, the model never does; there is one NaN
(payloads are not observable in this code, except on the wire, where `bits_law` excludes them); `int(x)` of a NaN or of
a number out of range is implementation-defined in Go and a fixed value here; the theorems over `R` say nothing about
rounding, for example that the haversine of two nearly antipodal points can round above 1 and give NaN.

### Control flow
Panics (index out of range, nil dereference) are an explicit outcome `Panic` of the `res` monad (`Model/Base.v`); loops
that are not structurally bounded carry fuel and an explicit outcome `NoFuel`, and C22 proves that `NextLocation` never
runs out of it. Errors are values (`GErr`). Random draws, UUIDs, colours and clock readings are explicit arguments,
universally quantified in the theorems.

### Pointers
Routes, tracks and sensors are values; a mutation through a shared handle is an operation on the owner ("call AddTrack
on the route at index i of this navigator"). One object shared by two owners is not modelled, except where a file says
so.

### Integers and strings
`int`/`int64` are `Z` without overflow, except where a property is about the wrap (`uint32` conversion in
`types.Random`, the `uint32` contention counter, varints on the wire). Go strings are Coq strings of bytes.

### Concurrency
`Model/Contention.v` (the tick counter of a device) and `Model/GenConc.v` (the goroutines of a generator) are transition
systems; a theorem about them ranges over every sequence of steps, i.e. every schedule. Atomic steps are channel
communications, context tests, critical sections of a mutex and atomic operations. Sequential consistency is assumed:
the effect of unsynchronised accesses in the Go memory model is not modelled, nor is starvation (a goroutine that could
move forever and is never scheduled); callbacks return.

`Model/Mutex.v` is a machine of any number of goroutines over one shared memory, one `sync.RWMutex` (with the rule that a
waiting writer keeps new readers out) and one atomic counter; `Model/DeviceConc.v` gives the methods of a device as
programs for it. A method that holds the lock throughout may be any program that does so: `Spec/MutexSpec.v`, `guarded`.
Calls on sensors, routes and tracks through the handles a device hands out take no lock and are not in this model.
`Model/PacketConc.v` adds the worker that encodes the live state of a device without its lock (C77).

`Model/Locks.v` is the same machine with any number of mutexes, one per key, and one memory cell per key;
`Model/GenLocks.v` gives the methods of generators as programs for it that call those of `DeviceConc.v` on the devices.
`Spec/LocksSpec.v` says which programs keep to the rules: `ordered` (mutexes in ascending rank, for C72) and `two_phase`
(no mutex is taken once one was let go of, for C73; reading what never changes, such as a device's ID, is exempt). The
packet guarded by `dmu`, the callbacks the On methods set, and ticks that send more than one packet are left out there.

## 3. Trusted base

* Coq 8.16.1's kernel (`coqc`; `coqchk` accepts the whole development), and that the statements in `Props/` with the
  definitions in `Spec/` and `Model/` say what they are meant to say.
* No axioms of our own, no functors, no module types, no plugins, no kernel flags. The only axioms anywhere are four of
  Coq's standard library, which come with its real numbers (also through Flocq and Coquelicot).

### What `Print Assumptions` lists
`Closed under the global context` for every theorem in `Props/` except these, which list exactly
`ClassicalDedekindReals.sig_forall_dec`, `ClassicalDedekindReals.sig_not_dec`, `Classical_Prop.classic` and
`FunctionalExtensionality.functional_extensionality_dep` (or a subset):

`C01_distance_is_a_metric`, `C01_distance_is_the_angle`, `C01_same_place_coordinates`, `C02_destination_bearing`,
`C02_destination_distance`, `C02_destination_is_on_the_great_circle`, `C03_far_west`, `C03_normalised`,
`C04_walking_a_segment`, `C05_haversine_inverse`, `C06_curve_range`, `C07_pinned_ends`, `C09_bound_partial`,
`C09_refuted`, `C09_sensor_partial`, `C09_speed_partial`, `C10_new_speed_fails`, `C10_speed_range`,
`C11_battery_law`, `C11_zero_charge_time_refuted`, `C12_at_most_100_partial`, `C12_refuted`, `C15_refuted`,
`C19_exact_lengths_partial`, `C19_refuted`, `C20_refuted`, `C21_at_total`, `C21_below_one`, `C21_beyond_total`,
`C21_jump_partial`, `C21_refuted`, `C21_right_indices_partial`, `C24_refuted`, `C24_segment_progress_partial`,
`C25_progress`, `C25_progress_asked`, `C27_completes`, `C27_offline_bound`, `C28_binary64_partial`, `C28_refuted`,
`C28_visits_every_segment_partial`, `C32_binary64_partial`, `C32_completion_reported_partial`, `C32_refuted`,
`C36_owed_refuted`, `C36_speed_refuted`, `C36_stale_refuted`, `C37_float64_bits`, `C44_refuted`,
`C46_charge_above_minimum`, `C47_no_length_refuted`, `C47_speed_in_range`, `C47_values_in_range`, `C56_binary64`,
`C56_exact`, `C56_seconds_refuted`, `C58_refuted`, `C59_closed_partial`, `C59_on_circle`, `C59_zero_draws_refuted`,
`C60_anywhere`, `C60_inside`, `C61_refuted`, `C63_refuted`, `C65_on_globe_partial`, `C65_refuted`,
`C71_spurious_refuted`, `C76_refuted`, `C78_remove_track_refuted`, `C78_sensor_refuted`, `C79_accepts`,
`C79_as_asked`, `C79_options_partial`, `C79_presets`, `C79_reuse_refuted`, `C81_completes_partial`,
`C81_progress_bound_partial`, `C81_reported_bound_partial`, `C81_tiny_steps_refuted`, `C81_track_progress_refuted`,
`C86_interval_refuted`, `C86_keeps_up_partial`, `C86_late_refuted`, `C86_never_behind_partial`, `C86_tick`,
`C86_whole_seconds`, `C87_skip_offline_refuted`, `C87_unencodable_refuted`.

### Stated behaviour of libraries
Where a theorem depends on a library outside the repository, the library is an argument and its behaviour a premise of
the theorem (never an axiom). Each premise is shown satisfiable by an instance constructed in Coq.

| premise | stands for | satisfied by |
|---------|------------|--------------|
| `json_law` (`Spec/SnapSpec.v`) | `encoding/json` on a property map: what can be encoded, and what it is decoded to | `Proofs/JsonExample.v` |
| `bits_law` (`Spec/WireSpec.v`) | `math.Float64bits` and its inverse | binary64 itself, `C37_float64_bits` |
| `geo_law` (`Spec/GeoJSONSpec.v`) | `orb/geojson` and `encoding/json` on feature collections | `Proofs/GeoExample.v` |
| `gpx_law` (`Spec/GPXSpec.v`) | `gpxgo`, `encoding/xml`, `strconv` and `fmt` on GPX documents | `Proofs/GpxExample.v` |
| `upper_law` (`Spec/CountriesSpec.v`) | `strings.ToUpper` of two bytes that are not ASCII is not a two-letter ASCII code | the identity, `C60_example` |
| `trig_law` (`Spec/RandomSpec.v`) | `math.Sin`, `math.Cos` of a finite number are in [-1, 1] | `flatMath`, `C59_example` |
| `UtmLib` (no law) | `icholy/utm`: any function | - |

## 4. What is modelled

| Go file | model | left out |
|---------|-------|----------|
| `geo/*.go` | `Geo.v` | - |
| `curve/*.go` | `Curve.v` | the source of the random control points (any draws) |
| `types/*.go` | `Types.v`, snapshots in `TypesSnap.v` | random source (any draws) |
| `properties/*.go` | `PropMap.v` (values), `PropHeap.v` (references) | - |
| `navigator/route_track.go`, `route_track_segment.go` | `Track.v` | - |
| `navigator/route.go` | `Route.v`; `EachTrack` with arbitrary callbacks in `Each.v` | callbacks that panic |
| `navigator/navigator.go`, `location.go`, `types.go`, options | `Navigator.v`; `EachRoute` with arbitrary callbacks in `Each.v` | inside of the UTM library; callbacks that panic |
| `device.go`, `device_options.go` | `Device.v`; routes and sensors held by several devices in `Shared.v`; the tick counter under contention in `Contention.v`; the lock in `DeviceConc.v` | - |
| `generator.go` | `Generator.v` (bookkeeping, slices, one tick), `GenConc.v` (goroutines, channels, Close), `GenAgain.v` (Run after Close), the locks in `GenLocks.v`, the encoding of packets beside other calls in `PacketConc.v`, setters of callbacks during Run in `Callbacks.v`, `Each` with arbitrary callbacks in `Each.v` | `time.Ticker`'s timing (the clock may tick whenever it is waited for, in `GenConc.v`); the seconds handed to the devices against the clock are in `Clock.v`, with the ticker as documented |
| `io.go`, `encoding.go` | `IO.v` | - |
| `proto/*.pb.go` | message types in `Pb.v`, descriptors in `WireMsgs.v`, the proto3 wire codec in `Wire.v`, UTF-8 in `Utf8.v`, float bits in `WireF64.v` | the generated accessors and reflection code; the recursion limit for messages, which these types do not reach (that for unknown groups is modelled) |
| `random/latlon.go`, `polygon.go`, `string.go`; `route.go` | `Countries.v`, `RandomRoute.v` | the generator behind `random/random.go` (any draws) |
| `geojson/*.go` | `GeoJSON.v`, down to feature collections | the JSON text |
| `gpx/*.go` | `GPX.v`, down to document trees | the XML text |
| `examples/*`, tests | - | not part of the library |

## 5. Per property

| id | property | model | proof | result |
|----|----------|-------|-------|--------|
| C01 | Distance is a metric on the sphere | `Geo.v` at `R` | unit vectors on the sphere; the distance is the angle between them; triangle inequality of angles | proved: real-number reading |
| C02 | Destination lands at the requested distance and in the requested direction | `Geo.v` at `R` | destination as a rotation in the plane of the start and the direction | proved: real-number reading |
| C03 | Bearings and destinations are normalised | `Geo.v` at `R` | bounds of floor-based modulo | proved: real-number reading |
| C04 | Walking a whole segment ends at its end point | `Geo.v` at `R` | destination as a rotation in the plane of the start and the direction | proved: real-number reading |
| C05 | Haversine conversions are inverse | `Geo.v` at `R` | trigonometric identities | proved: real-number reading |
| C06 | Generated values stay inside the configured range | `Curve.v` at `R` | de Casteljau and Bernstein: partition of unity by induction on the degree | proved: real-number reading |
| C07 | Start/end modes pin the ends of the curve to the minimum | `Curve.v` at `R` | de Casteljau and Bernstein: partition of unity by induction on the degree | proved: real-number reading |
| C08 | Curve evaluation does not depend on earlier evaluations | `Curve.v`, any arithmetic | `Point` reads only the control points | proved: any arithmetic |
| C09 | The range guarantee survives IEEE-754 rounding | `Curve.v`, `Types.v` at `F64` | witnesses evaluated by the kernel; the bound by rounding error analysis with Flocq: relative errors of the weights, of the sum of weights and of the sum of products, by induction over the control points | partial: false: witnesses below the minimum and above the maximum in binary64; the excess is at most 2^-40 of the larger limit for up to 512 control points, and at most 1e-9 for speeds |
| C10 | Speed objects are only created for sane ranges and report values in range | `Types.v` | case analysis; C06 | proved: real-number reading |
| C11 | Battery discharge law | `Types.v` at `R` | invariant of Next/Reset histories; C12 by witness | proved: real-number reading; charge time zero gives NaN |
| C12 | Battery charge never exceeds the configured maximum | `Types.v` at `R` | invariant of Next/Reset histories; C12 by witness | partial: false: the configured maximum is never used |
| C13 | Offline duration is drawn from the configured interval | `Types.v` | integer reasoning on `Uint32n` and the uint32 conversion | proved: any arithmetic |
| C14 | A track is exactly its polyline | `Track.v`, `Route.v`, any arithmetic | list induction, left folds | proved: any arithmetic |
| C15 | IsClosed tells whether the polyline is closed | `Track.v`, any arithmetic | exact characterisation of the comparison; witness | partial: false as stated: IsClosed compares only longitudes; what it computes is characterised exactly |
| C16 | Route distance is the sum of its tracks | `Track.v`, `Route.v`, any arithmetic | list induction, left folds | proved: any arithmetic |
| C17 | AddRoute appends exactly the new routes | `Navigator.v`, any arithmetic | list lemmas lifted to histories of calls | proved: any arithmetic |
| C18 | Routes are found and removed by ID | `Navigator.v`, any arithmetic | list lemmas lifted to histories of calls | proved: any arithmetic |
| C19 | Total distance equals the sum of the route distances | `Navigator.v`, any arithmetic | invariant over histories of navigator calls; witness histories | partial: false for RemoveTrack and for AddTrack/RemoveTrack through a route handle |
| C20 | Navigation never indexes out of range | `Navigator.v`, any arithmetic | invariant over histories of navigator calls; witness histories | partial: false for DestinationTo with three or more routes; proved for all other histories, any arithmetic |
| C21 | DestinationTo jumps to the right place | `Navigator.v` at `R` | loop invariants of the four nested searches; witness | partial: counters and location are right for every route set; the position indices only for two routes of two tracks, false beyond |
| C22 | NextLocation always terminates | `Navigator.v` | measure on position, bounds the number of recursive calls | proved: any arithmetic with 0 == 0 |
| C23 | A successful step advances all counters by exactly tick*speed | `Navigator.v` | characterisation of one step as a walk over segments | proved: any arithmetic with 0 == 0 |
| C24 | Segment progress never exceeds the segment length | `Navigator.v` at `R` | invariant over histories of steps and moves | partial: real-number reading; false after a DestinationTo on a route of four tracks, proved for all histories without wrong jumps |
| C25 | Track, route and total progress never exceed the track, route and total length | `Navigator.v` at `R` | invariant over histories of steps and moves | proved: real-number reading |
| C26 | Routes, tracks and segments are traversed in order | `Navigator.v` | characterisation of one step as a walk over segments | proved: any arithmetic with 0 == 0 |
| C27 | The device eventually completes its routes | `Navigator.v` at `R` | termination measure: remaining length, with an explicit number of steps | proved: real-number reading; explicit bound |
| C28 | Every segment of a track is visited | `Navigator.v` at `R` and in binary64 | invariant: every segment before the current one was visited | partial: real-number reading and binary64; false for tracks with an empty segment, proved for all others |
| C29 | Offline countdown | `Navigator.v`, any arithmetic | case analysis, induction on the number of steps | proved: any arithmetic |
| C30 | Moves are all-or-nothing | `Navigator.v`, any arithmetic | case analysis of each move | proved: any arithmetic |
| C31 | Next/previous route | `Navigator.v`, any arithmetic | case analysis of each move | proved: any arithmetic |
| C32 | Completion is reported exactly once, exactly on completion | `Navigator.v` at `R` and in binary64 | invariant relating the finish flag and the counters | partial: real-number reading and binary64; false for a first step of exactly ten centimetres, proved for longer steps from a rewound navigator |
| C33 | Every structural change is visible in the version | `Navigator.v`, any arithmetic | monotone counters over histories | proved: any arithmetic |
| C34 | Navigator options are validated | `Navigator.v`, `Device.v` | case analysis of each option | proved: any arithmetic |
| C35 | Snapshots lose nothing | `TypesSnap.v`, `Navigator.v` | record by record; json_law for properties | proved: any arithmetic; properties up to the stated behaviour of encoding/json (json_law); maps JSON cannot encode are lost |
| C36 | A restored device continues exactly like the original | `Device.v` | simulation relation between original and restored device, preserved by every call | partial: false if seconds are owed for contended calls, if IDs of removed routes are still shown, or for a new device with a constant speed; proved for all other devices and all later calls, any arithmetic |
| C37 | Wire encoding round-trips | `Wire.v`, `WireMsgs.v` | round trip of the generic codec by induction over descriptors and values; unknown fields | proved: encodings up to 2^63 bytes; group-typed unknown fields are modelled but the insertion theorem is stated for the other wire types |
| C38 | EncodeRoutes/DecodeRoutes and EncodeSensors/DecodeSensors round-trip | `IO.v`, `Wire.v` | C37 and C35 composed; C39: exact set of messages that panic | proved: any arithmetic; encodings up to 2^63 bytes; properties up to json_law |
| C39 | Decoding hostile bytes returns an error instead of crashing | `IO.v`, `Wire.v` | C37 and C35 composed; C39: exact set of messages that panic | partial: false: well-formed messages with a missing part make all three decoders panic; proved to be the only case |
| C40 | GeoJSON round-trip | `GeoJSON.v` | feature by feature, under geo_law; witnesses | partial: false: names of tracks and the ID, colour and properties of tracks after the first are lost, reserved property names collide; the rest is proved, under geo_law for encoding/json and orb |
| C41 | GPX round-trip | `GPX.v` | node by node, under gpx_law; witnesses | partial: false: a route ID that looks like a number makes the document unreadable, properties of tracks and names or colours that look like numbers are lost; the rest is proved, under gpx_law for gpxgo, encoding/xml, strconv and fmt |
| C42 | Next on a device without routes changes nothing | `Device.v` | characterisation of Next, invariants over histories of device calls | proved: any arithmetic |
| C43 | Elapsed time is accounted for | `Device.v` | characterisation of Next, invariants over histories of device calls | proved: any arithmetic |
| C44 | The published state mirrors the device | `Device.v` | characterisation of Next, invariants over histories of device calls | partial: proved in full after a successful step; Update does not refresh the speed and, without a current route, keeps the former IDs |
| C45 | Sensors form an ordered set keyed by ID | `Device.v` | characterisation of Next, invariants over histories of device calls | proved: any arithmetic |
| C46 | An empty battery recharges and takes the device offline | `Device.v` | characterisation of Next, invariants over histories of device calls | proved: any arithmetic; the charge bound over the reals |
| C47 | Speed, elevation and sensor values stay in range for the whole simulation | `Device.v` at `R` | C06 lifted to histories of device calls | proved: real-number reading; routes of length zero (outside the claim) give NaN |
| C48 | Contended ticks are not lost | `Contention.v` | ledger invariant over all interleavings; witness schedule | partial: false: an increment between the load and the store of a successful call is lost for good; exact ledger proved for every interleaving |
| C49 | Worker slices partition the packet | `Generator.v` | arithmetic of slices | proved: all settings with a worker and room for a device, which New guarantees |
| C50 | Every attached device is reported exactly once per tick | `Generator.v` | list induction over the devices; invariants over histories | partial: false with at least PacketSize devices: every PacketSize-th device is dropped; exact contents proved for all sizes; C52_tick links them to the goroutines |
| C51 | Attach/Detach bookkeeping | `Generator.v` | list induction over the devices; invariants over histories | proved: histories of Attach, Detach and every other device call; restoring an attached device in place (FromSnapshot) breaks it, see C51_restored_refuted |
| C52 | Packets are never torn | `GenConc.v` | inductive invariants over all schedules, termination measure; C54 by a witness schedule for every generator | proved: all schedules of the transition system of Model/GenConc.v |
| C53 | The running generator never deadlocks | `GenConc.v` | inductive invariants over all schedules, termination measure; C54 by a witness schedule for every generator | proved: all schedules; callbacks are assumed to return |
| C54 | Close makes Run return | `GenConc.v` | inductive invariants over all schedules, termination measure; C54 by a witness schedule for every generator | partial: false for every generator New makes, with enough devices and Close during a tick; proved between ticks, and at any point for devices sent as one slice |
| C55 | OnNext notifications | `GenConc.v` | inductive invariants over all schedules, termination measure; C54 by a witness schedule for every generator | proved: all schedules; callbacks are assumed to return |
| C56 | Degrees/minutes/seconds | `Navigator.v` (`setDMS`) at `R` and `F64` | floor arithmetic; error bounds with Flocq | proved: exact over the reals; at binary64 up to stated rounding (the seconds can be slightly negative) |
| C57 | Properties behave like a map | `PropMap.v` | finite-map laws by list induction | proved: value semantics: two handles on one map are not modelled; Set and Merge on a nil map panic in Go and are outside the claim |
| C58 | Names and models are length-checked | `Types.v`, `Device.v` | case analysis and invariant over histories | partial: false for devices restored from a snapshot |
| C59 | Random routes are well formed | `RandomRoute.v` at any arithmetic, `F64` and `R` | list induction; interval bounds with Flocq; geometry of the circle | partial: false if all 16 draws of Float64 are 0 (NaN coordinates); otherwise proved, closed at binary64 for sin and cos bounded by 1, the circle over the reals |
| C60 | Country tables | `Countries.v` | the tables checked by the kernel, all draws by Flocq bounds | proved: binary64, all draws; strings.ToUpper on non-ASCII codes by upper_law |
| C61 | Constructors never accept NaN limits | `Types.v`, `Navigator.v` at `F64` | witnesses | partial: false: NaN limits are accepted everywhere; nothing of the claim is left to prove |
| C62 | A device drives its navigator only by public navigator calls | `Device.v` | every device call is a list of navigator calls | proved: any arithmetic |
| C63 | No history of public calls panics a device | `Device.v` | C20 lifted to devices | partial: false for DestinationTo with three routes; proved for all other histories, any arithmetic with 0 == 0 |
| C64 | The published list of routes is current | `Device.v` | invariant: equal versions imply an equal list | proved: any arithmetic |
| C65 | Random routes stay on the globe | `RandomRoute.v` at any arithmetic, `F64` and `R` | list induction; interval bounds with Flocq; geometry of the circle | partial: false near the edges of the map: from the south pole every track leaves it; proved for circles inside |
| C66 | Decoding GeoJSON never panics | `GeoJSON.v` | feature by feature, under geo_law; witnesses | partial: false: null, missing features or geometries, and restored routes without a track ID or with short lines panic; proved for the others |
| C67 | Decoding GPX never panics | `GPX.v` | node by node, under gpx_law; witnesses | proved: all data; ParseBytes of gpxgo is assumed to return |
| C68 | Files from elsewhere are imported whole | `GeoJSON.v`, `GPX.v` | line by line; witnesses for mixed GPX documents | partial: GeoJSON in full; GPX documents that mix waypoints, routes and tracks lose all but one kind; proved for the others |
| C69 | Concurrent calls on a device behave like some sequential order | `Mutex.v`, `DeviceConc.v` | simulation of the machine by its calls one at a time, in the order they leave the mutex; witness schedules for Snapshot, SensorAt and IsFinish on every device | partial: false of Snapshot, MarshalBinary, SensorAt and IsFinish, which read or write outside the lock; for Next and all methods that hold the lock throughout it is proved, panics included: the calls panic only where the same calls one at a time would |
| C70 | Concurrent calls on a device all return | `Mutex.v`, `DeviceConc.v` | progress from an invariant on who holds the mutex, termination by well-founded induction over the programs; witness schedules for callbacks | partial: false of EachSensor and EachRoute with callbacks that use the device; proved for Next and for all methods that hold the lock throughout |
| C71 | IsFinish tells when the journey is complete | `Device.v`, `Navigator.v` | inversion of Next; a binary64 witness | partial: false both ways: Next consumes the mark itself, and any position 0.1 m after the start is taken for it; the exact answer is proved |
| C72 | Concurrent calls on generators and devices all return | `Locks.v`, `GenLocks.v` | the mutexes are taken in ascending rank, so the goroutine that waits for the highest one can move; well-founded induction over the programs; witness schedules for callbacks | partial: false of callbacks that use the generator: Each waits for itself or for a waiting writer, EachSensor for an Attach of its device; proved for all calls and for callbacks of Each that use devices; ticks that send one packet |
| C73 | Attaching, detaching and asking are atomic | `Locks.v`, `GenLocks.v` | two-phase locking: every call takes effect where it lets go of its first mutex; simulation by calls one at a time, then C51 | proved: all schedules, at every moment; a device's Next, SensorAt, IsFinish, Snapshot and FromSnapshot are not among the calls (C69) |
| C74 | Attaching and detaching during a tick | `GenConc.v` | an invariant that says which lists the full packets of the tick so far were read from; prefixes for Attach only; a generic witness run for the refutation | partial: false where devices are detached between two packets of a tick: later devices move up and are skipped, for every generator New makes; what the packets are made of is proved for all schedules, and the property for Attach only and for fewer devices than a packet holds |
| C75 | The bytes are the protobuf messages of the .proto files | `Wire.v`, `WireMsgs.v`, `IO.v` | the decoder against a declarative grammar of documents, both directions, by induction on the bytes; descriptors computed from the declarations; encoding through C37 | proved: against an independent description of the wire format and of the .proto files; integers in the int64 range; what the decoders do with a document that lacks a message they need is C39 |
| C76 | A device that was accepted can be used | `IO.v`, `Device.v`, `TypesSnap.v`, `Wire.v` | the device invariant of C63 holds after every accepted message with control points, and is kept by every call; a witness message per curve for the refutation | partial: false as stated: a message whose elevation, sensor or varying speed curve has no control points is accepted, and the first step panics; proved for messages with control points (parts that are missing altogether are C39), DestinationTo with three or more routes excepted as in C63 |
| C77 | Packets show devices as they were, also while they are used | `PacketConc.v`, `DeviceConc.v`, `Mutex.v`, `WireMsgs.v` | an invariant over all schedules: the published state does not change and every program under way ends in the encoding of it; schedules of every device for the refutations, with the answers any order of the calls could give | partial: false as stated: packets hold the live state of the device and are encoded without its lock, so a change may show in half, or leave bytes that cannot be read, for every device that can be encoded; proved for all schedules of calls that leave alone what State() returns; one device of the packet is used |
| C78 | Devices that share routes and sensors | `Shared.v`, `Device.v` | a frame lemma for every device call (routes are at most touched, sensors stepped, tracks removed), lifted to a heap of objects; a simulation between the worlds with and without the other devices; concrete worlds for the refutations | partial: false as stated: RemoveTrack of one device takes the track from all devices that hold the route, and a step of one device moves the sensors of the others; proved: any sharing leaves each device with a history of a device of its own (so the other properties hold for it), a device that shares routes only is not affected by the others unless they remove tracks, and no call panics; tracks are not shared between routes |
| C79 | Options | `Device.v`, `Navigator.v`, `Types.v`, `Generator.v` | case analysis of the constructors against the limits written out in `Spec/NewDeviceSpec.v`; comparisons of binary64 through Flocq | partial: false of two things: NewDevice writes the ID it made up into the options, so that devices made of the same options all have the same ID, and generator options left at zero do not get the documented defaults; the rest is proved, for binary64 |
| C80 | What OnPacket and OnError are given | `Worker.v`, `Generator.v`, `WireMsgs.v`, `IO.v` | induction over message kinds: what a failed encoder leaves behind is the start of the whole with the length of the whole, or a message with a string the decoder rejects; the round trip of C37 for the rest; C50 for ticks | partial: false as stated: without OnError, OnPacket gets the broken bytes of every packet that cannot be encoded, and one device with a string that is not UTF-8 hides all devices of its packet; proved for UTF-8 strings, with an exact account of what is seen for any strings; packets below 2^63 bytes |
| C81 | Riding in float64 | `Navigator.v`, `NumF64.v` | an integer potential that every online call raises, in any arithmetic; its growth in binary64 from the half-ulp bound of the rounded sum (Flocq); computed witnesses for every sine and cosine; the relative error of a rounded sum, followed through the ride | partial: the segment in any arithmetic; completion in binary64 for steps of at least 2^-52 of the longest segment; false otherwise: smaller steps are lost to rounding and the journey never ends, and the progress on a track exceeds its length by a rounding error (10 m + 0.6 m in steps of 10, 0.3, 0.3), but never by more than a part in 2^50 per step (and, against the reported distances, per segment, track and route) |
| C82 | Properties in the published state | `Device.v`, `Route.v`, `Track.v`, `PropMap.v` | the three sums of versions are raised by every call that may change what is shown, writing properties excepted, and an unchanged sum means unchanged properties; the calls that leave the sums alone leave the published list alone | partial: false as stated: writing through Props() raises no version, so a step does not publish what was written; proved: Update and every change of the list of routes publish the properties, they stay published at every successful step as long as none is written, and exactly when the published list is wrong after a property was written |
| C83 | Props() is a live handle | `PropHeap.v`, `PropMap.v` | a heap of maps: references that are not assigned stay, maps are allocated once, and without RestoreRoute no two owners refer to the same one | partial: false of three calls: Reset through a handle leaves the entries of the route, RestoreRoute shares the map it is given, and RouteFromSnapshot/TrackFromSnapshot leave older handles with the old map; proved without these, for all histories |
| C84 | Restoring in place | `Device.v`, `Route.v`, `Navigator.v` | unfolding of the two runs side by side; the fields of the receiver are overwritten or not read | partial: false of leftovers: sensors and the name of the old life stay if the snapshot has none, seconds owed stay, and a navigator in skip-offline mode restored from one that goes offline panics when it is to go offline; proved that nothing else stays and that a failed RouteFromSnapshot changes nothing; the FromSnapshot of curves, speeds, batteries, sensors and tracks assign every field and have no receiver in the model |
| C85 | Iterating with callbacks | `Each.v`, `Route.v`, `Navigator.v` | induction on the rest of the list; two elements at a time for removal; on fuel for the endless iteration | partial: false of callbacks that change the list: removing passes over every second element, adding never ends; proved for all other callbacks; a callback that panics is not considered; a device's EachRoute holds its lock (C70) |
| C86 | Simulated time keeps up with the clock | `Clock.v`, `Types.v` | induction on the ticks; what is received from the ticker is a sublist of its times; two roundings of Duration.Seconds bounded through Flocq | partial: false in two cases: a tick counts as one second at least, so that with intervals below a second simulated time runs ahead, and a generator that is run later than one interval after New counts the time before Run twice; proved for intervals of a second or more (sums over the reals, each tick in binary64); time.Ticker as documented, the saturation of time.Sub is left out |
| C87 | Saving what was loaded | `IO.v`, `Device.v`, `Navigator.v`, `Route.v`, `Track.v`, `Types.v` | the snapshot of a loaded object is the snapshot it was loaded from, part by part; updating succeeds whatever the published state; the round trip of C37 | partial: false in two cases: a device in skip-offline mode is saved with the offline range 0..0 and loaded with 0..1, and a property JSON cannot encode leaves no text the first time and an empty map the second; proved for the other devices, and that the bytes settle after one reload in either mode; properties whose JSON text is not read and written the same (integers beyond 2^53) are excluded; encodings below 2^63 bytes |
| C88 | No goroutine is left behind | `GenConc.v`, `GenAgain.v` | as C54: an invariant that counts the messages in waitCh and the workers that have returned, and a measure; for the counterexample a schedule for every configuration and a state no step leaves | partial: false for every generator New makes, with any number of devices one flush sends as one slice, even none: a worker can stay blocked for ever on its last send after Run has returned, and Run called again after Close leaves all its workers; proved when Close comes between ticks, and that at most one goroutine stays for such devices whenever Close comes; for any devices the OnNext loop returns and what stays is blocked for ever |
| C89 | Replacing callbacks while running | `Callbacks.v`, `Worker.v` | induction on the schedule, one lemma for each place the goroutine can be at | partial: false in two cases: a callback set to nil between the test and the call panics, and OnError followed by OnPacket can still send a failed packet to OnPacket; proved otherwise; reads without the lock are taken as sequentially consistent, which Go does not promise |
| C90 | After Close the callbacks stop | `GenConc.v` | a count of the packets in hand that no step of a closed generator raises; a decision, for every closed state, whether a goroutine can move, and the measure of C54; the wait group counts the goroutines that can still call back | proved: for all devices, schedules and moments of Close, and also when Run never returns (C54) or leaves goroutines behind (C88) |
