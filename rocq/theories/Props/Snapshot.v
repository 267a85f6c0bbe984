(** C35, C36, C38, C39: snapshots, restored devices, encoded lists, hostile bytes. *)
From Coq Require Import Lia.
From Verif.Model Require Import Base Num NumF64 Utf8 Geo Curve PropMap Types Pb TypesSnap Track Route Navigator Device Wire WireMsgs WireF64 IO.
From Verif.Spec Require Import ListSpec TrackSpec RouteSpec NavSpec TypesSpec DeviceSpec SnapSpec RestoreSpec WireSpec WireMsgSpec DecodeSpec Examples.
From Verif.Proofs Require Import SnapProofs RestoreProofs RestoreRefute DecodeProofs RestoreExample JsonExample WireF64Proofs.
Open Scope num_scope.

(** C35. Snapshots of values, curves and segments: nothing is lost. *)
Theorem C35_types : forall (T : Type) (c : curve T) (s : speed T) (b : battery T) (x : sensor T) (g : segment T),
  curve_FromSnapshot (Some (curve_Snapshot c)) = Ret c /\
  speed_FromSnapshot (Some (speed_Snapshot s)) = Ret s /\
  battery_FromSnapshot (Some (battery_Snapshot b)) = Ret b /\
  sensor_FromSnapshot (Some (sensor_Snapshot x)) = Ret x /\
  SegmentFromSnapshot (segment_Snapshot g) = Ret g.
Proof.
  intros. repeat split; [apply curve_snap|apply speed_snap|apply battery_snap|apply sensor_snap|apply segment_snap].
Qed.
Print Assumptions C35_types.

(** Tracks and routes: everything but the properties is unchanged; those go through JSON. *)
Theorem C35_track : forall (T : Type) (N : Num T) (J : JsonLib T), json_law T -> forall t : track T,
  exists t', TrackFromSnapshot (track_Snapshot t) = Ret t' /\ restored_track t t'.
Proof. exact @track_snap. Qed.
Print Assumptions C35_track.
Theorem C35_route : forall (T : Type) (N : Num T) (J : JsonLib T), json_law T -> forall r : route T, made_route r ->
  exists r', RouteFromSnapshot route_zero (route_Snapshot r) = Ret (None, r') /\ restored_route r r'.
Proof. intros T N J L r H. exact (route_snap L r (made_proper r H)). Qed.
Print Assumptions C35_route.

(** Navigators after any history of calls. *)
Theorem C35_navigator : forall (T : Type) (N : Num T) (J : JsonLib T), json_law T ->
  forall (opts : list (nav_option T)) (uuid : string) (draws : nat -> T) (n0 : navigator T) (ops : list (nav_op T)) (n : navigator T),
  navigator_New opts uuid draws = GOk n0 -> Forall adds_made_routes ops -> run_navs n0 ops = Ret n ->
  exists s n', nav_Snapshot n = Ret s /\ nav_FromSnapshot nav_zero (Some s) = Ret n' /\ restored_nav n n'.
Proof. exact @C35_nav_proof. Qed.
Print Assumptions C35_navigator.

(** C36. A device encoded at any moment and decoded goes on like the original, whatever calls follow,
    provided the snapshot is complete: no seconds owed, no IDs left over from routes that are gone, no
    unpublished speed. *)
Theorem C36_goes_on_partial : forall (T : Type) (N : Num T) (J : JsonLib T) (U : UtmLib T) (B : Bits64 T),
  json_law T -> bits_law T -> forall (d d1 : device T) (b : list byte),
  made_device d -> EncodeTracker (Some d) = Ret (GOk b, Some d1) -> go_sized d1 b -> snapshot_is_complete d1 ->
  exists d', DecodeTracker b = Ret (GOk d') /\ restores d1 d'.
Proof. exact @C36_proof. Qed.
Print Assumptions C36_goes_on_partial.

(** When the published speed is the current one: after decoding, after a move, and then for good; from
    the start for devices whose speed varies. *)
Theorem C36_speed_published : forall (T : Type) (N : Num T) (J : JsonLib T) (U : UtmLib T) (B : Bits64 T),
  (forall (b : list byte) (d : device T), DecodeTracker b = Ret (GOk d) -> speed_published d) /\
  (forall (d : device T) tick x d', n_routes (d_nav d) <> [] -> run_dev d (DNext true tick x) = Ret d' -> speed_published d') /\
  (forall (d : device T) o d', speed_published d -> run_dev d o = Ret d' -> speed_published d') /\
  (forall opts x (d : device T), built opts x d -> (sp_min (d_speed d) =? sp_max (d_speed d)) = false -> speed_published d).
Proof. exact @speed_published_proof. Qed.
Print Assumptions C36_speed_published.

(** Without those premises the property is false, at binary64, whatever the mathematical library. *)

(** a contended Next call is forgotten: the next tick differs *)
Theorem C36_owed_refuted : forall (m : MathLib) (J : JsonLib f64) (U : UtmLib f64) (N := F64Num m) (B := F64Bits),
  exists opts x d0 tick y d r b d1 d', built (Some opts) x d0 /\ run_devs d0 [DNext false tick y] = Ret d /\
    EncodeTracker (Some d) = Ret (GOk b, Some d1) /\ DecodeTracker b = Ret (GOk d') /\ d_status d1 = Stopped /\
    ~ goes_on_like false false d1 d' [DAddRoute [Some r]; DNext true tick y].
Proof.
  intros m J U N B. destruct (owed_lost m J U) as (d0 & d & H1 & H2 & b & d1 & d' & H3).
  exists (rf_opts m 1 2), (rf_draws m), d0, (@fofZ f64 (F64Num m) 1), (rf_next m), d, (NewRoute "r1" "#ff0000"), b, d1, d'.
  split; [exact H1|]. split; [exact H2|]. exact H3.
Qed.
Print Assumptions C36_owed_refuted.
(** the device shows the ID of a removed route, the decoded one does not *)
Theorem C36_stale_refuted : forall (m : MathLib) (J : JsonLib f64) (U : UtmLib f64) (N := F64Num m) (B := F64Bits),
  exists opts x d0 r d b d1 d', built (Some opts) x d0 /\ run_devs d0 [DAddRoute [Some r]; DUpdate; DResetRoutes] = Ret d /\
    EncodeTracker (Some d) = Ret (GOk b, Some d1) /\ DecodeTracker b = Ret (GOk d') /\ d_status d1 = Stopped /\
    ~ goes_on_like false false d1 d' [].
Proof.
  intros m J U N B. destruct (stale_lost m J U) as (d0 & d & H1 & H2 & b & d1 & d' & H3).
  exists (rf_opts m 1 2), (rf_draws m), d0, (NewRoute "r1" "#ff0000"), d, b, d1, d'.
  split; [exact H1|]. split; [exact H2|]. exact H3.
Qed.
Print Assumptions C36_stale_refuted.
(** a new device with a constant speed shows speed 0, the decoded one its speed *)
Theorem C36_speed_refuted : forall (m : MathLib) (J : JsonLib f64) (U : UtmLib f64) (N := F64Num m) (B := F64Bits),
  exists opts x d0 b d1 d', built (Some opts) x d0 /\
    EncodeTracker (Some d0) = Ret (GOk b, Some d1) /\ DecodeTracker b = Ret (GOk d') /\ d_status d1 = Stopped /\
    ~ goes_on_like false false d1 d' [].
Proof.
  intros m J U N B. destruct (speed_lost m J U) as (d0 & d & H1 & H2 & b & d1 & d' & H3).
  assert (d0 = d) by (cbn in H2; exact (f_equal (fun r => match r with Ret x => x | _ => d0 end) H2)). subst d.
  exists (rf_opts m 1 1), (rf_draws m), d0, b, d1, d'. split; [exact H1|]. exact H3.
Qed.
Print Assumptions C36_speed_refuted.

(** C38. Lists of routes and sensors round-trip; when encoding and decoding fail. *)
Theorem C38_routes : forall (T : Type) (N : Num T) (J : JsonLib T) (B : Bits64 T), json_law T -> bits_law T ->
  forall rs : list (route T), Forall made_route rs -> Forall int64_route rs ->
  (rs = [] -> EncodeRoutes rs = GErr ErrNoData) /\
  (rs <> [] -> ~ Forall utf8_route rs -> EncodeRoutes rs = GErr ErrUTF8) /\
  (rs <> [] -> Forall utf8_route rs -> exists b, EncodeRoutes rs = GOk b /\
     ((zlen b < 2 ^ 63)%Z -> exists rs', DecodeRoutes b = Ret (GOk rs') /\ Forall2 restored_route rs rs')).
Proof. exact @C38_routes_proof. Qed.
Print Assumptions C38_routes.
Theorem C38_sensors : forall (T : Type) (N : Num T) (B : Bits64 T), bits_law T ->
  forall ss : list (sensor T), Forall int64_sensor ss ->
  (ss = [] -> EncodeSensors ss = GErr ErrNoData) /\
  (ss <> [] -> ~ Forall utf8_sensor ss -> EncodeSensors ss = GErr ErrUTF8) /\
  (ss <> [] -> Forall utf8_sensor ss -> exists b, EncodeSensors ss = GOk b /\
     ((zlen b < 2 ^ 63)%Z -> DecodeSensors b = Ret (GOk ss))).
Proof. exact @C38_sensors_proof. Qed.
Print Assumptions C38_sensors.
Theorem C38_decode_errors : forall (T : Type) (N : Num T) (J : JsonLib T) (B : Bits64 T) (b : list byte),
  ((exists e, DecodeRoutes (T := T) b = Ret (GErr e)) <-> b = [] \/ unmarshal d_Routes b = None) /\
  ((exists e, DecodeSensors (T := T) b = Ret (GErr e)) <-> b = [] \/ unmarshal d_Sensors b = None).
Proof. exact @C38_errors_proof. Qed.
Print Assumptions C38_decode_errors.

(** C39. Decoding panics exactly on well-formed messages in which a part is missing; it always ends. *)
Theorem C39_decode_partial : forall (T : Type) (N : Num T) (J : JsonLib T) (U : UtmLib T) (B : Bits64 T) (b : list byte),
  (DecodeTracker (T := T) b <> NoFuel /\ DecodeRoutes (T := T) b <> NoFuel /\ DecodeSensors (T := T) b <> NoFuel) /\
  (DecodeTracker (T := T) b = Panic <-> b <> [] /\ exists m, unmarshal d_Snapshot b = Some m /\ ~ complete_snapshot (T := T) (r_Snapshot m)) /\
  (DecodeRoutes (T := T) b = Panic <-> b <> [] /\ exists m, unmarshal d_Routes b = Some m /\
     ~ Forall complete_route (prs_routes (r_Routes (T := T) m))) /\
  (DecodeSensors (T := T) b = Panic <-> b <> [] /\ exists m, unmarshal d_Sensors b = Some m /\
     ~ Forall complete_sensor (pss_sensors (r_Sensors (T := T) m))).
Proof.
  intros T N J U B b. destruct (C39_tracker_proof (T := T) b) as [A1 A2]. destruct (C39_routes_proof (T := T) b) as [B1 B2].
  destruct (C39_sensors_proof (T := T) b) as [E1 E2]. exact (conj (conj A1 (conj B1 E1)) (conj A2 (conj B2 E2))).
Qed.
Print Assumptions C39_decode_partial.

(** Two bytes are enough: an empty device name, an empty sensor, a route whose track has an empty segment. *)
Theorem C39_refuted : forall (T : Type) (N : Num T) (J : JsonLib T) (U : UtmLib T) (B : Bits64 T),
  DecodeTracker (T := T) [0x0a; 0x00]%Z = Panic /\
  DecodeSensors (T := T) [0x0a; 0x00]%Z = Panic /\
  DecodeRoutes (T := T) [0x0a; 0x04; 0x22; 0x02; 0x12; 0x00]%Z = Panic.
Proof.
  intros. split; [reflexivity|]. split; reflexivity.
Qed.
Print Assumptions C39_refuted.

(** Examples *)

(** a JSON library with the assumed behaviour exists *)
Example C35_json : exists J : JsonLib f64, @json_law f64 (F64Num idMath) J.
Proof. exists (ExampleJson F64_bits_law). exact xj_law. Qed.

(** a moved device with two routes, properties and a sensor meets the premises of C36 *)
Example C36_applies : exists (N := F64Num idMath) (J := ExampleJson F64_bits_law) (U := xu) (B := F64Bits) (d : device f64) b d1,
  made_device d /\ EncodeTracker (Some d) = Ret (GOk b, Some d1) /\ go_sized d1 b /\ snapshot_is_complete d1 /\
  (2 <= zlen (n_routes (d_nav d1)))%Z /\ (1 <= zlen (d_sensors d1))%Z /\ (f0 <? n_cd (d_nav d1)) = true /\ d_status d1 = Stopped.
Proof. exact xd_example. Qed.

(** two routes, one with properties, meet the premises of C38 and C35; the routes decoded from the bytes *)
Definition ex_list : list (route f64) :=
  match ex_r1, ex_r2 with
  | Some r1, Some r2 => [run_route r1 (RSetProps (props_Set props_Make "kind" (GInt 7))); r2]
  | _, _ => []
  end.
Example C38_applies : exists (N := F64Num idMath) (J := ExampleJson F64_bits_law) (B := F64Bits),
  Forall made_route ex_list /\
  match EncodeRoutes ex_list with
  | GOk b => match DecodeRoutes b with
             | Ret (GOk [r1; r2]) =>
                 (rt_id r1 =? "r1")%string && (zlen (rt_tracks r1) =? 2)%Z && (rt_id r2 =? "r2")%string && (zlen (rt_tracks r2) =? 1)%Z &&
                 match rt_props r1 with
                 | Some p => match props_lookup p "kind" with Some (GFloat x) => feq x (f64_ofZ 7) | _ => false end
                 | None => false
                 end
             | _ => false
             end
  | GErr _ => false
  end = true.
Proof.
  hnf. split.
  - unfold ex_list, ex_r1, ex_r2, ex_route. constructor; [apply mr_used, made_from_tracks|]. constructor; [apply made_from_tracks|constructor].
  - vm_compute. reflexivity.
Qed.
