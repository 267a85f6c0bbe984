(** C87: saving what was loaded gives the same bytes. *)
From Verif.Model Require Import Base Num NumF64 Utf8 Geo Curve PropMap Types Pb TypesSnap Track Route Navigator Device Wire WireMsgs WireF64 IO.
From Verif.Spec Require Import ListSpec TrackSpec RouteSpec NavSpec TypesSpec DeviceSpec SnapSpec RestoreSpec ResaveSpec WireSpec WireMsgSpec DecodeSpec Examples.
From Verif.Proofs Require Import ResaveProofs ResaveExample RestoreRefute RestoreExample JsonExample WireF64Proofs.
Open Scope num_scope.

(** A device that does not skip offline periods, saved at any moment: loading succeeds, and saving the
    loaded device gives the same bytes. *)
Theorem C87_tracker_partial : forall (T : Type) (N : Num T) (J : JsonLib T) (U : UtmLib T) (B : Bits64 T),
  json_law T -> bits_law T -> forall (d d1 : device T) (b : list byte),
  made_device d -> EncodeTracker (Some d) = Ret (GOk b, Some d1) -> go_sized d1 b -> rewritable_device d1 ->
  n_skip (d_nav d1) = false ->
  exists d' d2, DecodeTracker b = Ret (GOk d') /\ EncodeTracker (Some d') = Ret (GOk b, Some d2).
Proof. exact @C87_tracker_proof. Qed.
Print Assumptions C87_tracker_partial.

(** In either mode the bytes stay the same from the second saving on. *)
Theorem C87_settles_partial : forall (T : Type) (N : Num T) (J : JsonLib T) (U : UtmLib T) (B : Bits64 T),
  json_law T -> bits_law T -> forall (d d1 : device T) (b : list byte),
  made_device d -> EncodeTracker (Some d) = Ret (GOk b, Some d1) -> go_sized d1 b -> rewritable_device d1 ->
  exists d' b' d2, DecodeTracker b = Ret (GOk d') /\ EncodeTracker (Some d') = Ret (GOk b', Some d2) /\
    ((zlen b' < 2 ^ 63)%Z -> exists d'' d3, DecodeTracker b' = Ret (GOk d'') /\ EncodeTracker (Some d'') = Ret (GOk b', Some d3)).
Proof. exact @C87_settles_proof. Qed.
Print Assumptions C87_settles_partial.

(** Lists of routes and of sensors. *)
Theorem C87_routes_partial : forall (T : Type) (N : Num T) (J : JsonLib T) (B : Bits64 T), json_law T -> bits_law T ->
  forall (rs : list (route T)) (b : list byte),
  Forall made_route rs -> Forall int64_route rs -> Forall rewritable_route rs -> EncodeRoutes rs = GOk b -> (zlen b < 2 ^ 63)%Z ->
  exists rs', DecodeRoutes b = Ret (GOk rs') /\ EncodeRoutes rs' = GOk b.
Proof. exact @C87_routes_proof. Qed.
Print Assumptions C87_routes_partial.
Theorem C87_sensors : forall (T : Type) (N : Num T) (B : Bits64 T), bits_law T ->
  forall (ss : list (sensor T)) (b : list byte), Forall int64_sensor ss -> EncodeSensors ss = GOk b -> (zlen b < 2 ^ 63)%Z ->
  exists ss', DecodeSensors b = Ret (GOk ss') /\ EncodeSensors ss' = GOk b.
Proof. exact @C87_sensors_proof. Qed.
Print Assumptions C87_sensors.

(** Properties JSON does not change are rewritten the same. *)
Theorem C87_plain_properties : forall (T : Type) (N : Num T) (J : JsonLib T), json_law T ->
  forall d : device T, json_same_device d -> rewritable_device d.
Proof. exact @same_rewritable. Qed.
Print Assumptions C87_plain_properties.

(** In skip-offline mode the first reload changes the bytes: an offline range 0..0 is loaded as 0..1. *)
Theorem C87_skip_offline_refuted : forall (m : MathLib) (J : JsonLib f64) (U : UtmLib f64) (N := F64Num m) (B := F64Bits),
  exists opts x d b d1 d' b' d2, do_skipOffline opts = true /\ built (Some opts) x d /\
    EncodeTracker (Some d) = Ret (GOk b, Some d1) /\ DecodeTracker b = Ret (GOk d') /\
    EncodeTracker (Some d') = Ret (GOk b', Some d2) /\ b' <> b.
Proof.
  intros m J U N B. destruct (skip_of m J U _ _ (skip_test_ok m J U)) as (d & b & d1 & d' & b' & d2 & H).
  exists (rf_opts m 1 2), (rf_draws m), d, b, d1, d', b', d2. split; [reflexivity|exact H].
Qed.
Print Assumptions C87_skip_offline_refuted.
(** A property JSON has no text for: the bytes first hold no text, then that of an empty map. *)
Theorem C87_unencodable_refuted : exists (N := F64Num idMath) (J := ExampleJson F64_bits_law) (U := xu) (B := F64Bits)
  x p d0 d b d1 d' b' d2, json_law f64 /\ json_unable p /\
    built None x d0 /\ run_devs d0 [DAddRoute [Some (run_route (NewRoute "r1" "#ff0000") (RSetProps p))]] = Ret d /\
    EncodeTracker (Some d) = Ret (GOk b, Some d1) /\ n_skip (d_nav d1) = false /\ DecodeTracker b = Ret (GOk d') /\
    EncodeTracker (Some d') = Ret (GOk b', Some d2) /\ b' <> b.
Proof.
  intros N J U B. destruct (bad_of _ _ bad_test_ok) as (d0 & d & b & d1 & d' & b' & d2 & H).
  exists xd_draws, (props_Set props_Make "f" GOther), d0, d, b, d1, d', b', d2. split; [exact xj_law|].
  split; [exists "f"%string, GOther; split; [reflexivity|constructor]|exact H].
Qed.
Print Assumptions C87_unencodable_refuted.

(** a moved device with two routes, a property and a sensor meets the premises *)
Example C87_applies : exists (N := F64Num idMath) (J := ExampleJson F64_bits_law) (U := xu) (B := F64Bits) (d : device f64) b d1,
  made_device d /\ EncodeTracker (Some d) = Ret (GOk b, Some d1) /\ go_sized d1 b /\ rewritable_device d1 /\
  n_skip (d_nav d1) = false /\
  (2 <= zlen (n_routes (d_nav d1)))%Z /\ (1 <= zlen (d_sensors d1))%Z /\ (f0 <? n_cd (d_nav d1)) = true.
Proof. exact (again_of _ _ xd_made again_test_ok). Qed.
