(** C75: packets, snapshots, route lists and sensor lists are the protobuf messages proto/*.proto declare. *)
From Coq Require Import Lia.
From Verif.Model Require Import Base Num NumF64 Utf8 Pb Types Track Route Navigator Device PropMap TypesSnap Wire WireMsgs WireF64 IO.
From Verif.Spec Require Import WireSpec WireMsgSpec DecodeSpec Utf8Spec ProtoSpec.
From Verif.Proofs Require Import Utf8Proofs ProtoProofs ProtoTop WireF64Proofs.
Open Scope string_scope.
Open Scope list_scope.
Open Scope Z_scope.

(** C75. PacketFromBytes accepts exactly the non-empty documents of message Packet, and returns what they mean. *)
Theorem C75_packet : forall (T : Type) (B : Bits64 T) (b : list Z) (p : pbPacket T), Forall is_byte b ->
  (PacketFromBytes b = GOk p <-> b <> [] /\ exists t, doc "Packet" t b /\ p = Packet_of t).
Proof. exact @C75_packet_proof. Qed.
Print Assumptions C75_packet.

(** What the generator marshals is a document of message Packet that means the packet. *)
Theorem C75_marshal_packet : forall (T : Type) (B : Bits64 T), bits_law T -> forall (p : pbPacket T) (b : list Z),
  int64_Packet p -> MarshalPacket p = GOk b -> zlen b < 2 ^ 63 ->
  Forall is_byte b /\ exists t, doc "Packet" t b /\ Packet_of t = p.
Proof. exact @C75_marshal_packet_proof. Qed.
Print Assumptions C75_marshal_packet.

(** A device's MarshalBinary gives a document of message Snapshot that means its snapshot. *)
Theorem C75_marshal_device : forall (T : Type) (B : Bits64 T), bits_law T -> forall (N : Num T) (J : JsonLib T) (U : UtmLib T)
    (d : device T) (x : pbSnapshot T) (b : list Z),
  device_Snapshot d = Ret x -> int64_Snapshot x -> MarshalBinary d = Ret (GOk b) -> zlen b < 2 ^ 63 ->
  Forall is_byte b /\ exists t, doc "Snapshot" t b /\ Snapshot_of t = x.
Proof. intros T B HB N J U. exact (C75_marshal_device_proof HB). Qed.
Print Assumptions C75_marshal_device.

(** EncodeRoutes and EncodeSensors give documents of messages Snapshot.Navigator.Routes and Snapshot.Sensors. *)
Theorem C75_encode_routes : forall (T : Type) (B : Bits64 T), bits_law T -> forall (N : Num T) (J : JsonLib T) (rs : list (route T)) (b : list Z),
  Forall int64_route rs -> EncodeRoutes rs = GOk b -> zlen b < 2 ^ 63 ->
  Forall is_byte b /\ exists t, doc "Snapshot.Navigator.Routes" t b /\ prs_routes (Routes_of t) = map route_Snapshot rs.
Proof. intros T B HB N J. exact (C75_encode_routes_proof HB). Qed.
Print Assumptions C75_encode_routes.
Theorem C75_encode_sensors : forall (T : Type) (B : Bits64 T), bits_law T -> forall (ss : list (sensor T)) (b : list Z),
  Forall int64_sensor ss -> EncodeSensors ss = GOk b -> zlen b < 2 ^ 63 ->
  Forall is_byte b /\ exists t, doc "Snapshot.Sensors" t b /\ pss_sensors (Sensors_of t) = map sensor_Snapshot ss.
Proof. intros T B HB. exact (C75_encode_sensors_proof HB). Qed.
Print Assumptions C75_encode_sensors.

(** The decoders return an error for bytes that are no document, and otherwise restore what the document means (which may
    still panic: C39). *)
Theorem C75_decode : forall (T : Type) (B : Bits64 T) (N : Num T) (J : JsonLib T) (U : UtmLib T) (b : list Z), Forall is_byte b -> b <> [] ->
  (((~ exists t, doc "Snapshot" t b) -> DecodeTracker b = Ret (GErr ErrWire)) /\
   (forall t, doc "Snapshot" t b ->
      DecodeTracker b = let* d := device_FromSnapshot device_zero (Snapshot_of t) in let* d := device_Update d in Ret (GOk d))) /\
  (((~ exists t, doc "Snapshot.Navigator.Routes" t b) -> DecodeRoutes (T := T) b = Ret (GErr ErrWire)) /\
   (forall t, doc "Snapshot.Navigator.Routes" t b ->
      DecodeRoutes b = let* l := mapM (fun r => let* er := RouteFromSnapshot route_zero r in Ret (snd er)) (prs_routes (Routes_of t)) in Ret (GOk l))) /\
  (((~ exists t, doc "Snapshot.Sensors" t b) -> DecodeSensors (T := T) b = Ret (GErr ErrWire)) /\
   (forall t, doc "Snapshot.Sensors" t b ->
      DecodeSensors b = let* l := mapM (fun s => sensor_FromSnapshot (Some s)) (pss_sensors (Sensors_of t)) in Ret (GOk l))).
Proof.
  intros T B N J U b Hb Hn. split; [|split];
  [exact (C75_decode_tracker_proof b Hb Hn)|exact (C75_decode_routes_proof b Hb Hn)|exact (C75_decode_sensors_proof b Hb Hn)].
Qed.
Print Assumptions C75_decode.

(** Text is UTF-8 in the sense of RFC 3629. *)
Theorem C75_utf8 : forall s : string, utf8_valid s = true <-> utf8_text (bytes_of s).
Proof. exact C75_utf8_proof. Qed.
Print Assumptions C75_utf8.

(** Examples: timestamp 7 (in two bytes), an unknown group, a device "a", an unknown fixed32, a timestamp of the wrong wire
    type, then timestamp 150; a truncated one; surrogates and overlong forms. *)
Definition ex_doc : list Z := [16; 135; 0; 123; 8; 1; 124; 10; 3; 10; 1; 97; 45; 1; 2; 3; 4; 18; 1; 0; 16; 150; 1].
Example C75_example : exists t, doc "Packet" t ex_doc /\
  t = [("timestamp", VInt 7); ("devices", VMessage [("id", VText "a")]); ("timestamp", VInt 150)] /\
  exists p : pbPacket f64, PacketFromBytes (B := F64Bits) ex_doc = GOk p /\ p = Packet_of (B := F64Bits) t /\
    map (fun d => pde_id d) (ppk_devices p) = ["a"] /\ ppk_timestamp p = 150.
Proof.
  assert (D : doc "Packet" [("timestamp", VInt 7); ("devices", VMessage [("id", VText "a")]); ("timestamp", VInt 150)] ex_doc).
  { assert (U : forall n, 0 <= n < 128 -> uint64 n [n]) by (intros n Hn; split; [constructor; lia|split; [cbn; lia|lia]]).
    apply (doc_scalar "Packet" "timestamp" 2 PInt64 (VInt (signed 7)) 0 [16] [135; 0]); [cbn; auto| | |].
    { constructor. split; [apply (vi_more 135 0 [0]); [lia|constructor; lia]|split; [cbn; lia|lia]]. }
    { split; [lia|]. split; [lia|]. apply U. lia. }
    apply (doc_unknown "Packet" 15 3 [123] [8; 1; 124]).
    { intros f ty H. cbn in H. intuition congruence. }
    { split; [lia|]. split; [lia|]. apply U. lia. }
    { unfold group_limit. change 10001 with (Z.succ 10000). rewrite Z2Nat.inj_succ by lia. constructor.
      apply (gr_field _ 15 1 0 [8] [1] [124]); [lia|split; [lia|split; [lia|apply U; lia]]|econstructor; apply U; lia|].
      constructor. split; [lia|]. split; [lia|]. apply U. lia. }
    apply (doc_message "Packet" "devices" 1 (PRepeated "Device") "Device" [("id", VText "a")] [10; 1; 97] [3] [10]).
    { cbn. auto. } { auto. }
    { apply (doc_scalar "Device" "id" 1 PString (VText (text [97])) 2 [10] ([1] ++ [97]) [] []).
      - cbn. auto.
      - constructor; [apply U; cbn; lia|]. exists [97]. split; [constructor; [left; lia|constructor]|reflexivity].
      - split; [lia|]. split; [lia|]. apply U. lia.
      - constructor. }
    { split; [lia|]. split; [lia|]. apply U. lia. }
    { apply U. cbn. lia. }
    apply (doc_unknown "Packet" 5 5 [45] [1; 2; 3; 4]).
    { intros f ty H. cbn in H. intuition congruence. }
    { split; [lia|]. split; [lia|]. apply U. lia. }
    { constructor. reflexivity. }
    apply (doc_unknown "Packet" 2 2 [18] ([1] ++ [0])).
    { intros f ty H. cbn in H. destruct H as [H|[H|[]]]; inversion H; subst; cbn; lia. }
    { split; [lia|]. split; [lia|]. apply U. lia. }
    { constructor. apply U. cbn. lia. }
    apply (doc_scalar "Packet" "timestamp" 2 PInt64 (VInt (signed 150)) 0 [16] [150; 1] [] []); [cbn; auto| | |constructor].
    { constructor. split; [apply (vi_more 150 1 [1]); [lia|constructor; lia]|split; [cbn; lia|lia]]. }
    split; [lia|]. split; [lia|]. apply U. lia. }
  eexists. split; [exact D|]. split; [reflexivity|].
  eexists. split; [|split; [reflexivity|split; vm_compute; reflexivity]].
  apply C75_packet; [repeat (constructor; [unfold is_byte; lia|]); constructor|]. split; [discriminate|]. eexists. split; [exact D|reflexivity].
Qed.
Example C75_rejected : ~ exists t, doc "Packet" t [10; 3; 10; 1].
Proof.
  intros (t & D). assert (E : PacketFromBytes (T := f64) (B := F64Bits) [10; 3; 10; 1] = GOk (Packet_of (B := F64Bits) t)).
  { apply C75_packet; [repeat (constructor; [unfold is_byte; lia|]); constructor|]. split; [discriminate|]. exists t. split; [exact D|reflexivity]. }
  assert (N : PacketFromBytes (T := f64) (B := F64Bits) [10; 3; 10; 1] = GErr ErrWire) by (vm_compute; reflexivity).
  rewrite N in E. discriminate.
Qed.
Example C75_utf8_example : utf8_text [226; 130; 172; 240; 159; 152; 128] /\ ~ utf8_text [237; 160; 128] /\ ~ utf8_text [192; 128].
Proof.
  split; [exists [8364; 128512]; split; [|reflexivity]; constructor; [left; lia|constructor; [right; lia|constructor]]|].
  assert (H : forall l s, bytes_of s = l -> utf8_valid s = false -> ~ utf8_text l) by (intros l s <- E Ht; apply C75_utf8 in Ht; congruence).
  split; [apply (H _ (string_of_bytes [237; 160; 128]))|apply (H _ (string_of_bytes [192; 128]))]; reflexivity.
Qed.
