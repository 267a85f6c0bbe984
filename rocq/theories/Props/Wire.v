(** C37: the protobuf encoding of snapshots, routes, sensors and packets. *)
From Coq Require Import Lia.
From Verif.Model Require Import Base Num NumF64 Utf8 Pb Types Track Route Navigator Device Wire WireMsgs WireF64 IO.
From Verif.Spec Require Import WireSpec WireMsgSpec.
From Verif.Proofs Require Import WireProofs WireMsgProofs WireF64Proofs WireTop.
Open Scope Z_scope.

(** C37. Snapshots, route lists, sensor lists: what is encoded is decoded, for every message whose
    integers are int64 and whose strings are UTF-8, and any float type with a bit representation. *)
Theorem C37_snapshot : forall (T : Type) (B : Bits64 T), bits_law T -> forall x : pbSnapshot T,
  int64_Snapshot x -> utf8_Snapshot x -> survives d_Snapshot w_Snapshot r_Snapshot x.
Proof. exact @C37_snapshot_proof. Qed.
Print Assumptions C37_snapshot.
Theorem C37_routes : forall (T : Type) (B : Bits64 T), bits_law T -> forall x : pbRoutes T,
  int64_Routes x -> utf8_Routes x -> survives d_Routes w_Routes r_Routes x.
Proof. exact @C37_routes_proof. Qed.
Print Assumptions C37_routes.
Theorem C37_sensors : forall (T : Type) (B : Bits64 T), bits_law T -> forall x : pbSensors T,
  int64_Sensors x -> utf8_Sensors x -> survives d_Sensors w_Sensors r_Sensors x.
Proof. exact @C37_sensors_proof. Qed.
Print Assumptions C37_sensors.

(** binary64 has such a bit representation *)
Theorem C37_float64_bits : @bits_law f64 F64Bits.
Proof. exact F64_bits_law. Qed.
Print Assumptions C37_float64_bits.

(** Packets, through the functions users call: what the generator marshals, PacketFromBytes returns.
    The empty packet with timestamp 0 is the only one with an empty encoding (which PacketFromBytes
    rejects), and marshalling fails exactly when some string is not UTF-8. *)
Theorem C37_packet : forall (T : Type) (B : Bits64 T), bits_law T -> forall p : pbPacket T, int64_Packet p ->
  (utf8_Packet p -> exists b, MarshalPacket p = GOk b /\ (zlen b < 2 ^ 63 ->
      (b <> [] -> PacketFromBytes b = GOk p) /\ (b = [] -> p = mkPbPacket [] 0))) /\
  (~ utf8_Packet p -> MarshalPacket p = GErr ErrUTF8).
Proof. exact @C37_packet_proof. Qed.
Print Assumptions C37_packet.

(** The other messages cannot be encoded either if some string is not UTF-8. *)
Theorem C37_not_utf8 : forall (T : Type) (B : Bits64 T) (x : pbSnapshot T) (rs : pbRoutes T) (ss : pbSensors T),
  (~ utf8_Snapshot x -> marshal d_Snapshot (w_Snapshot x) = None) /\
  (~ utf8_Routes rs -> marshal d_Routes (w_Routes rs) = None) /\
  (~ utf8_Sensors ss -> marshal d_Sensors (w_Sensors ss) = None).
Proof. exact @C37_not_utf8_proof. Qed.
Print Assumptions C37_not_utf8.

(** A field the schema does not know is ignored, wherever it is inserted between fields. *)
Theorem C37_unknown_fields : forall (d : desc) (b1 u b2 : list byte) (m1 : msg),
  unmarshal d b1 = Some m1 -> unknown_field d u -> unmarshal d (b1 ++ u ++ b2) = unmarshal d (b1 ++ b2).
Proof. exact C37_unknown_proof. Qed.
Print Assumptions C37_unknown_fields.

(** Examples: bytes computed by hand, a message with every kind of field, an unknown field. *)
Example C37_bytes :
  marshal d_Packet (w_Packet (T := f64) (B := F64Bits) (mkPbPacket [] 150)) = Some [16; 150; 1] /\
  marshal d_Packet (w_Packet (T := f64) (B := F64Bits) (mkPbPacket [] (-1))) =
    Some [16; 255; 255; 255; 255; 255; 255; 255; 255; 255; 1] /\
  marshal d_PointLatLon (w_PointLatLon (B := F64Bits) (mkPbPLL (f64_ofZ 1) (f64_ofZ 0))) =
    Some [9; 0; 0; 0; 0; 0; 0; 240; 63].
Proof. vm_compute. auto. Qed.

Definition ex_dtrack : pbDTrack f64 := mkPbDTrack "track-ü" (f64_ofZ 12) 3 "#fff" "{}" 0.
Definition ex_pdevice : pbDevice f64 :=
  mkPbDevice "id" "" (f64_ofZ 1) f64_nan "model" (f64_ofZ (-7)) None (Some (mkPbDBattery (f64_ofZ 99) (-5)))
    (Some (mkPbDRoutes [mkPbDRoute "r" [ex_dtrack; ex_dtrack] (f64_ofZ 1) "" "" 0])) None None
    [mkPbDSensor "s" "temp" (f64_ofZ 3) (f64_ofZ 4)] "" true 12 "" (f64_ofZ 0) None.
Example C37_example : exists b, MarshalPacket (B := F64Bits) (mkPbPacket [ex_pdevice] 1700000000) = GOk b /\
  PacketFromBytes (B := F64Bits) b = GOk (mkPbPacket [ex_pdevice] 1700000000) /\ 100 < zlen b.
Proof.
  destruct (C37_packet f64 F64Bits C37_float64_bits (mkPbPacket [ex_pdevice] 1700000000)) as [H _].
  - repeat first [split | constructor]; cbn; try lia.
  - destruct H as (b & E & D). { repeat first [split | constructor]. }
    exists b. split; [exact E|].
    assert (L : zlen b = 185). { vm_compute in E. injection E as <-. reflexivity. }
    split; [|lia]. apply D; [lia|]. intros ->. discriminate.
Qed.

Example C37_example_unknown :
  unknown_field d_Packet (enc_tag 9 2 ++ enc_bytes [1; 2; 3]) /\
  unmarshal d_Packet ([16; 150; 1] ++ (enc_tag 9 2 ++ enc_bytes [1; 2; 3]) ++ [16; 7]) = unmarshal d_Packet [16; 150; 1; 16; 7] /\
  unmarshal d_Packet [16; 150; 1; 16; 7] = Some [SR []; SI 7].
Proof.
  assert (U : unknown_field d_Packet (enc_tag 9 2 ++ enc_bytes [1; 2; 3])).
  { constructor; [lia|cbn; lia|constructor; vm_compute; reflexivity]. }
  split; [exact U|]. split; [|reflexivity].
  exact (C37_unknown_fields d_Packet [16; 150; 1] _ [16; 7] _ eq_refl U).
Qed.
