(** C37: the statements for whole messages. *)
From Coq Require Import Lia.
From Verif.Model Require Import Base Num Utf8 Pb Types Track Route Navigator Device Wire WireMsgs IO.
From Verif.Spec Require Import WireSpec WireMsgSpec.
From Verif.Proofs Require Import BaseLemmas WireProofs WireMsgProofs.
Open Scope Z_scope.

Section Top.
Context {T : Type} {B : Bits64 T} (HB : bits_law T).

Lemma survives_of {A} d (w : A -> msg) r x : desc_wf d -> msg_ok d (w x) -> r (w x) = x -> survives d w r x.
Proof.
  intros W H E. destruct (C37_proof d (w x) W H) as (b & Eb & D). exists b. split; [exact Eb|].
  intros Hz. rewrite D by exact Hz. cbn. now rewrite E.
Qed.

Lemma C37_snapshot_proof (x : pbSnapshot T) : int64_Snapshot x -> utf8_Snapshot x -> survives d_Snapshot w_Snapshot r_Snapshot x.
Proof. intros H1 H2. apply survives_of; [apply wf_Snapshot|apply ok_Snapshot; auto|now apply rw_Snapshot]. Qed.
Lemma C37_routes_proof (x : pbRoutes T) : int64_Routes x -> utf8_Routes x -> survives d_Routes w_Routes r_Routes x.
Proof. intros H1 H2. apply survives_of; [apply wf_Routes|apply ok_Routes; auto|now apply rw_Routes]. Qed.
Lemma C37_sensors_proof (x : pbSensors T) : int64_Sensors x -> utf8_Sensors x -> survives d_Sensors w_Sensors r_Sensors x.
Proof. intros H1 H2. apply survives_of; [apply wf_Sensors|apply ok_Sensors; auto|now apply rw_Sensors]. Qed.
Lemma C37_packet_msg (x : pbPacket T) : int64_Packet x -> utf8_Packet x -> survives d_Packet w_Packet r_Packet x.
Proof. intros H1 H2. apply survives_of; [apply wf_Packet|apply ok_Packet; auto|now apply rw_Packet]. Qed.

Lemma C37_packet_proof (p : pbPacket T) : int64_Packet p ->
  (utf8_Packet p -> exists b, MarshalPacket p = GOk b /\ (zlen b < 2 ^ 63 ->
      (b <> [] -> PacketFromBytes b = GOk p) /\ (b = [] -> p = mkPbPacket [] 0))) /\
  (~ utf8_Packet p -> MarshalPacket p = GErr ErrUTF8).
Proof.
  intros Hi. split.
  - intros Hu. destruct (C37_packet_msg p Hi Hu) as (b & E & D). exists b. unfold MarshalPacket, to_bytes. rewrite E.
    split; [reflexivity|]. intros Hz. specialize (D Hz). unfold PacketFromBytes. split.
    + intros Hb. destruct b as [|b0 b]; [congruence|]. destruct (unmarshal d_Packet (b0 :: b)); cbn in D; congruence.
    + intros ->. cbn in D. unfold r_Packet, fld in D. cbn in D. congruence.
  - intros Hu. unfold MarshalPacket, to_bytes. destruct (marshal d_Packet (w_Packet p)) eqn:E; [|reflexivity].
    exfalso. apply Hu. apply utf_Packet. eapply enc_utf8; exact E.
Qed.

Lemma C37_not_utf8_proof (x : pbSnapshot T) (rs : pbRoutes T) (ss : pbSensors T) :
  (~ utf8_Snapshot x -> marshal d_Snapshot (w_Snapshot x) = None) /\
  (~ utf8_Routes rs -> marshal d_Routes (w_Routes rs) = None) /\
  (~ utf8_Sensors ss -> marshal d_Sensors (w_Sensors ss) = None).
Proof.
  repeat split; intros Hu.
  - destruct (marshal d_Snapshot (w_Snapshot x)) eqn:E; [|reflexivity]. exfalso. apply Hu, utf_Snapshot. eapply enc_utf8; exact E.
  - destruct (marshal d_Routes (w_Routes rs)) eqn:E; [|reflexivity]. exfalso. apply Hu, utf_Routes. eapply enc_utf8; exact E.
  - destruct (marshal d_Sensors (w_Sensors ss)) eqn:E; [|reflexivity]. exfalso. apply Hu, utf_Sensors. eapply enc_utf8; exact E.
Qed.
End Top.
