(** What users expect of the callbacks of a generator. *)
From Verif.Model Require Import Base Num Utf8 Pb Wire WireMsgs Generator Device IO Worker.
From Verif.Spec Require Import GenSpec GenConcSpec WireSpec WireMsgSpec.

Section S.
Context {T : Type} {B : Bits64 T}.
(** The packet fits into memory. *)
Definition fits (p : pbPacket T) : Prop := (zlen (raw_msg d_Packet (w_Packet p)) < 2 ^ 63)%Z.
(** OnPacket gets this packet: the bytes are decoded to it. The packet without devices at time 0 has no bytes. *)
Definition gets (p : pbPacket T) (r : list report) : Prop :=
  exists b, r = [ToOnPacket b] /\ (PacketFromBytes b = GOk p \/ (b = [] /\ p = mkPbPacket [] 0%Z)).
(** OnPacket gets bytes that are not a packet. *)
Definition gets_garbage (r : list report) : Prop :=
  exists b e, r = [ToOnPacket b] /\ PacketFromBytes (T := T) b = GErr e.
(** The devices somebody sees who decodes everything OnPacket gets, and drops what is not a packet. *)
Definition seen (rs : list report) : list (pbDevice T) :=
  flat_map (fun r => match r with
                     | ToOnPacket b => match PacketFromBytes b with GOk p => ppk_devices p | GErr _ => [] end
                     | ToOnError _ => []
                     end) rs.
Definition is_error (r : report) : Prop := match r with ToOnError _ => True | ToOnPacket _ => False end.
End S.
