(** What users expect of packets while the devices in them are used by other goroutines. *)
From Verif.Model Require Import Base Num Geo Curve PropMap Types Pb TypesSnap Track Route Navigator Device Wire WireMsgs IO Mutex DeviceConc PacketConc.
From Verif.Spec Require Import NavSpec TypesSpec DeviceSpec MutexSpec DeviceConcSpec.

Section S.
Context {T : Type} {N : Num T} {J : JsonLib T} {U : UtmLib T} {B : Bits64 T}.

(** A goroutine serialises a packet with the device, or calls a method of the device. *)
Inductive pcall : Type :=
| PPacket (before after : list (pbDevice T)) (ts : Z)
| PCall (c : dev_call T).
Definition pcall_prog (c : pcall) : dprog T :=
  match c with PPacket b a ts => Packet_prog b a ts | PCall c => call_prog c end.

(** Calls that do not change the message State() returns. *)
Definition keeps_state (c : pcall) : Prop :=
  match c with
  | PPacket _ _ _ => True
  | PCall (CNext _ _) => False
  | PCall (CChange o) => forall d d', run_dev d o = Ret d' -> d_state d' = d_state d
  | PCall (CQuery _) => True
  end.

(** the packet of these devices, with [d] between them *)
Definition packet_of (before after : list (pbDevice T)) (ts : Z) (d : device T) : pbPacket T :=
  mkPbPacket (before ++ d_state d :: after) ts.

(** user and description of the only device of a packet *)
Definition read_entry (v : dval T) : option (string * string) :=
  match v with
  | VPacket (GOk b) => match PacketFromBytes b with
                       | GOk (mkPbPacket [e] _) => Some (pde_user_id e, pde_description e)
                       | _ => None
                       end
  | _ => None
  end.
(** bytes that were handed to OnPacket, and that PacketFromBytes does not accept *)
Definition unreadable (v : dval T) : Prop :=
  match v with VPacket (GOk b) => exists e, PacketFromBytes (T := T) b = GErr e | _ => False end.
End S.
Arguments pcall : clear implicits.
