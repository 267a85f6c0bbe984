(** Model of io.go, encoding.go and device.go 695-715: the binary entry points.

    A returned error is [GErr]; a decoder that panics instead of returning is [Panic]. *)
From Verif.Model Require Import Base Num Curve PropMap Pb Types TypesSnap Track Route Navigator Device Wire WireMsgs.

Section IO.
Context {T : Type} {N : Num T} {J : JsonLib T} {U : UtmLib T} {B : Bits64 T}.

(** proto.Marshal: the only possible error is a string field that is not valid UTF-8 *)
Definition to_bytes (d : desc) (m : msg) : goret (list byte) :=
  match marshal d m with Some b => GOk b | None => GErr ErrUTF8 end.

(** device.go 697-700 *)
Definition MarshalBinary (d : device T) : res (goret (list byte)) :=
  let* snap := device_Snapshot d in
  Ret (to_bytes d_Snapshot (w_Snapshot snap)).

(** device.go 705-715; [d] is the receiver *)
Definition UnmarshalBinary (d : device T) (data : list byte) : res (goret (device T)) :=
  match data with
  | [] => Ret (GErr ErrNoData)
  | _ =>
      match unmarshal d_Snapshot data with
      | None => Ret (GErr ErrWire)
      | Some m => let* d' := device_FromSnapshot d (r_Snapshot m) in Ret (GOk d')
      end
  end.

(** io.go 15-21; also returns the updated device (t.Update()) *)
Definition EncodeTracker (t : option (device T)) : res (goret (list byte) * option (device T)) :=
  match t with
  | None => Ret (GOk [], None)
  | Some d =>
      let* d := device_Update d in
      let* b := MarshalBinary d in
      Ret (b, Some d)
  end.

(** io.go 24-34 *)
Definition DecodeTracker (data : list byte) : res (goret (device T)) :=
  match data with
  | [] => Ret (GErr ErrNoData)
  | _ =>
      let* r := UnmarshalBinary device_zero data in
      match r with
      | GErr e => Ret (GErr e)
      | GOk d => let* d := device_Update d in Ret (GOk d)
      end
  end.

(** io.go 37-48 *)
Definition EncodeSensors (sensors : list (sensor T)) : goret (list byte) :=
  match sensors with
  | [] => GErr ErrNoData
  | _ => to_bytes d_Sensors (w_Sensors (mkPbSensors (map sensor_Snapshot sensors)))
  end.

(** io.go 51-66 *)
Definition DecodeSensors (data : list byte) : res (goret (list (sensor T))) :=
  match data with
  | [] => Ret (GErr ErrNoData)
  | _ =>
      match unmarshal d_Sensors data with
      | None => Ret (GErr ErrWire)
      | Some m =>
          let* l := mapM (fun s => sensor_FromSnapshot (Some s)) (pss_sensors (r_Sensors m)) in
          Ret (GOk l)
      end
  end.

(** io.go 69-80 *)
Definition EncodeRoutes (routes : list (route T)) : goret (list byte) :=
  match routes with
  | [] => GErr ErrNoData
  | _ => to_bytes d_Routes (w_Routes (mkPbRoutes (map route_Snapshot routes)))
  end.

(** io.go 83-98; the error of RouteFromSnapshot is ignored (line 94) *)
Definition DecodeRoutes (data : list byte) : res (goret (list (route T))) :=
  match data with
  | [] => Ret (GErr ErrNoData)
  | _ =>
      match unmarshal d_Routes data with
      | None => Ret (GErr ErrWire)
      | Some m =>
          let* l := mapM (fun r => let* er := RouteFromSnapshot route_zero r in Ret (snd er))
                         (prs_routes (r_Routes m)) in
          Ret (GOk l)
      end
  end.

(** encoding.go 12-21 *)
Definition PacketFromBytes (data : list byte) : goret (pbPacket T) :=
  match data with
  | [] => GErr ErrNoData
  | _ =>
      match unmarshal d_Packet data with
      | None => GErr ErrWire
      | Some m => GOk (r_Packet m)
      end
  end.

(** generator.go 257: proto.Marshal(&packet) for a packet without nil devices *)
Definition MarshalPacket (p : pbPacket T) : goret (list byte) := to_bytes d_Packet (w_Packet p).

End IO.
