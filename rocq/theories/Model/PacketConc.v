(** A worker of the generator that serialises a packet while other goroutines use one of the devices in it.

    The run loop puts the pointer State() returns into the packet (generator.go 238) and a worker marshals the packet
    (generator.go 292-296) without taking the device's lock. proto.MarshalOptions.MarshalAppend
    (google.golang.org/protobuf v1.30.0: proto/encode.go, marshal; internal/impl/encode.go, sizePointer and
    marshalAppendPointer; internal/impl/codec_field.go, appendMessageSliceInfo) first goes through the packet to find the
    sizes, keeps the size of every message, and then writes the fields in the order of their numbers, with the sizes it kept.

    Simplifications: the other devices of the packet are used by nobody ([before], [after]); the sizes are found in one
    look, and a device with a string that is not UTF-8 counts as empty there; the messages inside the entry are written
    with their sizes at the time they are written; the run loop and the worker are one program (that they take turns
    is C52). *)
From Verif.Model Require Import Base Num Geo Curve PropMap Pb Types TypesSnap Track Route Navigator Device Wire WireMsgs IO Mutex DeviceConc.

Section PacketConc.
Context {T : Type} {N : Num T} {J : JsonLib T} {U : UtmLib T} {B : Bits64 T}.

(** the size of a device message (sizePointer) *)
Definition entry_size (e : pbDevice T) : Z := match enc_msg d_Device (w_Device e) with Some b => zlen b | None => 0 end.

(** proto/gpsgen.proto 127-130: message Packet; [n] is the size that was kept for the entry [e] *)
Definition packet_bytes (before after : list (pbDevice T)) (ts : Z) (n : Z) (e : pbDevice T) : goret (list byte) :=
  match opt_app (enc_slot (KRep d_Device) 1 (SR (map w_Device before)))
       (opt_app (option_map (fun b => enc_tag 1 2 ++ enc_varint n ++ b) (enc_msg d_Device (w_Device e)))
       (opt_app (enc_slot (KRep d_Device) 1 (SR (map w_Device after))) (enc_slot KInt 2 (SI ts)))) with
  | Some b => GOk b
  | None => GErr ErrUTF8
  end.

(** generator.go 236-239 (State: device.go 369-373), then 287-302 *)
Definition Packet_prog (before after : list (pbDevice T)) (ts : Z) : dprog T :=
  RLock (RUnlock (
  look (fun d => let n := entry_size (d_state d) in
  look (fun d => let id := pde_id (d_state d) in
  look (fun d => let user := pde_user_id (d_state d) in
  look (fun d => let tick := pde_tick (d_state d) in
  look (fun d => let duration := pde_duration (d_state d) in
  look (fun d => let model := pde_model (d_state d) in
  look (fun d => let speed := pde_speed (d_state d) in
  look (fun d => let distance := pde_distance (d_state d) in
  look (fun d => let battery := pde_battery (d_state d) in
  look (fun d => let routes := pde_routes (d_state d) in
  look (fun d => let location := pde_location (d_state d) in
  look (fun d => let navigator := pde_navigator (d_state d) in
  look (fun d => let sensors := pde_sensors (d_state d) in
  look (fun d => let description := pde_description (d_state d) in
  look (fun d => let offline := pde_is_offline (d_state d) in
  look (fun d => let offline_duration := pde_offline_duration (d_state d) in
  look (fun d => let color := pde_color (d_state d) in
  look (fun d => let estimate := pde_time_estimate (d_state d) in
  look (fun d => let units := pde_units (d_state d) in
  Return (VPacket (packet_bytes before after ts n
    (mkPbDevice id user tick duration model speed distance battery routes location navigator sensors description
       offline offline_duration color estimate units)))))))))))))))))))))))).
End PacketConc.
