(** What a worker of the generator does with a packet: the bytes MarshalAppend leaves behind, also when it fails, and which
    callback gets what. *)
From Verif.Model Require Import Base Num Utf8 Pb Wire WireMsgs Generator.

(** The size of a field or message is the length of its encoding when strings are not looked at
    (google.golang.org/protobuf v1.30.0, internal/impl/encode.go, sizePointer; codec_field.go, sizeMessageInfo). *)
Fixpoint raw_slot (k : kind) (num : Z) (s : slot) {struct k} : list byte :=
  let raw_fields := fix raw_fields (d : list (Z * kind)) (m : list slot) {struct d} : list byte :=
    match d, m with
    | (num, k) :: d', s :: m' => raw_slot k num s ++ raw_fields d' m'
    | _, _ => []
    end in
  match k, s with
  | KDouble, SF bits => if (bits =? 0)%Z then [] else enc_tag num 1 ++ le_enc 8 bits
  | KInt, SI z => if (z =? 0)%Z then [] else enc_tag num 0 ++ enc_varint (u64 z)
  | KBool, SB b => if b then enc_tag num 0 ++ [1%Z] else []
  | KStr, SS s | KBytes, SS s => if (slen s =? 0)%Z then [] else enc_tag num 2 ++ enc_bytes (bytes_of s)
  | KMsg d, SM (Some m) => enc_tag num 2 ++ enc_bytes (raw_fields d m)
  | KRep d, SR l => flat_map (fun m => enc_tag num 2 ++ enc_bytes (raw_fields d m)) l
  | _, _ => []
  end.
Fixpoint raw_msg (d : desc) (m : msg) : list byte :=
  match d, m with
  | (num, k) :: d', s :: m' => raw_slot k num s ++ raw_msg d' m'
  | _, _ => []
  end.

(** [b] was written; go on with [rest] unless that failed *)
Definition and_then (p rest : list byte * bool) : list byte * bool :=
  if snd p then (fst p ++ fst rest, snd rest) else p.
(** a message inside of a message: tag, size, and what was written of it *)
Definition nested (num size : Z) (p : list byte * bool) : list byte * bool := (enc_tag num 2 ++ enc_varint size ++ fst p, snd p).

(** What is in the buffer when the encoder returns, and whether it went through: it returns at the first string that is not
    UTF-8, which it has already written (internal/impl/encode.go, marshalAppendPointer; codec_field.go, appendMessageInfo,
    appendMessageSliceInfo; codec_gen.go, appendStringNoZeroValidateUTF8). *)
Fixpoint part_slot (k : kind) (num : Z) (s : slot) {struct k} : list byte * bool :=
  let part_fields := fix part_fields (d : list (Z * kind)) (m : list slot) {struct d} : list byte * bool :=
    match d, m with
    | (num, k) :: d', s :: m' => and_then (part_slot k num s) (part_fields d' m')
    | _, _ => ([], true)
    end in
  match k, s with
  | KStr, SS t => (raw_slot k num s, utf8_valid t)
  | KMsg d, SM (Some m) => nested num (zlen (raw_msg d m)) (part_fields d m)
  | KRep d, SR l => fold_right (fun m rest => and_then (nested num (zlen (raw_msg d m)) (part_fields d m)) rest) ([], true) l
  | _, _ => (raw_slot k num s, true)
  end.
Fixpoint part_msg (d : desc) (m : msg) : list byte * bool :=
  match d, m with
  | (num, k) :: d', s :: m' => and_then (part_slot k num s) (part_msg d' m')
  | _, _ => ([], true)
  end.

Section Worker.
Context {T : Type} {B : Bits64 T}.

(** A call of one of the callbacks. *)
Inductive report : Type := ToOnError (e : goerr) | ToOnPacket (data : list byte).

(** generator.go 294-302; [has_error], [has_packet]: OnError and OnPacket were given a function. *)
Definition deliver (has_error has_packet : bool) (p : pbPacket T) : list report :=
  let '(data, ok) := part_msg d_Packet (w_Packet p) in
  if negb ok && has_error then [ToOnError ErrUTF8]
  else if has_packet then [ToOnPacket data]
  else [].

(** The reports of the packets [ls], which are made at the times [stamp i], [stamp (i + 1)], ... (generator.go 288-302; the
    workers run side by side, so users see these calls in any order). *)
Fixpoint reports (has_error has_packet : bool) (stamp : nat -> Z) (i : nat) (ls : list (list (pbDevice T))) : list report :=
  match ls with
  | [] => []
  | l :: r => deliver has_error has_packet (mkPbPacket l (stamp i)) ++ reports has_error has_packet stamp (S i) r
  end.
(** a tick of a generator whose devices have these states (generator.go 209-251) *)
Definition tick_reports (has_error has_packet : bool) (c : genConf) (states : list (pbDevice T)) (stamp : nat -> Z) : list report :=
  reports has_error has_packet stamp 0 (tick_packets c states).
End Worker.
