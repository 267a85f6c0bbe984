(** The protobuf wire format as implemented by google.golang.org/protobuf v1.30.0 for the field
    kinds used in proto/*.proto (double, int64, bool, string, bytes, message, repeated message).

    proto/snapshot.pb.go and proto/gpsgen.pb.go are generated tables for this library, so what is
    modelled here is the library's codec driven by message descriptors. Bytes are [list Z] with
    elements in 0..255. Unknown fields are skipped (the library keeps them aside in an unexported
    field go-gpsgen never looks at). *)
From Verif.Model Require Import Base Utf8.

Definition byte : Type := Z.

(** ** Varints (protowire.AppendVarint / ConsumeVarint) *)

Fixpoint varint_enc (fuel : nat) (n : Z) : list byte :=
  match fuel with
  | O => []
  | S f => if (n <? 128)%Z then [n] else ((n mod 128) + 128)%Z :: varint_enc f (n / 128)%Z
  end.
(** at most ten bytes for a uint64 *)
Definition enc_varint (n : Z) : list byte := varint_enc 10 n.

(** [i] = number of bytes consumed so far; the tenth byte may only be 0 or 1 *)
Fixpoint varint_dec (fuel : nat) (l : list byte) : option (Z * list byte) :=
  match fuel with
  | O => None
  | S f =>
      match l with
      | [] => None
      | b :: r =>
          if (b <? 128)%Z then
            if (Nat.eqb f 0) && (1 <? b)%Z then None else Some (b, r)
          else match varint_dec f r with
               | Some (n, r') => Some ((b - 128) + 128 * n, r')%Z
               | None => None
               end
      end
  end.
Definition dec_varint (l : list byte) : option (Z * list byte) := varint_dec 10 l.

(** ** Fixed64, little endian *)
Fixpoint le_enc (k : nat) (n : Z) : list byte :=
  match k with O => [] | S k' => (n mod 256)%Z :: le_enc k' (n / 256)%Z end.
Fixpoint le_dec (k : nat) (l : list byte) : option (Z * list byte) :=
  match k with
  | O => Some (0%Z, l)
  | S k' =>
      match l with
      | [] => None
      | b :: r => match le_dec k' r with
                  | Some (n, r') => Some (b + 256 * n, r')%Z
                  | None => None
                  end
      end
  end.

(** ** Messages *)

(** Field kinds; a message descriptor is the list of its fields in ascending number order. *)
Inductive kind : Type :=
| KDouble | KInt | KBool | KStr | KBytes
| KMsg (d : list (Z * kind))
| KRep (d : list (Z * kind)).
Definition desc : Type := list (Z * kind).

(** Field values: the bit pattern of a double, an int64, ... A message value is the list of its
    slots in descriptor order. *)
Inductive slot : Type :=
| SF (bits : Z) | SI (z : Z) | SB (b : bool) | SS (s : string)
| SM (m : option (list slot))
| SR (l : list (list slot)).
Definition msg : Type := list slot.

(** The value of an unset field. *)
Definition zero_slot (k : kind) : slot :=
  match k with
  | KDouble => SF 0 | KInt => SI 0 | KBool => SB false | KStr | KBytes => SS ""
  | KMsg _ => SM None | KRep _ => SR []
  end.
Definition zero_msg (d : desc) : msg := map (fun f => zero_slot (snd f)) d.

Definition string_of_bytes (l : list byte) : string :=
  string_of_list_ascii (map (fun b => Ascii.ascii_of_nat (Z.to_nat b)) l).

Definition enc_tag (num wt : Z) : list byte := enc_varint (num * 8 + wt).
Definition enc_bytes (l : list byte) : list byte := enc_varint (zlen l) ++ l.

(** uint64(int64) *)
Definition u64 (z : Z) : Z := (z mod 2 ^ 64)%Z.
(** int64(uint64) *)
Definition i64 (n : Z) : Z := if (n <? 2 ^ 63)%Z then n else (n - 2 ^ 64)%Z.

(** ** Marshal: [None] is the error "string field contains invalid UTF-8" *)
Definition opt_app (a b : option (list byte)) : option (list byte) :=
  match a, b with Some x, Some y => Some (x ++ y) | _, _ => None end.

Fixpoint enc_slot (k : kind) (num : Z) (s : slot) {struct k} : option (list byte) :=
  let enc_fields := fix enc_fields (d : list (Z * kind)) (m : list slot) {struct d}
      : option (list byte) :=
    match d, m with
    | (num, k) :: d', s :: m' => opt_app (enc_slot k num s) (enc_fields d' m')
    | _, _ => Some []
    end in
  match k, s with
  | KDouble, SF bits => Some (if (bits =? 0)%Z then [] else enc_tag num 1 ++ le_enc 8 bits)
  | KInt, SI z => Some (if (z =? 0)%Z then [] else enc_tag num 0 ++ enc_varint (u64 z))
  | KBool, SB b => Some (if b then enc_tag num 0 ++ [1%Z] else [])
  | KStr, SS s => if utf8_valid s
                  then Some (if (slen s =? 0)%Z then [] else enc_tag num 2 ++ enc_bytes (bytes_of s))
                  else None
  | KBytes, SS s => Some (if (slen s =? 0)%Z then [] else enc_tag num 2 ++ enc_bytes (bytes_of s))
  | KMsg d, SM None => Some []
  | KMsg d, SM (Some m) =>
      match enc_fields d m with
      | Some b => Some (enc_tag num 2 ++ enc_bytes b)
      | None => None
      end
  | KRep d, SR l =>
      fold_right (fun m acc =>
        opt_app (match enc_fields d m with
                 | Some b => Some (enc_tag num 2 ++ enc_bytes b)
                 | None => None
                 end) acc) (Some []) l
  | _, _ => Some []
  end.

Fixpoint enc_msg (d : desc) (m : msg) : option (list byte) :=
  match d, m with
  | (num, k) :: d', s :: m' => opt_app (enc_slot k num s) (enc_msg d' m')
  | _, _ => Some []
  end.

(** ** Unmarshal *)

(** Split off a length-delimited value. *)
Definition dec_bytes (l : list byte) : option (list byte * list byte) :=
  match dec_varint l with
  | None => None
  | Some (n, r) => if (zlen r <? n)%Z then None
                   else Some (firstn (Z.to_nat n) r, skipn (Z.to_nat n) r)
  end.

(** Parse a tag: (field number, wire type); [max] is the largest field number. *)
Definition dec_tag_max (max : Z) (l : list byte) : option (Z * Z * list byte) :=
  match dec_varint l with
  | None => None
  | Some (t, r) =>
      let num := (t / 8)%Z in
      if ((num <? 1) || (max <? num))%Z then None else Some (num, (t mod 8)%Z, r)
  end.
(** in a message (internal/impl/decode.go, unmarshalPointer: MaxValidNumber) *)
Definition dec_tag : list byte -> option (Z * Z * list byte) := dec_tag_max 536870911.

(** protowire.ConsumeFieldValue: skip a value of an unknown field; a start-group value extends to the matching end-group
    tag, groups nest at most [depth] deep, and the field numbers in them may go up to math.MaxInt32 (protowire.ConsumeTag). *)
Fixpoint skip_value (depth : nat) (num wt : Z) (l : list byte) : option (list byte) :=
  if (wt =? 0)%Z then match dec_varint l with Some (_, r) => Some r | None => None end
  else if (wt =? 1)%Z then match le_dec 8 l with Some (_, r) => Some r | None => None end
  else if (wt =? 5)%Z then match le_dec 4 l with Some (_, r) => Some r | None => None end
  else if (wt =? 2)%Z then match dec_bytes l with Some (_, r) => Some r | None => None end
  else if (wt =? 3)%Z then
    match depth with
    | O => None
    | S f =>
        (fix group (g : nat) (l : list byte) : option (list byte) :=
           match g with
           | O => None
           | S g' =>
               match dec_tag_max 2147483647 l with
               | None => None
               | Some (num', wt', r) =>
                   if (wt' =? 4)%Z then if (num' =? num)%Z then Some r else None
                   else match skip_value f num' wt' r with
                        | Some r' => group g' r'
                        | None => None
                        end
               end
           end) (S (List.length l)) l
    end
  else None.
(** protowire.DefaultRecursionLimit is 10000, and depth 0 is still allowed. *)
Definition skip_unknown (num wt : Z) (l : list byte) : option (list byte) := skip_value (Z.to_nat 10001) num wt l.
Arguments skip_unknown : simpl never.

Fixpoint find_field (d : desc) (num : Z) : option (nat * kind) :=
  match d with
  | [] => None
  | (n, k) :: d' =>
      if (n =? num)%Z then Some (O, k)
      else match find_field d' num with Some (i, k) => Some (S i, k) | None => None end
  end.

(** The outcome of decoding one field value: the bytes were consumed and the slot updated, the
    wire type does not fit (treated as an unknown field), or the input is malformed. *)
Inductive fres : Type := FOk (s : slot) (r : list byte) | FUnknown | FErr.

(** Decode a whole message from [l] into [m]; [fuel] bounds the number of fields plus the
    nesting. *)
Fixpoint dec_msg (fuel : nat) (d : desc) (m : msg) (l : list byte) : option msg :=
  match fuel with
  | O => None
  | S f =>
    match l with
    | [] => Some m
    | _ =>
      match dec_tag l with
      | None => None
      | Some (num, wt, r) =>
        let field : option (nat * fres) :=
          match find_field d num with
          | None => None
          | Some (i, k) =>
            Some (i,
              match k with
              | KDouble => if (wt =? 1)%Z
                  then match le_dec 8 r with Some (b, r') => FOk (SF b) r' | None => FErr end
                  else FUnknown
              | KInt => if (wt =? 0)%Z
                  then match dec_varint r with Some (n, r') => FOk (SI (i64 n)) r' | None => FErr end
                  else FUnknown
              | KBool => if (wt =? 0)%Z
                  then match dec_varint r with
                       | Some (n, r') => FOk (SB (negb (n =? 0)%Z)) r' | None => FErr end
                  else FUnknown
              | KStr => if (wt =? 2)%Z
                  then match dec_bytes r with
                       | Some (b, r') =>
                           let s := string_of_bytes b in
                           if utf8_valid s then FOk (SS s) r' else FErr
                       | None => FErr end
                  else FUnknown
              | KBytes => if (wt =? 2)%Z
                  then match dec_bytes r with
                       | Some (b, r') => FOk (SS (string_of_bytes b)) r' | None => FErr end
                  else FUnknown
              | KMsg d' => if (wt =? 2)%Z
                  then match dec_bytes r with
                       | Some (b, r') =>
                           let old := match nth_error m i with
                                      | Some (SM (Some x)) => x | _ => zero_msg d' end in
                           match dec_msg f d' old b with
                           | Some x => FOk (SM (Some x)) r'
                           | None => FErr
                           end
                       | None => FErr end
                  else FUnknown
              | KRep d' => if (wt =? 2)%Z
                  then match dec_bytes r with
                       | Some (b, r') =>
                           let old := match nth_error m i with Some (SR x) => x | _ => [] end in
                           match dec_msg f d' (zero_msg d') b with
                           | Some x => FOk (SR (old ++ [x])) r'
                           | None => FErr
                           end
                       | None => FErr end
                  else FUnknown
              end)
          end in
        match field with
        | Some (i, FOk s r') => dec_msg f d (set_nth i s m) r'
        | Some (_, FErr) => None
        | None | Some (_, FUnknown) =>
            match skip_unknown num wt r with
            | Some r' => dec_msg f d m r'
            | None => None
            end
        end
      end
    end
  end.

(** proto.Unmarshal into a fresh message. *)
Definition unmarshal (d : desc) (l : list byte) : option msg :=
  dec_msg (S (List.length l)) d (zero_msg d) l.
(** proto.Marshal *)
Definition marshal (d : desc) (m : msg) : option (list byte) := enc_msg d m.
