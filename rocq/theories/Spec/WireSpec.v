(** Which messages the wire format can carry, and what an unknown field looks like. *)
From Verif.Model Require Import Base Utf8 Wire WireMsgs.

(** A value fits its field: doubles are 64-bit patterns, integers are int64, proto3 strings are valid
    UTF-8, messages have the fields of their descriptor. *)
Fixpoint slot_ok (k : kind) (s : slot) {struct k} : Prop :=
  let msg_ok := fix msg_ok (d : list (Z * kind)) (m : list slot) {struct d} : Prop :=
    match d, m with
    | [], [] => True
    | (_, k) :: d', s :: m' => slot_ok k s /\ msg_ok d' m'
    | _, _ => False
    end in
  match k, s with
  | KDouble, SF bits => (0 <= bits < 2 ^ 64)%Z
  | KInt, SI z => (- 2 ^ 63 <= z < 2 ^ 63)%Z
  | KBool, SB _ => True
  | KStr, SS s => utf8_valid s = true
  | KBytes, SS _ => True
  | KMsg _, SM None => True
  | KMsg d, SM (Some m) => msg_ok d m
  | KRep d, SR l => Forall (msg_ok d) l
  | _, _ => False
  end.
Fixpoint msg_ok (d : desc) (m : msg) : Prop :=
  match d, m with
  | [], [] => True
  | (_, k) :: d', s :: m' => slot_ok k s /\ msg_ok d' m'
  | _, _ => False
  end.

(** Every proto3 string in the message is valid UTF-8. *)
Fixpoint slot_utf8 (k : kind) (s : slot) {struct k} : Prop :=
  let msg_utf8 := fix msg_utf8 (d : list (Z * kind)) (m : list slot) {struct d} : Prop :=
    match d, m with
    | (_, k) :: d', s :: m' => slot_utf8 k s /\ msg_utf8 d' m'
    | _, _ => True
    end in
  match k, s with
  | KStr, SS s => utf8_valid s = true
  | KMsg d, SM (Some m) => msg_utf8 d m
  | KRep d, SR l => Forall (msg_utf8 d) l
  | _, _ => True
  end.
Fixpoint msg_utf8 (d : desc) (m : msg) : Prop :=
  match d, m with
  | (_, k) :: d', s :: m' => slot_utf8 k s /\ msg_utf8 d' m'
  | _, _ => True
  end.

(** A legal descriptor: distinct field numbers in the legal range, at every level. *)
Fixpoint kind_wf (k : kind) : Prop :=
  let all := fix all (d : list (Z * kind)) : Prop :=
    match d with [] => True | (n, k) :: r => (1 <= n <= 536870911)%Z /\ kind_wf k /\ all r end in
  match k with KMsg d | KRep d => NoDup (map fst d) /\ all d | _ => True end.
Fixpoint all_wf (d : desc) : Prop :=
  match d with [] => True | (n, k) :: r => (1 <= n <= 536870911)%Z /\ kind_wf k /\ all_wf r end.
Definition desc_wf (d : desc) : Prop := NoDup (map fst d) /\ all_wf d.

(** The value of a field on the wire, by wire type (groups are left out). *)
Inductive wire_value : Z -> list byte -> Prop :=
| wv_varint n : (0 <= n < 2 ^ 64)%Z -> wire_value 0 (enc_varint n)
| wv_fixed64 l : List.length l = 8%nat -> wire_value 1 l
| wv_fixed32 l : List.length l = 4%nat -> wire_value 5 l
| wv_bytes l : (zlen l < 2 ^ 64)%Z -> wire_value 2 (enc_bytes l).
(** A field the descriptor does not know: a legal number that is not in use. *)
Inductive unknown_field (d : desc) : list byte -> Prop :=
| uf num wt v : (1 <= num <= 536870911)%Z -> ~ In num (map fst d) -> wire_value wt v ->
    unknown_field d (enc_tag num wt ++ v).

(** math.Float64bits is a bijection onto its image *)
Definition bits_law (T : Type) {B : Bits64 T} : Prop :=
  forall x : T, (0 <= to_bits x < 2 ^ 64)%Z /\ of_bits (to_bits x) = x.

(** An object [x] of Go type [A] survives the wire: it can be encoded, and if the encoding fits into
    memory then decoding it gives back [x]. *)
Definition survives {A : Type} (d : desc) (w : A -> msg) (r : msg -> A) (x : A) : Prop :=
  exists b, marshal d (w x) = Some b /\ ((zlen b < 2 ^ 63)%Z -> option_map r (unmarshal d b) = Some x).
