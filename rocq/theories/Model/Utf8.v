(** UTF-8 validity of a byte string (Go unicode/utf8.Valid, RFC 3629), needed because
    google.golang.org/protobuf rejects proto3 [string] fields that are not valid UTF-8 and
    encoding/json replaces invalid bytes. *)
From Verif.Model Require Import Base.
From Coq Require Import Ascii.

Definition byte_of (c : ascii) : Z := Z.of_nat (nat_of_ascii c).
Definition in_range (lo hi x : Z) : bool := (lo <=? x) && (x <=? hi).
Definition is_cont (x : Z) : bool := in_range 128 191 x.

Fixpoint utf8_valid_fuel (fuel : nat) (l : list Z) : bool :=
  match fuel with
  | O => match l with [] => true | _ => false end
  | S f =>
    match l with
    | [] => true
    | b0 :: r =>
      if in_range 0 127 b0 then utf8_valid_fuel f r
      else if in_range 194 223 b0 then
        match r with b1 :: r' => is_cont b1 && utf8_valid_fuel f r' | _ => false end
      else if in_range 224 239 b0 then
        match r with
        | b1 :: b2 :: r' =>
            (if b0 =? 224 then in_range 160 191 b1
             else if b0 =? 237 then in_range 128 159 b1 else is_cont b1)
            && is_cont b2 && utf8_valid_fuel f r'
        | _ => false
        end
      else if in_range 240 244 b0 then
        match r with
        | b1 :: b2 :: b3 :: r' =>
            (if b0 =? 240 then in_range 144 191 b1
             else if b0 =? 244 then in_range 128 143 b1 else is_cont b1)
            && is_cont b2 && is_cont b3 && utf8_valid_fuel f r'
        | _ => false
        end
      else false
    end
  end.

Definition bytes_of (s : string) : list Z := map byte_of (list_ascii_of_string s).

(** utf8.ValidString *)
Definition utf8_valid (s : string) : bool :=
  utf8_valid_fuel (String.length s) (bytes_of s).
