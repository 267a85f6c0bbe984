(** UTF-8 (RFC 3629): the text of a list of Unicode scalar values. *)
From Verif.Model Require Import Base.
Open Scope Z_scope.

(** a code point that is not a surrogate *)
Definition is_scalar (c : Z) : Prop := 0 <= c < 55296 \/ 57344 <= c <= 1114111.

(** one to four bytes for each *)
Definition utf8_char (c : Z) : list Z :=
  if c <? 128 then [c]
  else if c <? 2048 then [192 + c / 64; 128 + c mod 64]
  else if c <? 65536 then [224 + c / 4096; 128 + c / 64 mod 64; 128 + c mod 64]
  else [240 + c / 262144; 128 + c / 4096 mod 64; 128 + c / 64 mod 64; 128 + c mod 64].

Definition utf8_text (l : list Z) : Prop := exists cs, Forall is_scalar cs /\ l = flat_map utf8_char cs.
