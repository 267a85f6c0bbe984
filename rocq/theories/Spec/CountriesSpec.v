(** Country codes and boxes. *)
From Coq Require Import Ascii.
From Flocq Require Import BinarySingleNaN.
From Verif.Model Require Import Base Num NumF64 Geo.

(** The same character up to the case of a letter. *)
Definition same_letter (c d : ascii) : Prop :=
  c = d \/ exists k, (k < 26)%nat /\ In c [ascii_of_nat (65 + k); ascii_of_nat (97 + k)] /\
                                    In d [ascii_of_nat (65 + k); ascii_of_nat (97 + k)].
Inductive same_word : string -> string -> Prop :=
| sw_nil : same_word EmptyString EmptyString
| sw_cons c d s t : same_letter c d -> same_word s t -> same_word (String c s) (String d t).

(** a string without bytes above 127 *)
Inductive ascii_word : string -> Prop :=
| aw_nil : ascii_word EmptyString
| aw_cons c s : (nat_of_ascii c < 128)%nat -> ascii_word s -> ascii_word (String c s).

(** strings.ToUpper on other strings: two bytes that are not ASCII are one rune or contain bytes that are
    not UTF-8; the result is one rune or contains U+FFFD, never two ASCII characters. *)
Definition upper_law (upper : string -> string) : Prop :=
  forall s, String.length s = 2%nat -> ~ ascii_word s -> ascii_word (upper s) -> String.length (upper s) <> 2%nat.

(** A box inside the world that is not empty. *)
Definition world_box {T} {N : Num T} (b : bbox T) : Prop :=
  (fofZ (-180) <=? minLon b)%num = true /\ (minLon b <? maxLon b)%num = true /\ (maxLon b <=? fofZ 180)%num = true /\
  (fofZ (-90) <=? minLat b)%num = true /\ (minLat b <? maxLat b)%num = true /\ (maxLat b <=? fofZ 90)%num = true.

(** what rand.Float64 returns: [0, 1) *)
Definition unit_draw (u : f64) : Prop := Bleb (f64_ofZ 0) u = true /\ Bltb u (f64_ofZ 1) = true.
