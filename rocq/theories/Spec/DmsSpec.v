(** Degrees, minutes and seconds. *)
From Coq Require Import Reals.
From Flocq Require Import Core BinarySingleNaN.
From Verif.Model Require Import Base Num NumF64 Pb.
Open Scope R_scope.

(** [d] is the coordinate [x], exactly. *)
Definition dms_exact (x : R) (pos neg : string) (d : pbDMS R) : Prop :=
  IZR (dms_degrees d) <= Rabs x < IZR (dms_degrees d) + 1 /\
  (0 <= dms_minutes d <= 59)%Z /\ 0 <= dms_seconds d < 60 /\
  IZR (dms_degrees d) + IZR (dms_minutes d) / 60 + dms_seconds d / 3600 = Rabs x /\
  (0 < x -> dms_direction d = pos) /\ (x <= 0 -> dms_direction d = neg).

(** [d] is the binary64 coordinate [x]: the degrees and the letter exactly, the minutes in range, the sum
    up to 2^-51 degrees (a tenth of a micrometre on the ground), the seconds up to 2^-40. *)
Definition dms_close (x : f64) (pos neg : string) (d : pbDMS f64) : Prop :=
  IZR (dms_degrees d) <= Rabs (B2R x) < IZR (dms_degrees d) + 1 /\
  (0 <= dms_minutes d <= 59)%Z /\ is_finite (dms_seconds d) = true /\
  - bpow radix2 (-40) <= B2R (dms_seconds d) <= 60 + bpow radix2 (-40) /\
  Rabs (IZR (dms_degrees d) + IZR (dms_minutes d) / 60 + B2R (dms_seconds d) / 3600 - Rabs (B2R x)) <= bpow radix2 (-51) /\
  (0 < B2R x -> dms_direction d = pos) /\ (B2R x <= 0 -> dms_direction d = neg).

(** the location published in a state *)
Definition published_dms {T} (ok : T -> string -> string -> pbDMS T -> Prop) (st : pbDevice T) : Prop :=
  exists l a o, pde_location st = Some l /\ pdl_lat_dms l = Some a /\ pdl_lon_dms l = Some o /\
    ok (pdl_lat l) "N"%string "S"%string a /\ ok (pdl_lon l) "E"%string "W"%string o.
