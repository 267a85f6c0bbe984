(** math.Float64bits and math.Float64frombits for binary64 (Flocq). The model has a single NaN: every NaN
    pattern decodes to it and it is written with the payload 2^51. *)
From Flocq Require Import IEEE754.Binary IEEE754.Bits IEEE754.BinarySingleNaN.
From Verif.Model Require Import Base NumF64 WireMsgs.

Definition f64_to_bits (x : f64) : Z := bits_of_b64 (BSN2B 53 1024 default_nan_pl64 x).
Definition f64_of_bits (z : Z) : f64 := B2BSN 53 1024 (b64_of_bits z).
Definition F64Bits : Bits64 f64 := {| to_bits := f64_to_bits; of_bits := f64_of_bits |}.
