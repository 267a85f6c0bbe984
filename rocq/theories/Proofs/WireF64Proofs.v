From Coq Require Import Lia.
From Flocq Require Import IEEE754.Binary IEEE754.Bits IEEE754.BinarySingleNaN.
From Verif.Model Require Import Base NumF64 WireMsgs WireF64.
From Verif.Spec Require Import WireSpec.

Lemma F64_bits_law : @bits_law f64 F64Bits.
Proof.
  intros x. cbn. unfold f64_to_bits, f64_of_bits. split.
  - unfold bits_of_b64. pose proof (bits_of_binary_float_range 52 11 eq_refl eq_refl (BSN2B 53 1024 default_nan_pl64 x)) as H.
    change (2 ^ (52 + 11 + 1))%Z with (2 ^ 64)%Z in H. exact H.
  - unfold b64_of_bits, bits_of_b64.
    rewrite (binary_float_of_bits_of_binary_float 52 11 eq_refl eq_refl eq_refl (BSN2B 53 1024 default_nan_pl64 x)).
    apply B2BSN_BSN2B.
Qed.
