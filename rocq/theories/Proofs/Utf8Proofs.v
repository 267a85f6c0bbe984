(** Go's utf8.Valid accepts exactly the UTF-8 texts. *)
From Coq Require Import Lia.
From Verif.Model Require Import Base Utf8.
From Verif.Spec Require Import Utf8Spec.
Open Scope Z_scope.

Lemma in_range_iff lo hi x : in_range lo hi x = true <-> lo <= x <= hi.
Proof. unfold in_range. rewrite andb_true_iff, !Z.leb_le. lia. Qed.
Lemma is_cont_iff x : is_cont x = true <-> 128 <= x <= 191.
Proof. apply in_range_iff. Qed.

Ltac euclid := Z.to_euclidean_division_equations; lia.

Lemma char1 c : 0 <= c < 128 -> utf8_char c = [c].
Proof. intros. unfold utf8_char. destruct (Z.ltb_spec c 128); [reflexivity|lia]. Qed.
Lemma char2 b0 b1 : 194 <= b0 <= 223 -> 128 <= b1 <= 191 ->
  is_scalar (64 * (b0 - 192) + (b1 - 128)) /\ utf8_char (64 * (b0 - 192) + (b1 - 128)) = [b0; b1].
Proof.
  intros. split; [left; lia|]. unfold utf8_char. destruct (Z.ltb_spec (64 * (b0 - 192) + (b1 - 128)) 128); [lia|].
  destruct (Z.ltb_spec (64 * (b0 - 192) + (b1 - 128)) 2048); [|lia].
  assert (E : (64 * (b0 - 192) + (b1 - 128)) / 64 = b0 - 192) by euclid.
  assert (E' : (64 * (b0 - 192) + (b1 - 128)) mod 64 = b1 - 128) by euclid.
  rewrite E, E'. repeat f_equal; lia.
Qed.
Lemma char3 b0 b1 b2 : 224 <= b0 <= 239 -> 128 <= b1 <= 191 -> 128 <= b2 <= 191 -> (b0 = 224 -> 160 <= b1) -> (b0 = 237 -> b1 <= 159) ->
  let c := 4096 * (b0 - 224) + 64 * (b1 - 128) + (b2 - 128) in is_scalar c /\ utf8_char c = [b0; b1; b2].
Proof.
  intros H0 H1 H2 Ha Hb c.
  assert (Hc : 2048 <= c < 65536) by (unfold c; destruct (Z.eq_dec b0 224); [specialize (Ha e)|]; lia).
  split. { unfold is_scalar, c. destruct (Z.eq_dec b0 237); [specialize (Hb e)|]; lia. }
  unfold utf8_char. destruct (Z.ltb_spec c 128); [lia|]. destruct (Z.ltb_spec c 2048); [lia|]. destruct (Z.ltb_spec c 65536); [|lia].
  assert (E : c / 4096 = b0 - 224) by (unfold c; euclid).
  assert (E' : c / 64 = 64 * (b0 - 224) + (b1 - 128)) by (unfold c; euclid).
  assert (E'' : c mod 64 = b2 - 128) by (unfold c; euclid).
  rewrite E, E', E''. replace ((64 * (b0 - 224) + (b1 - 128)) mod 64) with (b1 - 128) by euclid. repeat f_equal; lia.
Qed.
Lemma char4 b0 b1 b2 b3 : 240 <= b0 <= 244 -> 128 <= b1 <= 191 -> 128 <= b2 <= 191 -> 128 <= b3 <= 191 -> (b0 = 240 -> 144 <= b1) -> (b0 = 244 -> b1 <= 143) ->
  let c := 262144 * (b0 - 240) + 4096 * (b1 - 128) + 64 * (b2 - 128) + (b3 - 128) in is_scalar c /\ utf8_char c = [b0; b1; b2; b3].
Proof.
  intros H0 H1 H2 H3 Ha Hb c.
  assert (Hc : 65536 <= c <= 1114111) by (unfold c; destruct (Z.eq_dec b0 240) as [e|]; [specialize (Ha e)|]; (destruct (Z.eq_dec b0 244) as [e'|]; [specialize (Hb e')|]); lia).
  split. { unfold is_scalar. lia. }
  unfold utf8_char. destruct (Z.ltb_spec c 128); [lia|]. destruct (Z.ltb_spec c 2048); [lia|]. destruct (Z.ltb_spec c 65536); [lia|].
  assert (E : c / 262144 = b0 - 240) by (unfold c; euclid).
  assert (E1 : c / 4096 = 64 * (b0 - 240) + (b1 - 128)) by (unfold c; euclid).
  assert (E' : c / 64 = 64 * (64 * (b0 - 240) + (b1 - 128)) + (b2 - 128)) by (unfold c; euclid).
  assert (E'' : c mod 64 = b3 - 128) by (unfold c; euclid).
  rewrite E, E1, E', E''. replace ((64 * (b0 - 240) + (b1 - 128)) mod 64) with (b1 - 128) by euclid.
  replace ((64 * (64 * (b0 - 240) + (b1 - 128)) + (b2 - 128)) mod 64) with (b2 - 128) by euclid. repeat f_equal; lia.
Qed.

Lemma utf8_text_cons c l : is_scalar c -> utf8_text l -> utf8_text (utf8_char c ++ l).
Proof. intros H (cs & F & ->). exists (c :: cs). split; [constructor; assumption|reflexivity]. Qed.

Lemma valid_text f : forall l, utf8_valid_fuel f l = true -> utf8_text l.
Proof.
  induction f as [|f IH]; intros l H; cbn [utf8_valid_fuel] in H.
  - destruct l; [|discriminate]. exists []. split; [constructor|reflexivity].
  - destruct l as [|b0 r]. { exists []. split; [constructor|reflexivity]. }
    destruct (in_range 0 127 b0) eqn:E0.
    { apply in_range_iff in E0. change (b0 :: r) with ([b0] ++ r). rewrite <- (char1 b0) by lia. apply utf8_text_cons; [left; lia|auto]. }
    destruct (in_range 194 223 b0) eqn:E1.
    { apply in_range_iff in E1. destruct r as [|b1 r]; [discriminate|]. apply andb_true_iff in H as [H1 H]. apply is_cont_iff in H1.
      change (b0 :: b1 :: r) with ([b0; b1] ++ r). destruct (char2 b0 b1) as [S <-]; [lia..|]. apply utf8_text_cons; auto. }
    destruct (in_range 224 239 b0) eqn:E2.
    { apply in_range_iff in E2. destruct r as [|b1 [|b2 r]]; [discriminate..|]. apply andb_true_iff in H as [H1 H]. apply andb_true_iff in H1 as [H1 H2].
      apply is_cont_iff in H2. change (b0 :: b1 :: b2 :: r) with ([b0; b1; b2] ++ r).
      destruct (char3 b0 b1 b2) as [S <-]; [lia|..|apply utf8_text_cons; auto]; try lia;
        destruct (Z.eqb_spec b0 224); try destruct (Z.eqb_spec b0 237); first [apply is_cont_iff in H1 | apply in_range_iff in H1]; lia. }
    destruct (in_range 240 244 b0) eqn:E3; [|discriminate].
    apply in_range_iff in E3. destruct r as [|b1 [|b2 [|b3 r]]]; [discriminate..|]. apply andb_true_iff in H as [H1 H]. apply andb_true_iff in H1 as [H1 H3].
    apply andb_true_iff in H1 as [H1 H2]. apply is_cont_iff in H2, H3. change (b0 :: b1 :: b2 :: b3 :: r) with ([b0; b1; b2; b3] ++ r).
    destruct (char4 b0 b1 b2 b3) as [S <-]; [lia|..|apply utf8_text_cons; auto]; try lia;
      destruct (Z.eqb_spec b0 240); try destruct (Z.eqb_spec b0 244); first [apply is_cont_iff in H1 | apply in_range_iff in H1]; lia.
Qed.

Ltac ranges := repeat match goal with
  | |- context [in_range ?a ?b ?x] => first [rewrite (proj2 (in_range_iff a b x)) by euclid
      | replace (in_range a b x) with false by (symmetry; apply not_true_is_false; rewrite in_range_iff; euclid)]
  | |- context [is_cont ?x] => rewrite (proj2 (is_cont_iff x)) by euclid
  end.
Lemma text_valid cs : Forall is_scalar cs -> forall f, (List.length (flat_map utf8_char cs) <= f)%nat -> utf8_valid_fuel f (flat_map utf8_char cs) = true.
Proof.
  induction 1 as [|c cs Hc F IH]; intros f Hf. { destruct f; reflexivity. }
  cbn [flat_map] in *. rewrite app_length in Hf. destruct f as [|f].
  { unfold utf8_char in Hf. destruct (c <? 128), (c <? 2048), (c <? 65536); cbn in Hf; lia. }
  unfold is_scalar in Hc. unfold utf8_char in *. destruct (Z.ltb_spec c 128).
  { cbn [app utf8_valid_fuel List.length] in *. ranges. apply IH. lia. }
  destruct (Z.ltb_spec c 2048).
  { cbn [app utf8_valid_fuel List.length] in *. ranges. apply IH. lia. }
  destruct (Z.ltb_spec c 65536).
  { cbn [app utf8_valid_fuel List.length] in *. ranges.
    rewrite (IH f) by lia. rewrite andb_true_r. destruct (Z.eqb_spec (224 + c / 4096) 224); [ranges; reflexivity|].
    destruct (Z.eqb_spec (224 + c / 4096) 237); ranges; reflexivity. }
  cbn [app utf8_valid_fuel List.length] in *. ranges.
  rewrite (IH f) by lia. rewrite !andb_true_r. destruct (Z.eqb_spec (240 + c / 262144) 240); [ranges; reflexivity|].
  destruct (Z.eqb_spec (240 + c / 262144) 244); ranges; reflexivity.
Qed.

Lemma string_length_list s : String.length s = List.length (list_ascii_of_string s).
Proof. induction s as [|a s IH]; cbn; [reflexivity|f_equal; exact IH]. Qed.
Lemma C75_utf8_proof s : utf8_valid s = true <-> utf8_text (bytes_of s).
Proof.
  unfold utf8_valid. split; [apply valid_text|]. intros (cs & F & E). rewrite E. apply text_valid; [exact F|].
  rewrite <- E. unfold bytes_of. rewrite map_length, <- string_length_list. lia.
Qed.
