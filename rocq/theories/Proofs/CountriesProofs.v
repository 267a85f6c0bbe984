(** C60. *)
From Coq Require Import Ascii Reals Lra Lia.
From Flocq Require Import Core BinarySingleNaN Relative.
From Verif.Model Require Import Base Num NumF64 Geo Countries.
From Verif.Spec Require Import CountriesSpec.
From Verif.Proofs Require Import F64Lemmas.

(** ** letters *)

Definition all_ascii : list ascii := map ascii_of_nat (seq 0 256).
Lemma in_all_ascii c : In c all_ascii.
Proof.
  unfold all_ascii. rewrite <- (ascii_nat_embedding c). apply in_map, in_seq.
  pose proof (nat_ascii_bounded c). lia.
Qed.

Lemma upper_facts : forallb (fun c =>
   let u := upper_ascii c in
   Ascii.eqb (upper_ascii u) u && Bool.eqb (is_ascii c) (is_ascii u) &&
   (Ascii.eqb c u || existsb (fun k => Ascii.eqb u (ascii_of_nat (65 + k)) && Ascii.eqb c (ascii_of_nat (97 + k))) (seq 0 26)))
   all_ascii = true.
Proof. vm_compute. reflexivity. Qed.

Lemma upper_fact c : upper_ascii (upper_ascii c) = upper_ascii c /\ is_ascii (upper_ascii c) = is_ascii c /\ same_letter c (upper_ascii c).
Proof.
  pose proof upper_facts as H. rewrite forallb_forall in H. specialize (H c (in_all_ascii c)). cbv zeta in H.
  apply andb_true_iff in H as (H & H3). apply andb_true_iff in H as (H1 & H2).
  apply Ascii.eqb_eq in H1. apply eqb_prop in H2. split; [exact H1|]. split; [now symmetry|].
  apply orb_true_iff in H3 as [H3|H3]; [left; now apply Ascii.eqb_eq|]. right.
  apply existsb_exists in H3 as (k & Hk & H3). apply andb_true_iff in H3 as (A & B). apply Ascii.eqb_eq in A, B.
  apply in_seq in Hk. exists k. split; [lia|]. rewrite A, B. cbn. auto.
Qed.

Lemma letter_facts : forallb (fun k => Ascii.eqb (upper_ascii (ascii_of_nat (65 + k))) (upper_ascii (ascii_of_nat (97 + k)))
   && is_ascii (ascii_of_nat (65 + k)) && is_ascii (ascii_of_nat (97 + k))) (seq 0 26) = true.
Proof. vm_compute. reflexivity. Qed.

Lemma same_letter_upper c d : same_letter c d -> upper_ascii c = upper_ascii d /\ is_ascii c = is_ascii d.
Proof.
  intros [E|(k & Hk & Hc & Hd)]; [subst; auto|].
  pose proof letter_facts as H. rewrite forallb_forall in H. specialize (H k).
  assert (Hin : In k (seq 0 26)) by (apply in_seq; lia). apply H in Hin. clear H.
  apply andb_true_iff in Hin as (H & H3). apply andb_true_iff in H as (H1 & H2). apply Ascii.eqb_eq in H1.
  destruct Hc as [Hc|[Hc|[]]], Hd as [Hd|[Hd|[]]]; rewrite <- Hc, <- Hd; split; congruence.
Qed.

Lemma same_word_upper s t : same_word s t ->
  string_map upper_ascii s = string_map upper_ascii t /\ string_forall is_ascii s = string_forall is_ascii t /\ String.length s = String.length t.
Proof.
  induction 1 as [|c d s t H1 H2 (IH1 & IH2 & IH3)]; [auto|]. apply same_letter_upper in H1 as (A & B).
  cbn [string_map string_forall String.length]. rewrite A, B, IH1, IH2, IH3. auto.
Qed.

Lemma ascii_word_iff s : ascii_word s <-> string_forall is_ascii s = true.
Proof.
  split.
  - induction 1 as [|c s H1 H2 IH]; [reflexivity|]. cbn [string_forall]. rewrite IH. unfold is_ascii. apply Nat.ltb_lt in H1. now rewrite H1.
  - induction s as [|c s IH]; intros H; constructor; cbn [string_forall] in H; apply andb_true_iff in H as (A & B); auto.
    unfold is_ascii in A. now apply Nat.ltb_lt in A.
Qed.

Lemma same_word_map s : same_word s (string_map upper_ascii s).
Proof. induction s as [|c s IH]; cbn; constructor; auto. apply upper_fact. Qed.

Lemma map_map_upper s : string_map upper_ascii (string_map upper_ascii s) = string_map upper_ascii s.
Proof. induction s as [|c s IH]; cbn [string_map]; [reflexivity|]. destruct (upper_fact c) as (A & _). now rewrite A, IH. Qed.

Lemma ascii_map_upper s : string_forall is_ascii (string_map upper_ascii s) = string_forall is_ascii s.
Proof. induction s as [|c s IH]; cbn [string_map string_forall]; [reflexivity|]. destruct (upper_fact c) as (_ & A & _). now rewrite A, IH. Qed.

Lemma length_map_upper s : String.length (string_map upper_ascii s) = String.length s.
Proof. induction s as [|c s IH]; cbn; congruence. Qed.

(** ** tables *)

Definition keys {A} (l : list (string * A)) : list string := map fst l.
Lemma map_get_in {A} k (l : list (string * A)) v : map_get k l = Some v -> In (k, v) l.
Proof.
  induction l as [|(k', w) l IH]; cbn; [discriminate|]. destruct (String.eqb_spec k k') as [E|E].
  - intros [= ->]. left. now rewrite E.
  - auto.
Qed.
Lemma map_get_none {A} k (l : list (string * A)) : map_get k l = None <-> ~ In k (keys l).
Proof.
  induction l as [|(k', w) l IH]; cbn; [tauto|]. destruct (String.eqb_spec k k') as [E|E].
  - split; [discriminate|]. intros H. exfalso. apply H. auto.
  - rewrite IH. split; intros H; [intros [Q|Q]; [congruence|contradiction]|tauto].
Qed.
Fixpoint no_dup (l : list string) : bool :=
  match l with [] => true | x :: r => negb (existsb (String.eqb x) r) && no_dup r end.
Lemma no_dup_ok l : no_dup l = true -> NoDup l.
Proof.
  induction l as [|x l IH]; cbn; [constructor|]. intros H. apply andb_true_iff in H as (A & B). constructor; auto.
  intros Hx. apply negb_true_iff in A. assert (Q : existsb (String.eqb x) l = true); [|congruence].
  apply existsb_exists. exists x. split; [exact Hx|apply String.eqb_refl].
Qed.
Lemma in_map_get {A} k (l : list (string * A)) v : NoDup (keys l) -> In (k, v) l -> map_get k l = Some v.
Proof.
  induction l as [|(k', w) l IH]; cbn; intros ND H; [contradiction|]. inversion ND as [|x y N1 N2]; subst.
  destruct H as [[= -> ->]|H]; [now rewrite String.eqb_refl|].
  destruct (String.eqb_spec k k') as [E|E]; [|auto]. subst. exfalso. apply N1. apply (in_map fst) in H. exact H.
Qed.

Lemma keys_countries : NoDup (keys countries).
Proof. apply no_dup_ok. vm_compute. reflexivity. Qed.
Lemma keys_boxes : NoDup (keys bbox_table).
Proof. apply no_dup_ok. vm_compute. reflexivity. Qed.
Lemma keys_same : keys countries = keys bbox_table.
Proof. vm_compute. reflexivity. Qed.

(** codes are two capital letters *)
Definition code_ok (s : string) : bool := (String.length s =? 2)%nat && string_forall is_ascii s && String.eqb (string_map upper_ascii s) s.
Lemma keys_ok : forallb code_ok (keys countries) = true.
Proof. vm_compute. reflexivity. Qed.
Lemma key_ok k : In k (keys countries) -> String.length k = 2%nat /\ string_forall is_ascii k = true /\ string_map upper_ascii k = k.
Proof.
  pose proof keys_ok as H. rewrite forallb_forall in H. intros Hk. apply H in Hk. unfold code_ok in Hk.
  apply andb_true_iff in Hk as (A & B). apply andb_true_iff in A as (A & C). apply Nat.eqb_eq in A. apply String.eqb_eq in B. auto.
Qed.

Lemma len2 s : String.length s = 2%nat -> (slen s =? 2)%Z = true.
Proof. intros H. unfold slen. now rewrite H. Qed.
Lemma len2' s : (slen s =? 2)%Z = true -> String.length s = 2%nat.
Proof. unfold slen. intros H. apply Z.eqb_eq in H. lia. Qed.

Lemma found_word upper s k : same_word s k -> In k (keys countries) -> (slen s =? 2)%Z = true /\ ToUpper upper s = k.
Proof.
  intros Hs Hk. apply same_word_upper in Hs as (A & B & C). apply key_ok in Hk as (K1 & K2 & K3). split; [apply len2; congruence|].
  unfold ToUpper. rewrite B, K2. congruence.
Qed.

Lemma upper_key upper s : upper_law upper -> String.length s = 2%nat -> In (ToUpper upper s) (keys countries) -> same_word s (ToUpper upper s).
Proof.
  intros HU Hl Hk. unfold ToUpper in *. destruct (string_forall is_ascii s) eqn:E; [apply same_word_map|].
  exfalso. apply key_ok in Hk as (K1 & K2 & _). apply (HU s Hl); auto.
  - intros Q. apply ascii_word_iff in Q. congruence.
  - now apply ascii_word_iff.
Qed.

Lemma C60_names_proof upper s name : upper_law upper ->
  (CountryName upper s = GOk name <-> exists code, same_word s code /\ In (code, name) countries).
Proof.
  intros HU. unfold CountryName. split.
  - destruct (slen s =? 2)%Z eqn:E; cbn [negb]; [|discriminate]. destruct (map_get _ _) as [n|] eqn:G; [|discriminate].
    intros [= ->]. apply map_get_in in G. exists (ToUpper upper s). split; [|exact G].
    apply upper_key; [exact HU|now apply len2'|]. apply (in_map fst) in G. exact G.
  - intros (k & Hs & Hk). destruct (found_word upper s k Hs) as (A & B); [apply (in_map fst) in Hk; exact Hk|].
    rewrite A. cbn [negb]. rewrite B, (in_map_get _ _ _ keys_countries Hk). reflexivity.
Qed.

Section Box.
Context {T : Type} {N : Num T}.
Definition box_of (x : Z * Z * Z * Z) : bbox T :=
  let '(a, b, c, d) := x in mkBBox (hundredths a) (hundredths b) (hundredths c) (hundredths d).

Lemma C60_boxes_proof upper s (b : bbox T) : upper_law upper ->
  (BoundingBox upper s = GOk b <-> exists code x, same_word s code /\ In (code, x) bbox_table /\ b = box_of x).
Proof.
  intros HU. unfold BoundingBox. split.
  - destruct (slen s =? 2)%Z eqn:E; cbn [negb]; [|discriminate]. destruct (map_get _ _) as [x|] eqn:G; [|discriminate].
    intros H. apply map_get_in in G. exists (ToUpper upper s), x. split; [|split; [exact G|]].
    + apply upper_key; [exact HU|now apply len2'|]. rewrite keys_same. apply (in_map fst) in G. exact G.
    + destruct x as (((x1 & x2) & x3) & x4). injection H as <-. reflexivity.
  - intros (k & x & Hs & Hk & ->). destruct (found_word upper s k Hs) as (A & B); [rewrite keys_same; apply (in_map fst) in Hk; exact Hk|].
    rewrite A. cbn [negb]. rewrite B, (in_map_get _ _ _ keys_boxes Hk). destruct x as (((x1 & x2) & x3) & x4). reflexivity.
Qed.

Lemma C60_same_proof upper s :
  (exists name, CountryName upper s = GOk name) <-> (exists b : bbox T, BoundingBox upper s = GOk b).
Proof.
  unfold CountryName, BoundingBox. destruct (slen s =? 2)%Z; cbn [negb].
  2:{ split; intros (x & H); discriminate. }
  destruct (map_get (ToUpper upper s) countries) as [n|] eqn:G, (map_get (ToUpper upper s) bbox_table) as [x|] eqn:G'.
  - destruct x as (((x1 & x2) & x3) & x4). split; intros _; eexists; reflexivity.
  - exfalso. apply map_get_none in G'. rewrite <- keys_same in G'. apply map_get_none in G'. congruence.
  - exfalso. apply map_get_none in G. rewrite keys_same in G. apply map_get_none in G. congruence.
  - split; intros (x & H); discriminate.
Qed.

Lemma C60_errors_proof upper s : (forall code, same_word s code -> ~ In code (map fst countries)) -> upper_law upper ->
  CountryName upper s = GErr ErrCountryNotFound /\ BoundingBox upper s = GErr ErrCountryBoundsNotFound /\
  forall u v : T, LatLonByCountry upper s u v = GErr ErrCountryBoundsNotFound.
Proof.
  intros H HU. unfold CountryName, LatLonByCountry, BoundingBox.
  destruct (slen s =? 2)%Z eqn:E; cbn [negb]; [|auto].
  assert (K : ~ In (ToUpper upper s) (keys countries)).
  { intros Hk. apply (H (ToUpper upper s)); [|exact Hk]. apply upper_key; auto. now apply len2'. }
  assert (K2 : map_get (ToUpper upper s) bbox_table = None) by (apply map_get_none; rewrite <- keys_same; exact K).
  assert (K1 : map_get (ToUpper upper s) countries = None) by now apply map_get_none.
  rewrite K1, K2. split; [reflexivity|]. split; [reflexivity|]. intros u v.
  destruct (negb (slen (ToUpper upper s) =? 2)%Z) eqn:E2; [reflexivity|]. apply negb_false_iff, len2' in E2.
  assert (K3 : map_get (ToUpper upper (ToUpper upper s)) bbox_table = None); [|rewrite K3; reflexivity].
  destruct (string_forall is_ascii (ToUpper upper s)) eqn:A.
  - unfold ToUpper at 1. rewrite A. unfold ToUpper in *. destruct (string_forall is_ascii s) eqn:As.
    + rewrite map_map_upper. exact K2.
    + exfalso. apply (HU s (len2' s E)); auto; [intros Q; apply ascii_word_iff in Q; congruence|now apply ascii_word_iff].
  - apply map_get_none. rewrite <- keys_same. intros Hk. pose proof (key_ok _ Hk) as (_ & K4 & _).
    apply upper_key in Hk; [|exact HU|exact E2]. apply same_word_upper in Hk as (_ & Q & _). congruence.
Qed.

(** the second ToUpper finds the same box *)
Lemma LatLon_found upper s (b : bbox T) u v : upper_law upper -> BoundingBox upper s = GOk b ->
  LatLonByCountry upper s u v = GOk (mkPoint (between v (minLat b) (maxLat b)) (between u (minLon b) (maxLon b))).
Proof.
  intros HU H. pose proof H as H0. apply C60_boxes_proof in H0 as (k & x & Hs & Hk & ->); [|exact HU].
  assert (Kk : In k (keys countries)) by (rewrite keys_same; apply (in_map fst) in Hk; exact Hk).
  destruct (found_word upper s k Hs Kk) as (A & B). unfold LatLonByCountry. rewrite A. cbn [negb]. rewrite B.
  assert (Q : BoundingBox upper k = GOk (box_of x)); [|rewrite Q; reflexivity].
  apply C60_boxes_proof; [exact HU|]. exists k, x. split; [|auto].
  destruct (key_ok k Kk) as (_ & _ & K3). rewrite <- K3 at 2. apply same_word_map.
Qed.
End Box.

Lemma C60_listed_proof upper k name : upper_law upper -> In (k, name) EachCountry ->
  CountryName upper k = GOk name /\ forall name', In (k, name') EachCountry -> name' = name.
Proof.
  intros HU H. assert (A : forall n, In (k, n) countries -> CountryName upper k = GOk n).
  { intros n Hn. apply C60_names_proof; [exact HU|]. exists k. split; [|exact Hn].
    assert (Kk : In k (keys countries)) by (apply (in_map fst) in Hn; exact Hn).
    destruct (key_ok k Kk) as (_ & _ & K3). rewrite <- K3 at 2. apply same_word_map. }
  split; [now apply A|]. intros n Hn. apply A in Hn. apply A in H. congruence.
Qed.

Lemma same_letter_sym c d : same_letter c d -> same_letter d c.
Proof. intros [->|(k & A & B & C)]; [now left|right; exists k; auto]. Qed.
Lemma same_letter_up c d : upper_ascii c = upper_ascii d -> same_letter c d.
Proof.
  intros H. destruct (upper_fact c) as (_ & _ & A), (upper_fact d) as (_ & _ & B). rewrite <- H in B.
  destruct A as [A|(k & K1 & K2 & K3)]; [rewrite <- A in B; now apply same_letter_sym|].
  destruct B as [B|(k' & L1 & L2 & L3)]; [right; exists k; rewrite B; auto|].
  assert (k = k'); [|subst; right; exists k'; auto].
  assert (Cap : forall j c0, (j < 26)%nat -> In (upper_ascii c0) [ascii_of_nat (65 + j); ascii_of_nat (97 + j)] -> upper_ascii c0 = ascii_of_nat (65 + j)).
  { intros j c0 Hj [Q|[Q|[]]]; [now symmetry|]. destruct (upper_fact c0) as (I0 & _). rewrite <- Q in I0 at 1.
    pose proof letter_facts as F. rewrite forallb_forall in F. assert (Hin : In j (seq 0 26)) by (apply in_seq; lia). apply F in Hin.
    apply andb_true_iff in Hin as (Hin & _). apply andb_true_iff in Hin as (Hin & _). apply Ascii.eqb_eq in Hin.
    rewrite <- I0, <- Hin. assert (Z : forallb (fun j => Ascii.eqb (upper_ascii (ascii_of_nat (65 + j))) (ascii_of_nat (65 + j))) (seq 0 26) = true) by (vm_compute; reflexivity).
    rewrite forallb_forall in Z. apply Ascii.eqb_eq, Z, in_seq. lia. }
  apply Cap in K3; [|exact K1]. apply Cap in L3; [|exact L1]. rewrite K3 in L3.
  apply (f_equal nat_of_ascii) in L3. rewrite !nat_ascii_embedding in L3 by lia. lia.
Qed.

Section Case.
Context {T : Type} {N : Num T}.
Lemma same_word_sym s t : same_word s t -> same_word t s.
Proof. induction 1; constructor; auto. now apply same_letter_sym. Qed.
Lemma same_word_trans s : forall t r, same_word s t -> same_word t r -> same_word s r.
Proof.
  induction s as [|c s IH]; intros t r H1 H2; inversion H1; subst; inversion H2; subst; constructor; eauto.
  apply same_letter_up. rewrite (proj1 (same_letter_upper _ _ H3)). now apply same_letter_upper.
Qed.

(** found or not, by the table *)
Lemma name_cases upper s : upper_law upper ->
  (exists k, same_word s k /\ In k (map fst countries)) \/ (forall k, same_word s k -> ~ In k (map fst countries)).
Proof.
  intros HU. destruct (CountryName upper s) as [n|e] eqn:E.
  - left. apply C60_names_proof in E as (k & A & B); [|exact HU]. exists k. split; [exact A|]. apply (in_map fst) in B. exact B.
  - right. intros k Hs Hk. apply in_map_iff in Hk as ((k' & n) & Ek & Hk). cbn in Ek. subst k'.
    assert (CountryName upper s = GOk n); [|congruence]. apply C60_names_proof; [exact HU|]. eauto.
Qed.

Lemma C60_case_proof upper s t : upper_law upper -> same_word s t ->
  CountryName upper s = CountryName upper t /\ BoundingBox upper s = BoundingBox upper t /\
  forall u v : T, LatLonByCountry upper s u v = LatLonByCountry upper t u v.
Proof.
  intros HU H. destruct (name_cases upper s HU) as [(k & Hs & Hk)|Hn].
  - assert (Ht : same_word t k) by (eapply same_word_trans; [apply same_word_sym; exact H|exact Hs]).
    destruct (found_word upper s k Hs Hk) as (A1 & A2). destruct (found_word upper t k Ht Hk) as (B1 & B2).
    unfold LatLonByCountry, CountryName, BoundingBox. rewrite A1, B1, A2, B2. auto.
  - destruct (C60_errors_proof upper s Hn HU) as (A1 & A2 & A3).
    assert (Hn' : forall k, same_word t k -> ~ In k (map fst countries)) by (intros k Hk; apply Hn; eapply same_word_trans; eauto).
    destruct (C60_errors_proof upper t Hn' HU) as (B1 & B2 & B3).
    rewrite A1, A2, B1, B2. split; [reflexivity|]. split; [reflexivity|]. intros u v. now rewrite A3, B3.
Qed.
End Case.

(** ** binary64 *)
Open Scope R_scope.
#[local] Instance prec_pos' : Prec_gt_0 53 := eq_refl.
#[local] Instance vexp' : Valid_exp fexp64 := FLT_exp_valid (-1074) 53.

Lemma leb_val x y : fin x -> fin y -> Bleb x y = true -> val x <= val y.
Proof.
  intros Fx Fy H. rewrite (Bleb_correct 53 1024 x y Fx Fy) in H. unfold val. destruct (Rle_bool_spec (B2R x) (B2R y)); [assumption|discriminate].
Qed.
Lemma ltb_val x y : fin x -> fin y -> Bltb x y = true -> val x < val y.
Proof.
  intros Fx Fy H. rewrite (Bltb_correct 53 1024 x y Fx Fy) in H. unfold val. destruct (Rlt_bool_spec (B2R x) (B2R y)); [assumption|discriminate].
Qed.
Lemma val_leb x y : fin x -> fin y -> val x <= val y -> Bleb x y = true.
Proof. intros Fx Fy H. rewrite (Bleb_correct 53 1024 x y Fx Fy). now apply Rle_bool_true. Qed.

Lemma unit_val u : unit_draw u -> fin u /\ 0 <= val u <= 1 - bpow radix2 (-53).
Proof.
  intros (H0 & H1). destruct (ofZ_ok 0) as (Z0 & F0); [cbn; lia|]. destruct (ofZ_ok 1) as (Z1 & F1); [cbn; lia|].
  assert (F : fin u).
  { destruct u as [s|s| |s m e Hb]; try reflexivity; [destruct s|]; vm_compute in H0, H1; discriminate. }
  split; [exact F|]. apply leb_val in H0; auto. apply ltb_val in H1; auto. rewrite Z0 in H0. rewrite Z1 in H1.
  split; [exact H0|].
  assert (P : val u <= pred radix2 fexp64 1).
  { apply pred_ge_gt; [apply vexp'|apply fmt_val| |exact H1]. change 1 with (bpow radix2 0). apply fmt_bpow. lia. }
  change 1 with (bpow radix2 0) in P at 1. rewrite pred_bpow in P. exact P.
Qed.

Lemma between_R d w u : 0 < d -> w = rnd d -> bpow radix2 (-20) <= w -> 0 <= u <= 1 - bpow radix2 (-53) ->
  0 <= rnd (u * w) <= d.
Proof.
  intros Hd Hw Hn Hu. assert (W0 : 0 < w) by (eapply Rlt_le_trans; [apply bpow_gt_0|exact Hn]).
  assert (Fw : fmt w) by (rewrite Hw; apply generic_format_round; [apply vexp'|apply valid_rnd_N]).
  assert (B0 : 0 < bpow radix2 (-53)) by apply bpow_gt_0.
  split.
  { rewrite <- rnd_0. apply rnd_mono. apply Rmult_le_pos; lra. }
  destruct (Rle_lt_dec w d) as [L|L].
  { apply Rle_trans with w; [|exact L]. rewrite <- (rnd_fmt w Fw) at 2. apply rnd_mono. nra. }
  set (p := pred radix2 fexp64 w).
  assert (Fp : fmt p) by (apply generic_format_pred; [apply vexp'|exact Fw]).
  assert (Pd : p <= d).
  { apply Rnot_lt_le. intros Q. assert (rnd d <= p); [rewrite <- (rnd_fmt p Fp); apply rnd_mono; lra|].
    assert (p < w) by (apply pred_lt_id; lra). lra. }
  apply Rle_trans with p; [|exact Pd]. apply round_N_le_midp; [apply vexp'|exact Fp|].
  unfold p at 2. rewrite succ_pred; [|apply vexp'|exact Fw].
  assert (E : p + ulp radix2 fexp64 p = w) by (apply pred_plus_ulp; [apply vexp'|exact W0|exact Fw]).
  assert (Pn : bpow radix2 (-22) <= p).
  { assert (U : bpow radix2 (-22) <= pred radix2 fexp64 (bpow radix2 (-20))).
    { rewrite pred_bpow. change (fexp64 (-20)%Z) with (-73)%Z.
      assert (bpow radix2 (-73) <= bpow radix2 (-21)) by (apply bpow_le; lia).
      assert (bpow radix2 (-20) = 2 * bpow radix2 (-21)) by (change (-20)%Z with (1 + -21)%Z; rewrite bpow_plus; reflexivity).
      assert (bpow radix2 (-21) = 2 * bpow radix2 (-22)) by (change (-21)%Z with (1 + -22)%Z; rewrite bpow_plus; reflexivity).
      pose proof (bpow_gt_0 radix2 (-22)). lra. }
    eapply Rle_trans; [exact U|]. apply pred_le; [apply vexp'|apply fmt_bpow; lia|exact Fw|exact Hn]. }
  assert (P0 : 0 < p) by (eapply Rlt_le_trans; [apply bpow_gt_0|exact Pn]).
  assert (Ul : ulp radix2 fexp64 p <= p * bpow radix2 (-52)).
  { pose proof (ulp_FLT_le radix2 (-1074) 53 p) as Q. rewrite Rabs_pos_eq in Q by lra. apply Q.
    eapply Rle_trans; [|exact Pn]. apply bpow_le. lia. }
  assert (Bb : bpow radix2 (-52) = 2 * bpow radix2 (-53)) by (change (-52)%Z with (1 + -53)%Z; rewrite bpow_plus; reflexivity).
  assert (p < w) by (apply pred_lt_id; lra).
  nra.
Qed.

(** [u] between [lo] and [hi] *)
Lemma between_ok m u lo hi : unit_draw u -> fin lo -> fin hi -> Rabs (val lo) <= 1000 -> Rabs (val hi) <= 1000 ->
  val lo < val hi -> bpow radix2 (-20) <= val (f64_sub hi lo) ->
  fin (@between f64 (F64Num m) u lo hi) /\ val lo <= val (@between f64 (F64Num m) u lo hi) <= val hi.
Proof.
  intros Hu Fl Fh Al Ah Hlt Hw. apply unit_val in Hu as (Fu & Hu).
  assert (Bg : 10000 <= big) by (unfold big; apply Rle_trans with (bpow radix2 14); [cbn; lra|apply bpow_le; lia]).
  assert (A1 : Rabs (val hi - val lo) <= 2000) by (apply Rabs_le; apply Rabs_le_inv in Al; apply Rabs_le_inv in Ah; lra).
  destruct (sub_ok hi lo Fh Fl) as (S1 & S2); [lra|].
  pose proof (between_R (val hi - val lo) (val (f64_sub hi lo)) (val u) ltac:(lra) S1 Hw Hu) as (R0 & R1).
  apply Rabs_le_inv in Al. apply Rabs_le_inv in Ah.
  assert (B0 : 0 < bpow radix2 (-53)) by apply bpow_gt_0.
  assert (W : 0 <= val (f64_sub hi lo) <= 4000).
  { split; [eapply Rle_trans; [apply bpow_ge_0|exact Hw]|]. rewrite S1.
    apply Rle_trans with (rnd 4000); [apply rnd_mono; lra|]. rewrite rnd_fmt; [lra|]. apply fmt_IZR. cbn. lia. }
  destruct (mul_ok u (f64_sub hi lo) Fu S2) as (M1 & M2).
  { rewrite Rabs_pos_eq; [nra|]. apply Rmult_le_pos; lra. }
  destruct (add_ok (f64_mul u (f64_sub hi lo)) lo M2 Fl) as (P1 & P2).
  { rewrite M1. apply Rabs_le. lra. }
  unfold between. cbn [fadd fmul fsub F64Num]. split; [exact P2|]. rewrite P1, M1. split.
  - rewrite <- (rnd_fmt (val lo) (fmt_val lo)) at 1. apply rnd_mono. lra.
  - rewrite <- (rnd_fmt (val hi) (fmt_val hi)). apply rnd_mono. lra.
Qed.

(** every box of the table *)
Definition box_check (x : Z * Z * Z * Z) : bool :=
  let '(a, b, c, d) := x in
  let h k := f64_div (f64_ofZ k) (f64_ofZ 100) in
  let ok lo hi lim := is_finite lo && is_finite hi && Bleb (f64_ofZ (- lim)) lo && Bltb lo hi && Bleb hi (f64_ofZ lim) &&
                      is_finite (f64_sub hi lo) && Bleb (f64_norm 1 (-20)) (f64_sub hi lo) in
  ok (h a) (h c) 180%Z && ok (h b) (h d) 90%Z.
Lemma boxes_check : forallb (fun kx => box_check (snd kx)) bbox_table = true.
Proof. vm_compute. reflexivity. Qed.

Lemma limits lo hi lim : (0 <= lim <= 180)%Z -> is_finite lo && is_finite hi && Bleb (f64_ofZ (- lim)) lo && Bltb lo hi && Bleb hi (f64_ofZ lim) &&
                      is_finite (f64_sub hi lo) && Bleb (f64_norm 1 (-20)) (f64_sub hi lo) = true ->
  (Bleb (f64_ofZ (- lim)) lo = true /\ Bltb lo hi = true /\ Bleb hi (f64_ofZ lim) = true) /\
  fin lo /\ fin hi /\ Rabs (val lo) <= 1000 /\ Rabs (val hi) <= 1000 /\ val lo < val hi /\ bpow radix2 (-20) <= val (f64_sub hi lo).
Proof.
  intros Hl H. repeat (apply andb_true_iff in H as (H & ?)).
  split; [auto|]. destruct (ofZ_ok lim) as (L1 & L2); [lia|]. destruct (ofZ_ok (- lim)) as (L3 & L4); [lia|].
  assert (V1 : val (f64_ofZ (- lim)) <= val lo) by now apply leb_val.
  assert (V2 : val lo < val hi) by now apply ltb_val.
  assert (V3 : val hi <= val (f64_ofZ lim)) by now apply leb_val.
  rewrite L1 in V3. rewrite L3 in V1. rewrite opp_IZR in V1. assert (Hi : IZR lim <= 180) by (apply IZR_le; lia).
  split; [assumption|]. split; [assumption|]. split; [apply Rabs_le; lra|]. split; [apply Rabs_le; lra|]. split; [assumption|].
  assert (Q : val (f64_norm 1 (-20)) <= val (f64_sub hi lo)) by (apply leb_val; auto; reflexivity).
  replace (bpow radix2 (-20)) with (val (f64_norm 1 (-20))); [exact Q|].
  unfold val. cbn. unfold F2R. cbn. lra.
Qed.

Lemma box_facts m code x (N := F64Num m) : In (code, x) bbox_table ->
  let b := box_of x in
  world_box b /\ forall u v, unit_draw u -> unit_draw v ->
    bbox_In b (mkPoint (between v (minLat b) (maxLat b)) (between u (minLon b) (maxLon b))) = true.
Proof.
  intros H b. pose proof boxes_check as Q. rewrite forallb_forall in Q. apply Q in H. clear Q. cbn [snd] in H.
  destruct x as (((x1 & x2) & x3) & x4). unfold box_check in H. apply andb_true_iff in H as (H1 & H2).
  apply limits in H1 as (A1 & A2 & A3 & A4 & A5 & A6 & A7); [|lia].
  apply limits in H2 as (B1 & B2 & B3 & B4 & B5 & B6 & B7); [|lia].
  split; [unfold world_box; tauto|]. intros u v Hu Hv.
  pose proof (between_ok m u _ _ Hu A2 A3 A4 A5 A6 A7) as (C1 & C2 & C3).
  pose proof (between_ok m v _ _ Hv B2 B3 B4 B5 B6 B7) as (D1 & D2 & D3).
  unfold bbox_In. cbn [lat lon]. rewrite !andb_true_iff.
  repeat split; apply val_leb; assumption.
Qed.

Lemma C60_inside_proof upper m s b (N := F64Num m) : upper_law upper -> BoundingBox upper s = GOk b ->
  world_box b /\ forall u v, unit_draw u -> unit_draw v ->
    exists p, LatLonByCountry upper s u v = GOk p /\ bbox_In b p = true.
Proof.
  intros HU H. pose proof H as H0. apply C60_boxes_proof in H0 as (k & x & _ & Hk & E); [|exact HU].
  destruct (box_facts m k x Hk) as (A & B). rewrite E in *. split; [exact A|]. intros u v Hu Hv. eexists.
  split; [exact (LatLon_found upper s (box_of x) u v HU H)|]. now apply B.
Qed.

(** anywhere in the world *)
Lemma half_ok lim u : (0 <= lim <= 360)%Z -> unit_draw u ->
  let x := f64_mul (f64_sub u (f64_div (f64_ofZ 1) (f64_ofZ 2))) (f64_ofZ lim) in
  fin x /\ - (IZR lim / 2) <= val x <= IZR lim / 2.
Proof.
  intros Hl Hu x. apply unit_val in Hu as (Fu & Hu). pose proof (bpow_gt_0 radix2 (-53)).
  assert (Bg : 10000 <= big) by (unfold big; apply Rle_trans with (bpow radix2 14); [cbn; lra|apply bpow_le; lia]).
  set (h := f64_div (f64_ofZ 1) (f64_ofZ 2)) in *.
  assert (Vh : val h = / 2 /\ fin h) by (split; [unfold h, val; vm_compute B2R; unfold F2R; cbn; lra|reflexivity]).
  destruct Vh as (Vh & Fh). destruct (ofZ_ok lim) as (L1 & L2); [lia|].
  assert (Hi : 0 <= IZR lim <= 360) by (split; apply IZR_le; lia).
  destruct (sub_ok u h Fu Fh) as (S1 & S2); [rewrite Vh; apply Rabs_le; lra|].
  assert (Fm2 : fmt (/ 2)) by (change (/ 2) with (bpow radix2 (-1)); apply fmt_bpow; lia).
  assert (V : - / 2 <= val (f64_sub u h) <= / 2).
  { rewrite S1, Vh. split.
    - rewrite <- (rnd_fmt (- / 2)); [apply rnd_mono; lra|]. apply generic_format_opp. exact Fm2.
    - rewrite <- (rnd_fmt (/ 2) Fm2) at 2. apply rnd_mono. lra. }
  assert (Fl : fmt (IZR lim / 2)).
  { apply generic_format_FLT. apply (FLT_spec _ _ _ _ (Float radix2 lim (-1))); unfold F2R; cbn; try lia; lra. }
  assert (V2 : - (IZR lim / 2) <= val (f64_sub u h) * IZR lim <= IZR lim / 2) by (split; nra).
  destruct (mul_ok (f64_sub u h) (f64_ofZ lim) S2 L2) as (M1 & M2); [rewrite L1; apply Rabs_le; lra|].
  unfold x. split; [exact M2|]. rewrite M1, L1. split.
  - rewrite <- (rnd_fmt (- (IZR lim / 2))); [apply rnd_mono; lra|]. now apply generic_format_opp.
  - rewrite <- (rnd_fmt (IZR lim / 2) Fl). apply rnd_mono. lra.
Qed.

Lemma C60_world_proof m u v (N := F64Num m) : unit_draw u -> unit_draw v ->
  bbox_In (mkBBox (fofZ (-180)) (fofZ (-90)) (fofZ 180) (fofZ 90)) (LatLon u v) = true.
Proof.
  intros Hu Hv. destruct (half_ok 180 u ltac:(lia) Hu) as (A1 & A2 & A3). destruct (half_ok 360 v ltac:(lia) Hv) as (B1 & B2 & B3).
  assert (O : forall z, (Z.abs z <= 2 ^ 53)%Z -> val (f64_ofZ z) = IZR z /\ fin (f64_ofZ z)) by exact ofZ_ok.
  destruct (O 180%Z) as (O1 & O2); [lia|]. destruct (O (-180)%Z) as (O3 & O4); [lia|].
  destruct (O 90%Z) as (O5 & O6); [lia|]. destruct (O (-90)%Z) as (O7 & O8); [lia|].
  unfold bbox_In. cbn [minLon minLat maxLon maxLat lat lon LatLon]. rewrite !andb_true_iff.
  split; [split; [split|]|].
  - apply val_leb; [exact O4|exact B1|]. refine (Rle_trans _ _ _ (Req_le _ _ O3) (Rle_trans _ _ _ _ B2)). lra.
  - apply val_leb; [exact O8|exact A1|]. refine (Rle_trans _ _ _ (Req_le _ _ O7) (Rle_trans _ _ _ _ A2)). lra.
  - apply val_leb; [exact B1|exact O2|]. refine (Rle_trans _ _ _ B3 (Rle_trans _ _ _ _ (Req_le _ _ (eq_sym O1)))). lra.
  - apply val_leb; [exact A1|exact O6|]. refine (Rle_trans _ _ _ A3 (Rle_trans _ _ _ _ (Req_le _ _ (eq_sym O5)))). lra.
Qed.
