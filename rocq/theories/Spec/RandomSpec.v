(** Random routes. *)
From Coq Require Import Ascii Reals.
From Verif.Model Require Import Base Num NumR Geo PropMap Pb Track Route RandomRoute.
From Verif.Spec Require Import ListSpec TrackSpec.

(** letters and digits *)
Definition alphanumeric (c : ascii) : Prop :=
  let n := nat_of_ascii c in (48 <= n <= 57 \/ 65 <= n <= 90 \/ 97 <= n <= 122)%nat.
Inductive all_chars (p : ascii -> Prop) : string -> Prop :=
| ac_nil : all_chars p EmptyString
| ac_cons c s : p c -> all_chars p s -> all_chars p (String c s).

(** [name] is [prefix] and eight random letters or digits *)
Definition random_name (prefix name : string) : Prop :=
  exists s, name = (prefix ++ s)%string /\ String.length s = 8%nat /\ all_chars alphanumeric s.

(** what Intn(62) returns *)
Definition intn_draws (n : nat -> Z) : Prop := forall i, (0 <= n i < 62)%Z.

(** the number of tracks asked for, and the level *)
Definition tracks_wanted (n : Z) : Z := if (n <? 0)%Z then 1%Z else n.
Definition clamped (level : Z) : Z := Z.max 10 (Z.min 600 level).

Section S.
Context {T : Type} {N : Num T}.

(** A track through 17 points that ends where it starts; closed if its coordinates are numbers. *)
Definition random_loop (t : track T) : Prop :=
  exists p mid, is_track_through (p :: mid ++ [p]) t /\ List.length mid = 15%nat /\ NumSegments t = 16%Z /\
    (not_nan p -> tk_isClosed t = true).
End S.

Open Scope R_scope.

(** [p] is on the circle (in degrees) around the centre *)
Definition on_circle (lon0 lat0 radius : R) (p : point R) : Prop :=
  (lat p - lat0) ^ 2 + (lon p - lon0) ^ 2 = radius ^ 2.

(** the radius of a corner: the level, a ten-thousandth of it and up, as the exponential draw has it *)
Definition corner_radius (level : Z) (e : R) : R := IZR (clamped level) * (1 + 4 * e) / 10000.

(** draws of Float64 and ExpFloat64 the real reading applies to: the sum that is divided by is not zero *)
Definition real_draws (x : trackDraws R) : Prop :=
  (forall i, 0 <= td_float x i < 1) /\ (exists i, (i < 16)%nat /\ 0 < td_float x i) /\ (forall i, 0 <= td_exp x i).

(** a latitude and a longitude *)
Definition on_globe (p : point R) : Prop := -90 <= lat p <= 90 /\ -180 <= lon p <= 180.

(** ** binary64 *)
From Flocq Require Import BinarySingleNaN.
From Verif.Model Require Import NumF64.
From Verif.Spec Require Import CountriesSpec.

(** sin and cos of finite numbers are in [-1, 1] *)
Definition trig_law (m : MathLib) : Prop := forall x, is_finite x = true ->
  (Bleb (f64_ofZ (-1)) (m_sin m x) && Bleb (m_sin m x) (f64_ofZ 1) && Bleb (f64_ofZ (-1)) (m_cos m x) && Bleb (m_cos m x) (f64_ofZ 1))%bool = true.

(** What Float64 returns: a multiple of 2^-53 in [0, 1), here not all zero. What ExpFloat64 returns: at most 45
    (7.7 - log u for a draw u of Float64), except +Inf if u = 0; here anything up to 1024. *)
Definition float_draws (x : trackDraws f64) : Prop :=
  (forall i, unit_draw (td_float x i)) /\
  (exists i, (i < 16)%nat /\ Bleb (f64_norm 1 (-53)) (td_float x i) = true) /\
  (forall i, Bleb (f64_ofZ 0) (td_exp x i) = true /\ Bleb (td_exp x i) (f64_ofZ 1024) = true).

(** a finite number, at most 1000 up or down *)
Definition moderate (x : f64) : Prop := Bleb (f64_ofZ (-1000)) x = true /\ Bleb x (f64_ofZ 1000) = true.
