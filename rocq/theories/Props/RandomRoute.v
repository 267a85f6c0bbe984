(** C59, C65: random routes. *)
From Coq Require Import Ascii Reals Lra Lia.
From Flocq Require Import Core BinarySingleNaN.
From Verif.Model Require Import Base Num NumR NumF64 Geo PropMap Pb Track Route RandomRoute.
From Verif.Spec Require Import ListSpec TrackSpec CountriesSpec RandomSpec.
From Verif.Proofs Require Import RandomProofs.

(** C59 in any arithmetic: RandomRoute never panics; the route and its tracks are named, there are as many tracks
    as asked for (one for a negative count), and each is a loop of 16 segments. *)
Theorem C59_well_formed : forall (T : Type) (N : Num T) (lon0 lat0 : T) (n level : Z) (uuid color : string) (nd : nat -> Z) (x : nat -> trackDraws T),
  intn_draws nd -> (forall i, intn_draws (td_name (x i))) ->
  exists r, RandomRoute lon0 lat0 n level uuid color nd x = Ret r /\ rt_id r = uuid /\ rt_color r = color /\ random_name "Route-" (rt_name r) /\
    NumTracks r = tracks_wanted n /\
    forall j t, nth_error (rt_tracks r) j = Some t ->
      random_name "Track-" (tk_name t) /\ tk_id t = td_uuid (x j) /\ tk_color t = td_color (x j) /\ random_loop t.
Proof. exact @C59_proof. Qed.
Print Assumptions C59_well_formed.

(** At binary64: all coordinates are finite and every track is closed, if the draws are not all zero. *)
Theorem C59_closed_partial : forall (m : MathLib) (N := F64Num m) (lon0 lat0 : f64) (n level : Z) (uuid color : string) (nd : nat -> Z)
    (x : nat -> trackDraws f64) (r : route f64),
  trig_law m -> intn_draws nd -> (forall i, intn_draws (td_name (x i))) -> moderate lon0 -> moderate lat0 ->
  RandomRoute lon0 lat0 n level uuid color nd x = Ret r ->
  forall i t, nth_error (rt_tracks r) i = Some t -> float_draws (x i) ->
    tk_isClosed t = true /\ forall p, In p (polyline_of t) -> is_finite (lat p) = true /\ is_finite (lon p) = true.
Proof. exact C59_closed_proof. Qed.
Print Assumptions C59_closed_partial.

(** Over the reals: corner j is on the circle around the centre whose radius (in degrees) is the level, clamped to
    10..600, times (1 + 4 e) / 10000, for the exponential draw e of that corner. *)
Theorem C59_on_circle : forall (lon0 lat0 : R) (n level : Z) (uuid color : string) (nd : nat -> Z) (x : nat -> trackDraws R) (r : route R),
  intn_draws nd -> (forall i, intn_draws (td_name (x i))) -> RandomRoute lon0 lat0 n level uuid color nd x = Ret r ->
  forall i t j p, nth_error (rt_tracks r) i = Some t -> nth_error (polyline_of t) j = Some p -> real_draws (x i) ->
    on_circle lon0 lat0 (corner_radius level (td_exp (x i) (if (j =? 16)%nat then 0%nat else j))) p.
Proof. exact C59_circle_proof. Qed.
Print Assumptions C59_on_circle.

(** If all 16 draws are 0 the division by their sum gives NaN: no coordinate is a number and the track is not closed. *)
Theorem C59_zero_draws_refuted : forall (m : MathLib) (N := F64Num m) (lon0 lat0 : f64) (level : Z) (x : trackDraws f64) (t : track f64),
  m_sin m f64_nan = f64_nan -> m_cos m f64_nan = f64_nan -> intn_draws (td_name x) -> (forall i, td_float x i = f64_ofZ 0) ->
  random_track lon0 lat0 level x = Ret t ->
  tk_isClosed t = false /\ forall p, In p (polyline_of t) -> lat p = f64_nan /\ lon p = f64_nan.
Proof. exact C59_zero_proof. Qed.
Print Assumptions C59_zero_draws_refuted.

(** C65. Tracks whose circle stays clear of the edges of the map are on the globe ... *)
Theorem C65_on_globe_partial : forall (lon0 lat0 : R) (n level : Z) (uuid color : string) (nd : nat -> Z) (x : nat -> trackDraws R) (r : route R) (emax : R),
  intn_draws nd -> (forall i, intn_draws (td_name (x i))) -> RandomRoute lon0 lat0 n level uuid color nd x = Ret r ->
  (forall i, real_draws (x i)) -> (forall i j, (td_exp (x i) j <= emax)%R) ->
  (Rabs lat0 + corner_radius level emax <= 90)%R -> (Rabs lon0 + corner_radius level emax <= 180)%R ->
  forall t p, In t (rt_tracks r) -> In p (polyline_of t) -> on_globe p.
Proof. exact C65_partial_proof. Qed.
Print Assumptions C65_on_globe_partial.

(** ... and from the south pole no track is, whatever the draws. *)
Theorem C65_refuted : forall (lon0 : R) (n level : Z) (uuid color : string) (nd : nat -> Z) (x : nat -> trackDraws R) (r : route R),
  intn_draws nd -> (forall i, intn_draws (td_name (x i))) -> RandomRoute lon0 (-90)%R n level uuid color nd x = Ret r ->
  forall i t, nth_error (rt_tracks r) i = Some t -> real_draws (x i) -> exists p, In p (polyline_of t) /\ (lat p < -90)%R.
Proof. exact C65_refuted_proof. Qed.
Print Assumptions C65_refuted.

(** Draws and functions that meet the hypotheses. *)
Definition flatMath : MathLib := {| m_sin := fun _ => f64_ofZ 0; m_cos := fun _ => f64_ofZ 1; m_asin := fun x => x;
  m_atan2 := fun y _ => y; m_mod := fun x _ => x |}.
Definition someDraws : trackDraws f64 := mkTrackDraws (fun i => if (i =? 3)%nat then f64_norm 3 (-2) else f64_norm 1 (-3)) (fun _ => f64_ofZ 2) "t"%string "#fff"%string (fun i => (Z.of_nat i mod 62)%Z).
Definition zeroDraws : trackDraws f64 := mkTrackDraws (fun _ => f64_ofZ 0) (fun _ => f64_ofZ 2) "t"%string "#fff"%string (fun i => (Z.of_nat i mod 62)%Z).
Example C59_example (N := F64Num flatMath) : trig_law flatMath /\ float_draws someDraws /\ intn_draws (td_name someDraws) /\
  moderate (f64_ofZ 30) /\
  match RandomRoute (f64_ofZ 30) (f64_ofZ 50) 2 100 "id"%string "#000"%string (fun i => (Z.of_nat i mod 62)%Z) (fun _ => someDraws) with
  | Ret r => (NumTracks r =? 2)%Z && (rt_name r =? "Route-abcdefgh")%string && forallb (fun t => tk_isClosed t && (NumSegments t =? 16)%Z) (rt_tracks r)
  | _ => false end = true.
Proof.
  split; [intros y _; vm_compute; reflexivity|]. split.
  - split; [intros i; unfold someDraws; cbn [td_float]; destruct (i =? 3)%nat; split; vm_compute; reflexivity|].
    split; [exists 3%nat; split; [lia|vm_compute; reflexivity]|]. intros i. split; vm_compute; reflexivity.
  - split; [intros i; apply Z.mod_pos_bound; lia|]. split; [split; vm_compute; reflexivity|]. vm_compute. reflexivity.
Qed.

Example C59_zero_example : exists m : MathLib, (m_sin m f64_nan = f64_nan /\ m_cos m f64_nan = f64_nan) /\ intn_draws (td_name zeroDraws) /\
  (forall i, td_float zeroDraws i = f64_ofZ 0) /\
  match @random_track f64 (F64Num m) (f64_ofZ 30) (f64_ofZ 50) 100 zeroDraws with Ret t => negb (tk_isClosed t) | _ => false end = true.
Proof.
  exists {| m_sin := fun x => x; m_cos := fun x => x; m_asin := fun x => x; m_atan2 := fun y _ => y; m_mod := fun x _ => x |}.
  split; [split; reflexivity|]. split; [intros i; apply Z.mod_pos_bound; lia|]. split; [reflexivity|]. vm_compute. reflexivity.
Qed.

Example C65_example : exists x : trackDraws R, real_draws x /\ intn_draws (td_name x) /\ (forall j, (td_exp x j <= 10)%R) /\ (Rabs 50 + corner_radius 100 10 <= 90)%R /\
  exists r, RandomRoute 30%R 50%R 2 100 "id"%string "#000"%string (td_name x) (fun _ => x) = Ret r /\ NumTracks r = 2%Z.
Proof.
  set (x := mkTrackDraws (fun _ : nat => (/ 2)%R) (fun _ : nat => 1%R) "t"%string "#fff"%string (fun i => (Z.of_nat i mod 62)%Z)).
  assert (Hn : intn_draws (td_name x)) by (intros i; apply Z.mod_pos_bound; lia).
  exists x. split; [unfold real_draws, x; cbn; repeat split; intros; try lra; exists 0%nat; split; [lia|lra]|]. split; [exact Hn|]. split; [intros; cbn; lra|].
  split; [unfold corner_radius; change (clamped 100) with 100%Z; rewrite Rabs_pos_eq; lra|].
  destruct (C59_proof 30%R 50%R 2 100 "id"%string "#000"%string (td_name x) (fun _ => x) Hn (fun _ => Hn)) as (r & A & _ & _ & _ & B & _). exists r. split; [exact A|exact B].
Qed.
