(** Journeys in float64: what is asked of the lengths that are stored with a route, and of the steps. *)
From Coq Require Import Reals.
From Flocq Require Import Core BinarySingleNaN.
From Verif.Model Require Import Base Num NumF64 Geo Curve PropMap Types Track Route Navigator.
From Verif.Spec Require Import ListSpec TrackSpec RouteSpec NavSpec RealSpec.
Open Scope num_scope.

Section S.
Context {T : Type} {N : Num T} {J : JsonLib T}.

(** every segment of the route has a length that [P] accepts *)
Definition lengths_ok (P : T -> bool) (r : route T) : Prop :=
  Forall (fun t => Forall (fun s => P (sg_dist s) = true) (tk_segments t)) (rt_tracks r).

(** calls that add only such routes, and leave the tracks of the routes alone *)
Definition lengths_op (P : T -> bool) (o : nav_op T) : Prop :=
  keeps_tracks o /\
  match o with NAddRoute rs => forall r, In (Some r) rs -> lengths_ok P r | _ => True end.

(** no jumps *)
Definition no_jump_op (o : nav_op T) : Prop := match o with NDestinationTo _ => False | _ => True end.

(** 0 <= 0, as Go compares *)
Definition zero_le_zero : Prop := (f0 <=? f0) = true.

(** steps longer than ten centimetres, questions, and calls that do not concern the position *)
Definition longer_than_mark (o : nav_op T) : Prop :=
  match o with
  | NNextLocation tick speed _ => (fdec 1 10 <? tick * speed) = true
  | NIsFinish | NToOffline _ | NNextElevation _ | NShuffleElevation _ | NQuery => True
  | _ => False
  end.

(** a step forward that is not longer than any segment of the track *)
Definition small_step (tk : track T) (a : T * T * Z) : Prop :=
  let d := fst (fst a) * snd (fst a) in
  (f0 <? d) = true /\ Forall (fun s => (d <=? sg_dist s) = true) (tk_segments tk).
End S.
Arguments zero_le_zero {T} N.

(** the real number a finite float64 stands for *)
Definition value (x : f64) : R := B2R x.
Definition finite (x : f64) : Prop := is_finite x = true.

(** ** example routes: lengths as they are stored with a route that was decoded *)
Section X.
Context {T : Type} {N : Num T}.

(** a track of linked segments of the given lengths; its length is their sum, added up in order *)
Definition stored_segments (lens : list T) : list (segment T) :=
  map (fun '(i, x) => mkSegment (mkPoint f0 f0) (mkPoint f0 f1) x f0 (Z.of_nat i)
                        (if (Z.of_nat i =? zlen lens - 1)%Z then -1 else Z.of_nat i + 1)%Z)
      (combine (seq 0 (List.length lens)) lens).
Definition stored_track (lens : list T) : track T :=
  mkTrack "t" (stored_segments lens) "" "" None (fold_left fadd lens f0) false 1.
Definition stored_route (lens : list T) : route T := RouteFromTracks [Some (stored_track lens)] "r" "#00ff00".
End X.

(** ten metres, twice *)
Definition two_tens : list f64 := [f64_ofZ 10; f64_ofZ 10].
Definition ten_step : f64 * f64 * Z := (f64_ofZ 10, f64_ofZ 1, 0%Z).

(** ** exact lengths: sums of the stored segment lengths, not rounded *)
Definition exact_track (t : track f64) : R := rsum (map (fun s => value (sg_dist s)) (tk_segments t)).
Definition exact_route (r : route f64) : R := rsum (map exact_track (rt_tracks r)).
Definition exact_total (n : navigator f64) : R := rsum (map exact_route (n_routes n)).

(** a length a segment may have: finite and not negative *)
Definition length_ok {N : Num f64} (x : f64) : bool := (is_finite x && fle f0 x)%bool.

(** what rounding may add in [k] steps: less than a part in 2^51 each *)
Definition growth (k : nat) : R := ((1 + / 2 ^ 51) ^ k)%R.

(** the same for any number of steps up to 2^50: a part in 2^50 each *)
Definition slack (k : nat) : R := (1 + INR k / 2 ^ 50)%R.

(** Distances stored with tracks and routes that are the float64 sums of what they consist of, as NewTrack and
    NewRoute compute them. *)
Definition summed_track {N : Num f64} (t : track f64) : Prop := tk_dist t = fsum (map sg_dist (tk_segments t)).
Definition summed_route {N : Num f64} (r : route f64) : Prop :=
  rt_dist r = fsum (map tk_dist (rt_tracks r)) /\ Forall summed_track (rt_tracks r).

(** segments, tracks and routes of the journey, counted together *)
Definition count_parts (n : navigator f64) : nat :=
  Z.to_nat (count_segments n + count_tracks n + zlen (n_routes n)).
