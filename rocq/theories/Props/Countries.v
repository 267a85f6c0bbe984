(** C60: country tables. *)
From Coq Require Import Ascii Reals Lia.
From Flocq Require Import Core BinarySingleNaN.
From Verif.Model Require Import Base Num NumF64 Geo Countries.
From Verif.Spec Require Import CountriesSpec.
From Verif.Proofs Require Import CountriesProofs.

(** C60. A code has a name exactly if it has a box. *)
Theorem C60_names_and_boxes : forall (T : Type) (N : Num T) (upper : string -> string) (code : string),
  (exists name, CountryName upper code = GOk name) <-> (exists b : bbox T, BoundingBox upper code = GOk b).
Proof. exact @C60_same_proof. Qed.
Print Assumptions C60_names_and_boxes.

(** The names found are those of the table, in any letter case. *)
Theorem C60_lookup : forall (upper : string -> string) (code name : string), upper_law upper ->
  (CountryName upper code = GOk name <-> exists k, same_word code k /\ In (k, name) countries).
Proof. exact C60_names_proof. Qed.
Print Assumptions C60_lookup.

(** Every listed country is found, and is found under one name only. *)
Theorem C60_listed : forall (upper : string -> string) (k name : string), upper_law upper -> In (k, name) EachCountry ->
  CountryName upper k = GOk name /\ forall name', In (k, name') EachCountry -> name' = name.
Proof. exact C60_listed_proof. Qed.
Print Assumptions C60_listed.

(** Lookups do not depend on the case of letters. *)
Theorem C60_case : forall (T : Type) (N : Num T) (upper : string -> string) (s t : string), upper_law upper -> same_word s t ->
  CountryName upper s = CountryName upper t /\ BoundingBox upper s = BoundingBox upper t /\
  forall u v : T, LatLonByCountry upper s u v = LatLonByCountry upper t u v.
Proof. exact @C60_case_proof. Qed.
Print Assumptions C60_case.

(** Anything else is an error. *)
Theorem C60_errors : forall (T : Type) (N : Num T) (upper : string -> string) (code : string),
  (forall k, same_word code k -> ~ In k (map fst countries)) -> upper_law upper ->
  CountryName upper code = GErr ErrCountryNotFound /\ BoundingBox upper code = GErr ErrCountryBoundsNotFound /\
  forall u v : T, LatLonByCountry upper code u v = GErr ErrCountryBoundsNotFound.
Proof. exact @C60_errors_proof. Qed.
Print Assumptions C60_errors.

(** At binary64: every box is inside the world and not empty, and every draw gives a point of the box,
    rounding included. *)
Theorem C60_inside : forall (upper : string -> string) (m : MathLib) (code : string) (b : bbox f64) (N := F64Num m),
  upper_law upper -> BoundingBox upper code = GOk b ->
  world_box b /\ forall u v, unit_draw u -> unit_draw v ->
    exists p, LatLonByCountry upper code u v = GOk p /\ bbox_In b p = true.
Proof. exact C60_inside_proof. Qed.
Print Assumptions C60_inside.

(** LatLon stays inside the world. *)
Theorem C60_anywhere : forall (m : MathLib) (u v : f64) (N := F64Num m), unit_draw u -> unit_draw v ->
  bbox_In (mkBBox (fofZ (-180)) (fofZ (-90)) (fofZ 180) (fofZ 90)) (LatLon u v) = true.
Proof. exact C60_world_proof. Qed.
Print Assumptions C60_anywhere.

Example C60_example (N := F64Num idMath) : upper_law (fun s => s) /\ CountryName (fun s => s) "fR"%string = GOk "France"%string /\
  CountryName (fun s => s) "XX"%string = GErr ErrCountryNotFound /\
  match BoundingBox (fun s => s) "fr"%string with GOk b => Beqb (minLon b) (f64_ofZ (-5)) | _ => false end = true /\
  unit_draw (f64_norm 3 (-2)) /\ unit_draw (f64_norm (2 ^ 53 - 1) (-53)).
Proof.
  split; [intros s _ H1 H2; contradiction|]. repeat split; vm_compute; reflexivity.
Qed.
