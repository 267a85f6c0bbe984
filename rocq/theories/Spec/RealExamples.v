(** Concrete routes along the equator, over the reals. *)
From Coq Require Import Reals.
From Verif.Model Require Import Base Num NumR Geo Curve PropMap Types TypesSnap Track Route Navigator.
Open Scope R_scope.

Definition rx_json : JsonLib R := {| json_marshal := fun _ => None; json_unmarshal := fun _ => None |}.

(** the track through the given longitudes on the equator *)
Definition rx_track (id : string) (lons : list R) : option (track R) :=
  match NewTrack (map (fun l => mkPoint 0 l) lons) id "#ff0000" with GOk t => Some t | GErr _ => None end.
Definition rx_route (id : string) (ts : list (option (track R))) : option (route R) :=
  Some (RouteFromTracks ts id "#00ff00").

(** one degree along the equator *)
Definition degree : R := Distance (T := R) 0 0 0 1.
