(** Model of random/polygon.go, random/string.go and route.go. Draws are arguments: [f i] is draw number i of
    Float64, [e i] of ExpFloat64, [n i] of Intn(len(charset)). *)
From Coq Require Import Ascii.
From Verif.Model Require Import Base Num Geo PropMap Pb Track Route.

(** random/string.go 3-4 *)
Definition charset : string := "abcdefghijklmnopqrstuvwxyzABCDEFGHIJKLMNOPQRSTUVWXYZ0123456789".

(** random/string.go 14-18: the byte at each position *)
Fixpoint draw_bytes (n : nat -> Z) (i : nat) (count : nat) : res string :=
  match count with
  | O => Ret EmptyString
  | S count =>
      let* c := deref (if (n i <? 0)%Z then None else String.get (Z.to_nat (n i)) charset) in
      let* r := draw_bytes n (S i) count in
      Ret (String c r)
  end.

(** random/string.go 7-19 *)
Definition random_String (length : Z) (n : nat -> Z) : res string :=
  if (length <=? 0)%Z then Ret EmptyString else draw_bytes n 0 (Z.to_nat length).

Section Random.
Context {T : Type} {N : Num T}.
Open Scope num_scope.

(** random/polygon.go 9-11 *)
Definition minFactor : T := fdec 1 10000.
Definition maxFactor : T := fdec 5 10000.

(** random/polygon.go 57-59 *)
Definition randFactor (min max exp : T) : T := min + exp * (max - min).

(** random/polygon.go 31-38: the running sums of the draws; [prev] is the sum so far *)
Fixpoint offsets_from (f : nat -> T) (prev : T) (i count : nat) : list T :=
  match count with
  | O => []
  | S count => let o := prev + f i in o :: offsets_from f o (S i) count
  end.
Definition offsets (f : nat -> T) (count : nat) : list T :=
  match count with
  | O => []
  | S count => f 0%nat :: offsets_from f (f 0%nat) 1 count
  end.

(** random/polygon.go 41-51: one corner *)
Definition corner (zoom offset last exp : T) : T * T :=
  let cur := (offset * fofZ 6 * c_phi) / last in
  let factor := randFactor minFactor maxFactor exp in
  if zoom >? f0 then (factor * zoom * fsin cur, factor * zoom * fcos cur)
  else (factor * fsin cur, factor * fcos cur).

(** random/polygon.go 40-52 *)
Fixpoint corners (zoom last : T) (e : nat -> T) (i : nat) (l : list T) : list (T * T) :=
  match l with
  | [] => []
  | o :: r => corner zoom o last (e i) :: corners zoom last e (S i) r
  end.

(** random/polygon.go 19-55. offsets[len(offsets)-1] (line 39) panics for zero points. *)
Definition Polygon (points : Z) (zoom : T) (f e : nat -> T) : res (list (T * T)) :=
  let points := if (points <? 0)%Z then 16%Z else points in
  let zoom := if zoom <? f0 then f0 else zoom in
  let zoom := if zoom >? fofZ 1000 then fofZ 1000 else zoom in
  let os := offsets f (Z.to_nat points) in
  let* last := deref (zget os (zlen os - 1)%Z) in
  let cs := corners zoom last e 0 os in
  let* c0 := deref (zget cs 0) in
  Ret (cs ++ [c0]).

(** What one track of RandomRoute draws. *)
Record trackDraws : Type := mkTrackDraws {
  td_float : nat -> T; td_exp : nat -> T; td_uuid : string; td_color : string; td_name : nat -> Z }.

(** route.go 36-43: one track. The error of NewTrack is dropped; its track is nil then, and
    ChangeName (line 41) panics. *)
Definition random_track (lon lat : T) (level : Z) (x : trackDraws) : res (track T) :=
  let* raw := Polygon 16 (fofZ level) (td_float x) (td_exp x) in
  match NewTrack (NormalizeCoordinates lat lon raw) (td_uuid x) (td_color x) with
  | GErr _ => Panic
  | GOk t => let* s := random_String 8 (td_name x) in Ret (snd (track_ChangeName t ("Track-" ++ s)%string))
  end.

Fixpoint random_tracks (lon lat : T) (level : Z) (x : nat -> trackDraws) (i count : nat) (r : route T) : res (route T) :=
  match count with
  | O => Ret r
  | S count => let* t := random_track lon lat level (x i) in random_tracks lon lat level x (S i) count (AddTrack r (Some t))
  end.

(** route.go 23-45 *)
Definition RandomRoute (lon lat : T) (numTrack level : Z) (uuid color : string) (n : nat -> Z) (x : nat -> trackDraws) : res (route T) :=
  let numTrack := if (numTrack <? 0)%Z then 1%Z else numTrack in
  let level := if (level <? 10)%Z then 10%Z else level in
  let level := if (600 <? level)%Z then 600%Z else level in
  let* s := random_String 8 n in
  random_tracks lon lat level x 0 (Z.to_nat numTrack) (snd (route_ChangeName (NewRoute uuid color) ("Route-" ++ s)%string)).
End Random.
Arguments trackDraws : clear implicits.

(** route.go 48-78: New York, Moscow, Paris (3 tracks, level L). The literals of Moscow and Paris have more
    digits than a binary64 integer and are left as arguments. *)
Definition RandomRouteForCity {T} {N : Num T} (lon lat : T) := RandomRoute lon lat 3 120.
Definition RandomRouteForNewYork {T} {N : Num T} := RandomRouteForCity (fdec (-74006) 1000) (fdec 407128 10000).
