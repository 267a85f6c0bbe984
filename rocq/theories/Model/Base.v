(** Shared vocabulary of the model: outcomes of Go code, Go slices as lists, errors.

    Modelling conventions (see /verif/DESIGN.md):
    - a Go function that may panic returns [res A];
    - a Go slice is a list, [len] is [zlen], an index expression is [zget] (which is [None]
      exactly where Go panics with "index out of range");
    - [int], [int64], ... are [Z] without overflow unless a comment says otherwise;
    - a Go string is a Coq [string], i.e. a sequence of bytes, [len] is [String.length]. *)
From Coq Require Export ZArith List String Bool.
Export ListNotations.
Open Scope Z_scope.

(** Outcome of running Go code: normal return, panic, or the model ran out of loop fuel. *)
Inductive res (A : Type) : Type :=
| Ret (a : A)
| Panic
| NoFuel.
Arguments Ret {A} a.
Arguments Panic {A}.
Arguments NoFuel {A}.

Definition bind {A B} (m : res A) (k : A -> res B) : res B :=
  match m with Ret a => k a | Panic => Panic | NoFuel => NoFuel end.

Declare Scope go_scope.
Notation "'let*' x := m 'in' k" := (bind m (fun x => k))
  (at level 200, x pattern, m at level 100, k at level 200, right associativity) : go_scope.
Open Scope go_scope.

(** A nil pointer dereference panics. *)
Definition deref {A} (p : option A) : res A :=
  match p with Some a => Ret a | None => Panic end.

(** len(l) as a Go int. *)
Definition zlen {A} (l : list A) : Z := Z.of_nat (List.length l).

(** l[i] for a Go int i; [None] where Go panics. *)
Definition zget {A} (l : list A) (i : Z) : option A :=
  if (i <? 0)%Z then None else nth_error l (Z.to_nat i).

(** l[n] = x in place (no effect when out of range; callers only use it in range). *)
Fixpoint set_nth {A} (n : nat) (x : A) (l : list A) : list A :=
  match n, l with
  | _, [] => []
  | O, _ :: r => x :: r
  | S n', y :: r => y :: set_nth n' x r
  end.

Definition slen (s : string) : Z := Z.of_nat (String.length s).

(** Delete the element at position n: the Go idiom append(l[:n], l[n+1:]...). *)
Fixpoint del_nth {A} (n : nat) (l : list A) : list A :=
  match n, l with
  | _, [] => []
  | O, _ :: r => r
  | S n', y :: r => y :: del_nth n' r
  end.

(** The search loop "for i := 0; i < len(l); i++ { if p(l[i]) { ...i... break } }". *)
Fixpoint find_index_from {A} (p : A -> bool) (l : list A) (i : nat) : option nat :=
  match l with
  | [] => None
  | x :: r => if p x then Some i else find_index_from p r (S i)
  end.
Definition find_index {A} (p : A -> bool) (l : list A) : option nat := find_index_from p l 0.

(** Sequential "for" loop over a list inside [res]. *)
Fixpoint mapM {A B} (f : A -> res B) (l : list A) : res (list B) :=
  match l with
  | [] => Ret []
  | x :: r => let* y := f x in let* ys := mapM f r in Ret (y :: ys)
  end.

(** Errors returned by the library (only their identity matters). *)
Inductive goerr : Type :=
| ErrMinSpeed | ErrMaxSpeed | ErrSpeedMinGreaterMax        (* types/speed.go 16-23 *)
| ErrMinAmplitude | ErrMaxAmplitude                        (* types/validator.go 10-15 *)
| ErrMinBattery | ErrMaxBattery                            (* types/battery.go 17-22 *)
| ErrEmptySensorName | ErrInvalidUUID                      (* types/sensor.go 13, 78-81 *)
| ErrModelTooShort | ErrModelTooLong                       (* types/model.go 14-19 *)
| ErrNameTooShort | ErrNameTooLong                         (* navigator/types.go 35-43 *)
| ErrNoRoutes | ErrTrackNotFound | ErrRouteNotFound | ErrInvalidRoutePath (* navigator/errors.go *)
| ErrEmptyTrackID                                          (* navigator/route_track.go 46-48 *)
| ErrInvalidColor                                          (* colorful.Hex / IsValid failures *)
| ErrElevationMin | ErrElevationMax | ErrOfflineMin | ErrOfflineMax (* navigator/options.go *)
| ErrJSON                                                  (* encoding/json failure *)
| ErrAlreadyRunning | ErrAlreadyStopped                    (* device.go 790-808 *)
| ErrNoData | ErrWire | ErrUTF8                            (* io.go, google.golang.org/protobuf *)
| ErrInvalidRoute | ErrInvalidGeometryType | ErrInvalidTracksInfo  (* geojson, gpx *)
| ErrCountryNotFound | ErrCountryBoundsNotFound            (* random/latlon.go 11-17 *)
| ErrXML.                                                  (* encoding/xml, gpxgo failures *)

(** Go's (value, error) result. *)
Inductive goret (A : Type) : Type :=
| GOk (a : A)
| GErr (e : goerr).
Arguments GOk {A} a.
Arguments GErr {A} e.
