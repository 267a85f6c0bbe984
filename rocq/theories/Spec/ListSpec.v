(** Small list vocabulary used by the specifications, independent of the model's helpers. *)
From Coq Require Import List ZArith.
Import ListNotations.

(** [l'] is [l] without its first element satisfying [P]. *)
Definition removes_first {A} (P : A -> Prop) (l l' : list A) : Prop :=
  exists pre x post,
    l = pre ++ x :: post /\ l' = pre ++ post /\ P x /\ Forall (fun y => ~ P y) pre.

(** [x] is the first element of [l] satisfying [P]. *)
Definition first_with {A} (P : A -> Prop) (l : list A) (x : A) : Prop :=
  exists pre post, l = pre ++ x :: post /\ P x /\ Forall (fun y => ~ P y) pre.

(** The element at a (possibly negative) integer position. *)
Definition at_pos {A} (l : list A) (i : Z) (x : A) : Prop :=
  (0 <= i)%Z /\ nth_error l (Z.to_nat i) = Some x.

(** consecutive pairs *)
Fixpoint pairs {A} (l : list A) : list (A * A) :=
  match l with
  | a :: ((b :: _) as r) => (a, b) :: pairs r
  | _ => []
  end.

(** Position [i] of [l] holds its first element satisfying [P]. *)
Definition first_at {A} (P : A -> Prop) (l : list A) (i : Z) : Prop :=
  (exists x, at_pos l i x /\ P x) /\ forall j y, (0 <= j < i)%Z -> at_pos l j y -> ~ P y.
