(** What it means that simulated time keeps up with the clock. *)
From Coq Require Import Reals Sorting.Sorted.
From Verif.Model Require Import Base Clock.
Open Scope R_scope.

(** the time between two moments, in seconds *)
Definition seconds (from to : Z) : R := IZR (to - from) / 1000000000.

(** the times at which the ticker goes off *)
Fixpoint fires (evs : list tick_event) : list Z :=
  match evs with [] => [] | Fire t :: r => t :: fires r | Recv :: r => fires r end.

(** moments in order, each at least [gap] nanoseconds after the ones before it *)
Definition apart (gap : Z) (ts : list Z) : Prop := StronglySorted (fun a b => (a + gap <= b)%Z) ts.

(** a ticker that goes off every [interval] exactly, [n] times, from time 0 *)
Definition regular (interval : Z) (n : nat) : list Z := map (fun k => (Z.of_nat k * interval)%Z) (seq 1 n).
