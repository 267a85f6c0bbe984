(** The clock of a running generator: the ticker and the seconds the run loop hands to the devices. Times are in
    nanoseconds since any moment (monotonic readings). *)
From Verif.Model Require Import Base Num Geo Curve PropMap Pb Types.
Open Scope num_scope.

Section Clock.
Context {T : Type} {N : Num T}.

(** generator.go 224-227: the argument of Next at a tick received with time [t]; time.Time.Sub saturates after 292 years,
    which is not modelled *)
Definition tick_of (lastTime t : Z) : T :=
  let tick := fabs (duration_Seconds (lastTime - t)%Z) in
  if tick <? f1 then f1 else tick.

(** generator.go 213-258: the ticks of a run that starts at [lastTime] and receives the times [ts] *)
Fixpoint run_ticks (lastTime : Z) (ts : list Z) : list T :=
  match ts with
  | [] => []
  | t :: r => tick_of lastTime t :: run_ticks t r
  end.
End Clock.

(** time.Ticker as its documentation has it (made by New, generator.go 89): a channel that holds one time; a time that
    finds it full is dropped. [Fire t]: the ticker goes off at [t]; [Recv]: the run loop takes what is in the channel
    (generator.go 220; it waits while there is nothing). *)
Inductive tick_event : Type := Fire (t : Z) | Recv.
Fixpoint ticker (held : option Z) (evs : list tick_event) : list Z :=
  match evs with
  | [] => []
  | Fire t :: r => ticker (Some (match held with Some b => b | None => t end)) r
  | Recv :: r => match held with Some t => t :: ticker None r | None => ticker None r end
  end.
