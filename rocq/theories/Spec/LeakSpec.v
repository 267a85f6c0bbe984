(** C88: the goroutines a generator started. *)
From Verif.Model Require Import Base Generator GenConc.

Section S.
Context {D : Type}.

(** How many of the goroutines Run started have not returned: the run loop, the OnNext loop and the workers. *)
Definition goroutines (s : state D) : nat :=
  ((match s_run s with RGone => 0 | _ => 1 end) + (match s_next s with NGone => 0 | _ => 1 end) +
   List.length (filter (fun w => match w with WGone => false | _ => true end) (s_workers s)))%nat.
End S.
