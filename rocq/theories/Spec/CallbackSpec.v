(** C89: the callbacks that are to be called. *)
From Verif.Model Require Import Base Wire Worker Callbacks.

Section S.
Context {F : Type}.
Implicit Types (c : callbacks F) (ms : list (move F)).

(** The packet, or the error, goes to the function that is set for it; an error with no function for errors is handed
    out as a packet. *)
Definition wanted (err : option goerr) (data : list byte) c : list (called F) :=
  match err, cb_error c with
  | Some e, Some f => [CallError f e]
  | _, _ => match cb_packet c with Some f => [CallPacket f data] | None => [] end
  end.
Definition wanted_next c : list (called F) := match cb_next c with Some f => [CallNext f] | None => [] end.

(** the callbacks after a call of one of the setters: this one is replaced, the others stay *)
Definition replaced (x : setter F) c (c' : callbacks F) : Prop :=
  match x with
  | SetOnError f => cb_error c' = f /\ cb_packet c' = cb_packet c /\ cb_next c' = cb_next c
  | SetOnPacket f => cb_error c' = cb_error c /\ cb_packet c' = f /\ cb_next c' = cb_next c
  | SetOnNext f => cb_error c' = cb_error c /\ cb_packet c' = cb_packet c /\ cb_next c' = f
  end.

(** [k] are the callbacks at some moment of a schedule that starts with [c]. *)
Inductive at_some_moment : callbacks F -> list (move F) -> callbacks F -> Prop :=
| am_here c ms : at_some_moment c ms c
| am_step c ms k : at_some_moment c ms k -> at_some_moment c (MStep :: ms) k
| am_set c x c' ms k : replaced x c c' -> at_some_moment c' ms k -> at_some_moment c (MSet x :: ms) k.

(** nobody takes a function away *)
Definition only_functions ms : Prop :=
  Forall (fun m => match m with MSet (SetOnError None) | MSet (SetOnPacket None) | MSet (SetOnNext None) => False | _ => True end) ms.
Definition error_left_alone ms : Prop := Forall (fun m => match m with MSet (SetOnError _) => False | _ => True end) ms.

(** how often the goroutine moves *)
Fixpoint moves ms : nat := match ms with [] => 0 | MStep :: r => S (moves r) | MSet _ :: r => moves r end.

(** what a call tells its function *)
Definition told (x : called F) : list report :=
  match x with CallError _ e => [ToOnError e] | CallPacket _ d => [ToOnPacket d] | CallNext _ => [] end.
End S.
