(** C90: nothing more is heard of a closed generator. *)
From Verif.Model Require Import Base Generator GenConc.

Section S.
Context {D : Type}.

(** none of the generator's goroutines can move *)
Definition at_rest (c : genConf) (on : bool) (s : state D) : Prop := forall s', ~ step c on LInt s s'.

(** whatever happens from now on, no callback is called: neither OnPacket nor OnError, with a packet, nor OnNext *)
Definition silent (c : genConf) (on : bool) (s : state D) : Prop :=
  forall ls s', steps c on ls s s' -> s_out s' = s_out s /\ s_calls s' = s_calls s.

(** the workers that have begun to serialise a packet and have not handed it out yet *)
Definition in_hand (s : state D) : nat :=
  List.length (filter (fun w => match w with WMarshal _ | WCall _ => true | _ => false end) (s_workers s)).
End S.
