(** Saving what was loaded (C87): the vocabulary. *)
From Verif.Model Require Import Base Num PropMap Track Route Navigator Device.
From Verif.Spec Require Import SnapSpec RestoreSpec.

Section ResaveSpec.
Context {T : Type} {N : Num T} {J : JsonLib T}.

(** A property map whose JSON text, read and written again, is the same text.  This fails, for example,
    for integers beyond 2^53, which are read as rounded floating-point numbers. *)
Definition rewritable (p : option (props T)) : Prop :=
  match p with
  | None => True
  | Some q => exists b q', json_marshal q = Some b /\ json_unmarshal b = Some (Some q') /\ json_marshal q' = Some b
  end.
Definition rewritable_route (r : route T) : Prop :=
  rewritable (rt_props r) /\ Forall (fun t => rewritable (tk_props t)) (rt_tracks r).
Definition rewritable_device (d : device T) : Prop := Forall rewritable_route (n_routes (d_nav d)).

End ResaveSpec.
