(** What iterating over a list means. *)
From Verif.Model Require Import Base.

Section EachSpec.
Context {A : Type}.
(** the calls [l] go through the list [xs] in order, each element once with its index, up to the first answer false *)
Definition goes_through (xs : list A) (l : list (nat * A * bool)) : Prop :=
  exists rest, combine (seq 0 (List.length xs)) xs = map fst l ++ rest /\
    Forall (fun c => snd c = true) (removelast l) /\
    (rest <> [] -> exists l' i x, l = l' ++ [(i, x, false)]).

(** the first, third, ... element of a list; the second, fourth, ... *)
Fixpoint odd_places (l : list A) : list A := match l with x :: _ :: r => x :: odd_places r | _ => l end.
Definition even_places (l : list A) : list A := odd_places (tl l).
End EachSpec.
