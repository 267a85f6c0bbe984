(** Route.EachTrack, Navigator.EachRoute and Generator.Each with callbacks that may change anything, also the list. The state of the
    program is of any type [S]; the route or navigator is read from it. One call of the callback takes the index, the
    element and the state, and gives its answer and the state after it. The loop is bounded by fuel. *)
From Verif.Model Require Import Base Num Geo Curve PropMap Pb Types TypesSnap Track Route Navigator.

Section Each.
Context {S A : Type}.
(** the loop "for i := 0; i < len(l); i++ { if ok := fn(i, l[i]); !ok { break } }", [get s] being l in state [s] (it is
    read again in every round); the calls made, with their answers, and the state at the end *)
Fixpoint each_loop (fuel : nat) (get : S -> list A) (fn : nat -> A -> S -> bool * S) (i : nat) (s : S)
  : res (list (nat * A * bool) * S) :=
  match fuel with
  | O => NoFuel
  | Datatypes.S f =>
      match nth_error (get s) i with
      | None => Ret ([], s)
      | Some x =>
          let (ok, s') := fn i x s in
          if ok then let* (l, s'') := each_loop f get fn (i + 1) s' in Ret ((i, x, true) :: l, s'')
          else Ret ([(i, x, false)], s')
      end
  end.
End Each.

Section EachOf.
Context {T S : Type}.
(** navigator/route.go 157-163 *)
Definition EachTrack (fuel : nat) (r : S -> route T) (fn : nat -> track T -> S -> bool * S) (s : S) :=
  each_loop fuel (fun s => rt_tracks (r s)) fn 0 s.
(** navigator/navigator.go 137-146; the test for no routes is that of the loop *)
Definition EachRoute (fuel : nat) (n : S -> navigator T) (fn : nat -> route T -> S -> bool * S) (s : S) :=
  each_loop fuel (fun s => n_routes (n s)) fn 0 s.
(** generator.go 134-142. The lock is held for reading; a callback that attaches or detaches waits for it for ever (C72),
    so [fn] leaves the list alone. [devices s]: g.devices in state [s], [D] the type of devices. *)
Definition EachDevice {D : Type} (fuel : nat) (devices : S -> list D) (fn : nat -> D -> S -> bool * S) (s : S) :=
  each_loop fuel devices fn 0 s.
End EachOf.
