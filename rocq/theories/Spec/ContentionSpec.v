(** The seconds of contended calls of Next. *)
From Verif.Model Require Import Base Contention.

(** the calls of Next that found the device locked *)
Fixpoint failed (es : list event) : Z :=
  match es with [] => 0 | EFail :: r => 1 + failed r | _ :: r => failed r end%Z.

(** the extra seconds successful calls of Next counted *)
Fixpoint counted (es : list event) : Z :=
  match es with [] => 0 | EStore v :: r => v + counted r | _ :: r => counted r end%Z.

(** A successful call and a contended one cross: the contended call's increment falls between the load
    and the store. *)
Fixpoint crossed (loaded : bool) (es : list event) : Z :=
  match es with
  | [] => 0
  | ELoad :: r => crossed true r
  | EStore _ :: r => crossed false r
  | EInc :: r => (if loaded then 1 else 0) + crossed loaded r
  | _ :: r => crossed loaded r
  end%Z.
