(** Replacing the callbacks of a generator while it runs. OnError, OnPacket and OnNext store a function under the
    generator's lock; the goroutines that call the functions read the fields without it, once to test for nil and once
    more to call. One goroutine handles one packet, or one notification; all others only read these fields, so the rest
    of the program is the setters other goroutines call in between. Reads are modelled as if memory were sequentially
    consistent, which Go does not promise for reads without a lock. *)
From Verif.Model Require Import Base.

Section Callbacks.
(** [F]: the functions a program can pass; None is nil *)
Context {F : Type}.
(** generator.go 32-34 *)
Record callbacks : Type := mkCallbacks { cb_error : option F; cb_packet : option F; cb_next : option F }.

Inductive setter : Type := SetOnError (f : option F) | SetOnPacket (f : option F) | SetOnNext (f : option F).
(** generator.go 165-169, 172-176, 179-183 *)
Definition set_callback (c : callbacks) (x : setter) : callbacks :=
  match x with
  | SetOnError f => mkCallbacks f (cb_packet c) (cb_next c)
  | SetOnPacket f => mkCallbacks (cb_error c) f (cb_next c)
  | SetOnNext f => mkCallbacks (cb_error c) (cb_packet c) f
  end.

Inductive called : Type := CallError (f : F) (e : goerr) | CallPacket (f : F) (data : list Z) | CallNext (f : F).

(** Where the goroutine is: a worker with a packet (lines 296-300) or the OnNext loop with a notification (329-332). *)
Inductive hpc : Type :=
| HErrTest   (* err != nil && g.onError != nil, line 296 *)
| HErrCall   (* line 297 *)
| HPckTest   (* g.onPacket != nil, line 298 *)
| HPckCall   (* line 299 *)
| HNextTest  (* g.onNext == nil, line 329 *)
| HNextCall  (* line 332 *)
| HDone
| HPanic.    (* a nil function was called *)

(** One read of a field and what depends on it; [err] and [data] are what the encoder returned (line 293). *)
Definition hstep (err : option goerr) (data : list Z) (c : callbacks) (p : hpc) : hpc * list called :=
  match p with
  | HErrTest => match err, cb_error c with Some _, Some _ => (HErrCall, []) | _, _ => (HPckTest, []) end
  | HErrCall => match err, cb_error c with Some e, Some f => (HDone, [CallError f e]) | _, _ => (HPanic, []) end
  | HPckTest => match cb_packet c with Some _ => (HPckCall, []) | None => (HDone, []) end
  | HPckCall => match cb_packet c with Some f => (HDone, [CallPacket f data]) | None => (HPanic, []) end
  | HNextTest => match cb_next c with Some _ => (HNextCall, []) | None => (HDone, []) end
  | HNextCall => match cb_next c with Some f => (HDone, [CallNext f]) | None => (HPanic, []) end
  | HDone => (HDone, [])
  | HPanic => (HPanic, [])
  end.

(** A schedule: the goroutine moves, or some other goroutine calls a setter. *)
Inductive move : Type := MStep | MSet (x : setter).
Fixpoint handle (err : option goerr) (data : list Z) (c : callbacks) (p : hpc) (ms : list move) : hpc * list called :=
  match ms with
  | [] => (p, [])
  | MStep :: r => let (p1, l1) := hstep err data c p in let (p2, l2) := handle err data c p1 r in (p2, l1 ++ l2)
  | MSet x :: r => handle err data (set_callback c x) p r
  end.
End Callbacks.
Arguments callbacks : clear implicits.
Arguments setter : clear implicits.
Arguments called : clear implicits.
Arguments move : clear implicits.
