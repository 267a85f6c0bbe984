(** Model of the tick counter of device.go (lines 633-650, 810-816) under concurrent calls: which calls of
    Next find the mutex taken, the atomic counter of their seconds, and the call that takes it over.

    A step is one operation on the mutex or on the counter; the rest of a call (battery, speed, navigator)
    touches neither and is left out; Device.v models it as one atomic transition. TryLock is taken to fail
    only while the mutex is held. *)
From Verif.Model Require Import Base.

(** Who holds d.mu: nobody; another method; a call of Next that has routes, before loading the counter
    (line 645), having loaded [v] (lines 645-646), having stored zero (line 647 on). *)
Inductive holder : Type := Free | Other | Acquired | Loaded (v : Z) | Stored.

(** [ct_late]: the calls of Next whose TryLock failed and that have not yet reached incTick (line 636). *)
Record counter : Type := mkCounter { ct_lock : holder; ct_tick : Z; ct_late : nat }.

Inductive event : Type :=
| ELock               (* another method takes the mutex, or Next on a device without routes (641-643) *)
| EUnlock             (* the mutex is released *)
| ENext               (* TryLock of Next succeeds, line 634 *)
| EFail               (* TryLock of Next fails, lines 634-635 *)
| EInc                (* incTick, lines 636 and 810-812: AddUint32 *)
| ELoad               (* line 645: LoadUint32 *)
| EStore (v : Z).     (* resetTick, lines 647 and 814-816: StoreUint32; this call counts [v] extra seconds (line 646) *)

Inductive ev_step : event -> counter -> counter -> Prop :=
| es_lock t n : ev_step ELock (mkCounter Free t n) (mkCounter Other t n)
| es_unlock_other t n : ev_step EUnlock (mkCounter Other t n) (mkCounter Free t n)
| es_unlock_next t n : ev_step EUnlock (mkCounter Stored t n) (mkCounter Free t n)
| es_next t n : ev_step ENext (mkCounter Free t n) (mkCounter Acquired t n)
| es_fail l t n : l <> Free -> ev_step EFail (mkCounter l t n) (mkCounter l t (S n))
| es_inc l t n : ev_step EInc (mkCounter l t (S n)) (mkCounter l ((t + 1) mod 2 ^ 32)%Z n)
| es_load t n : ev_step ELoad (mkCounter Acquired t n) (mkCounter (Loaded t) t n)
| es_store v t n : ev_step (EStore v) (mkCounter (Loaded v) t n) (mkCounter Stored 0 n).

Inductive ev_steps : list event -> counter -> counter -> Prop :=
| ev_nil s : ev_steps [] s s
| ev_cons e es s1 s2 s3 : ev_step e s1 s2 -> ev_steps es s2 s3 -> ev_steps (e :: es) s1 s3.

(** A new device (device.go 46-77: the counter is zero). *)
Definition idle_counter : counter := mkCounter Free 0 0.
