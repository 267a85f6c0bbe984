(** Goroutines that share memory and several sync.RWMutex: what a program relies on that uses a generator (generator.go,
    the field mu, line 16) and its devices (device.go, the field mu, line 36) from several goroutines.

    Every mutex has a key and guards one cell of the memory. A call is a program; a step begins a call, ends it, or is
    one operation on a mutex or one access to a cell. Simplifications: as in Mutex.v (sequentially consistent memory,
    sync.RWMutex by its documentation, a panic ends the process). *)
From Verif.Model Require Import Base Mutex.

Class Keys (K : Type) : Type := eqK : forall a b : K, {a = b} + {a <> b}.

Section Locks.
Context {K C V : Type} {E : Keys K}.

(** The rest of a call. *)
Inductive prog : Type :=
| Return (v : V)
| Crash                                            (* panic *)
| Access (i : K) (f : C -> C) (k : C -> prog)      (* cell [i] holding [c] becomes [f c]; the call goes on with [k c] *)
| Lock (i : K) (k : prog)
| LockWait (i : K) (k : prog)                      (* inside Lock: no other writer, waiting for the readers to leave *)
| Unlock (i : K) (k : prog)
| RLock (i : K) (k : prog)
| RUnlock (i : K) (k : prog)
| TryLock (i : K) (k : bool -> prog).

Record shared : Type := mkShared { sh_mem : K -> C; sh_mu : K -> rwmutex }.

Definition upd {A} (m : K -> A) (i : K) (x : A) : K -> A := fun j => if eqK j i then x else m j.
Definition set_cell (s : shared) (i : K) (c : C) : shared := mkShared (upd (sh_mem s) i c) (sh_mu s).
Definition set_mu (s : shared) (i : K) (x : rwmutex) : shared := mkShared (sh_mem s) (upd (sh_mu s) i x).

(** One step of a call. Unlock and RUnlock of a mutex that is not held end the program in Go; no program
    here does that. *)
Inductive act : shared -> prog -> shared -> prog -> Prop :=
| ac_access s i f k : act s (Access i f k) (set_cell s i (f (sh_mem s i))) (k (sh_mem s i))
| ac_lock s i k n : sh_mu s i = mkRW false false n -> act s (Lock i k) (set_mu s i (mkRW true false n)) (LockWait i k)
| ac_locked s i k : sh_mu s i = mkRW true false 0 -> act s (LockWait i k) (set_mu s i (mkRW true true 0)) k
| ac_unlock s i k n : sh_mu s i = mkRW true true n -> act s (Unlock i k) (set_mu s i (mkRW false false n)) k
| ac_rlock s i k n : sh_mu s i = mkRW false false n -> act s (RLock i k) (set_mu s i (mkRW false false (S n))) k
| ac_runlock s i k t w n : sh_mu s i = mkRW t w (S n) -> act s (RUnlock i k) (set_mu s i (mkRW t w n)) k
| ac_try s i k : sh_mu s i = mkRW false false 0 -> act s (TryLock i k) (set_mu s i (mkRW true true 0)) (k true)
| ac_try_fail s i k : sh_mu s i <> mkRW false false 0 -> act s (TryLock i k) s (k false).

(** A goroutine: the call under way, the calls it still makes, and what the former ones returned. *)
Record goroutine : Type := mkGo { go_now : option prog; go_calls : list prog; go_results : list V }.
Record system : Type := mkSys { sy_shared : shared; sy_gos : list goroutine; sy_crashed : bool }.

Inductive step : system -> system -> Prop :=
| st_call i p l r s gs : nth_error gs i = Some (mkGo None (p :: l) r) ->
    step (mkSys s gs false) (mkSys s (set_nth i (mkGo (Some p) l r) gs) false)
| st_act i p l r s p' s' gs : nth_error gs i = Some (mkGo (Some p) l r) -> act s p s' p' ->
    step (mkSys s gs false) (mkSys s' (set_nth i (mkGo (Some p') l r) gs) false)
| st_return i v l r s gs : nth_error gs i = Some (mkGo (Some (Return v)) l r) ->
    step (mkSys s gs false) (mkSys s (set_nth i (mkGo None l (r ++ [v])) gs) false)
| st_crash i l r s gs : nth_error gs i = Some (mkGo (Some Crash) l r) ->
    step (mkSys s gs false) (mkSys s gs true).

Inductive steps : system -> system -> Prop :=
| ss_nil x : steps x x
| ss_cons x y z : step x y -> steps y z -> steps x z.

(** A memory, mutexes nobody holds, and goroutines that are going to make these calls. *)
Definition start (m : K -> C) (calls : list (list prog)) : system :=
  mkSys (mkShared m (fun _ => mkRW false false 0)) (map (fun l => mkGo None l []) calls) false.

Definition finished (x : system) : Prop := Forall (fun g => go_now g = None /\ go_calls g = []) (sy_gos x).
End Locks.
Arguments prog : clear implicits.
Arguments shared : clear implicits.
Arguments goroutine : clear implicits.
Arguments system : clear implicits.
