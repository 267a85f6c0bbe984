(** Goroutines that share a memory, one sync.RWMutex and one atomic counter: what device.go relies on
    (the field mu, lines 36, and the field tick, line 40) when its methods are called by several goroutines.

    A call is a program; a step is one operation on the mutex, one atomic operation on the counter, or
    one access to the memory. Simplifications:
    - accesses to the memory are sequentially consistent; how many steps a method takes is up to its program;
    - sync.RWMutex is modelled by its documentation: RLock waits while a writer holds the mutex or waits for
      it, Lock waits for other writers and then for the readers, TryLock does not wait;
    - a panic ends the process (nothing in /repo recovers). *)
From Verif.Model Require Import Base.

Section Mutex.
Context {M V : Type}.

(** The rest of a call. *)
Inductive prog : Type :=
| Return (v : V)
| Crash                                    (* panic *)
| Access (f : M -> M) (k : M -> prog)      (* the memory [m] becomes [f m]; the call goes on with [k m] *)
| Load (k : Z -> prog)                     (* atomic.LoadUint32 *)
| Store (z : Z) (k : prog)                 (* atomic.StoreUint32 *)
| Inc (k : prog)                           (* atomic.AddUint32(_, 1) *)
| Lock (k : prog)
| LockWait (k : prog)                      (* inside Lock: no other writer, waiting for the readers to leave *)
| Unlock (k : prog)
| RLock (k : prog)
| RUnlock (k : prog)
| TryLock (k : bool -> prog).

(** [rw_taken]: a writer waits for the readers to leave, or holds the mutex; [rw_writer]: it holds it. *)
Record rwmutex : Type := mkRW { rw_taken : bool; rw_writer : bool; rw_readers : nat }.

(** What the goroutines share. *)
Record shared : Type := mkShared { sh_mem : M; sh_cnt : Z; sh_mu : rwmutex }.

Definition set_mem (s : shared) (m : M) := mkShared m (sh_cnt s) (sh_mu s).
Definition set_cnt (s : shared) (z : Z) := mkShared (sh_mem s) z (sh_mu s).
Definition set_mu (s : shared) (x : rwmutex) := mkShared (sh_mem s) (sh_cnt s) x.

(** One step of a call. Unlock and RUnlock of a mutex that is not held end the program in Go; no program
    here does that. *)
Inductive act : shared -> prog -> shared -> prog -> Prop :=
| ac_access s f k : act s (Access f k) (set_mem s (f (sh_mem s))) (k (sh_mem s))
| ac_load s k : act s (Load k) s (k (sh_cnt s))
| ac_store s z k : act s (Store z k) (set_cnt s z) k
| ac_inc s k : act s (Inc k) (set_cnt s ((sh_cnt s + 1) mod 2 ^ 32)%Z) k
| ac_lock s k n : sh_mu s = mkRW false false n -> act s (Lock k) (set_mu s (mkRW true false n)) (LockWait k)
| ac_locked s k : sh_mu s = mkRW true false 0 -> act s (LockWait k) (set_mu s (mkRW true true 0)) k
| ac_unlock s k n : sh_mu s = mkRW true true n -> act s (Unlock k) (set_mu s (mkRW false false n)) k
| ac_rlock s k n : sh_mu s = mkRW false false n -> act s (RLock k) (set_mu s (mkRW false false (S n))) k
| ac_runlock s k t w n : sh_mu s = mkRW t w (S n) -> act s (RUnlock k) (set_mu s (mkRW t w n)) k
| ac_try s k : sh_mu s = mkRW false false 0 -> act s (TryLock k) (set_mu s (mkRW true true 0)) (k true)
| ac_try_fail s k : sh_mu s <> mkRW false false 0 -> act s (TryLock k) s (k false).

(** A goroutine: the calls it still makes, the first of which may be under way, and what the former ones returned. *)
Record goroutine : Type := mkGo { go_calls : list prog; go_results : list V }.

Record system : Type := mkSys { sy_shared : shared; sy_gos : list goroutine; sy_crashed : bool }.

(** [i]: the goroutine that moves; [true]: it leaves the mutex, or gives up on TryLock. *)
Definition leaves (p p' : prog) : bool :=
  match p with
  | Unlock _ | RUnlock _ => true
  | TryLock _ => match p' with Inc _ => true | _ => false end
  | _ => false
  end.

Inductive step : nat -> bool -> system -> system -> Prop :=
| st_act i p l r s p' s' gs : nth_error gs i = Some (mkGo (p :: l) r) -> act s p s' p' ->
    step i (leaves p p') (mkSys s gs false) (mkSys s' (set_nth i (mkGo (p' :: l) r) gs) false)
| st_return i v l r s gs : nth_error gs i = Some (mkGo (Return v :: l) r) ->
    step i false (mkSys s gs false) (mkSys s (set_nth i (mkGo l (r ++ [v])) gs) false)
| st_crash i l r s gs : nth_error gs i = Some (mkGo (Crash :: l) r) ->
    step i false (mkSys s gs false) (mkSys s gs true).

(** [ps]: the goroutines that left the mutex (or gave up), in this order. *)
Inductive steps : list nat -> system -> system -> Prop :=
| ss_nil x : steps [] x x
| ss_move i x y z ps : step i false x y -> steps ps y z -> steps ps x z
| ss_leave i x y z ps : step i true x y -> steps ps y z -> steps (i :: ps) x z.

(** A memory, a mutex nobody holds and a counter, and goroutines that are going to make these calls. *)
Definition start (m : M) (cnt : Z) (calls : list (list prog)) : system :=
  mkSys (mkShared m cnt (mkRW false false 0)) (map (fun l => mkGo l []) calls) false.

Definition finished (x : system) : Prop := Forall (fun g => go_calls g = []) (sy_gos x).
End Mutex.
Arguments prog : clear implicits.
Arguments shared : clear implicits.
Arguments goroutine : clear implicits.
Arguments system : clear implicits.
