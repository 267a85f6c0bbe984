(** What users expect of calls made by several goroutines. *)
From Verif.Model Require Import Base Mutex.

Section S.
Context {M V : Type}.
Implicit Types (m : M) (v : V).

(** ** One call at a time *)
(** The counter is an uint32. *)
Definition uint32 (z : Z) : Prop := (0 <= z < 2 ^ 32)%Z.

(** A call alone: from memory [m] it leaves [m'] and returns [v]. The value of the counter is anybody's guess, and
    TryLock may fail. *)
Inductive alone : prog M V -> M -> M -> V -> Prop :=
| al_return v m : alone (Return v) m m v
| al_access f k m m' v : alone (k m) (f m) m' v -> alone (Access f k) m m' v
| al_load k z m m' v : uint32 z -> alone (k z) m m' v -> alone (Load k) m m' v
| al_store z k m m' v : alone k m m' v -> alone (Store z k) m m' v
| al_inc k m m' v : alone k m m' v -> alone (Inc k) m m' v
| al_lock k m m' v : alone k m m' v -> alone (Lock k) m m' v
| al_wait k m m' v : alone k m m' v -> alone (LockWait k) m m' v
| al_unlock k m m' v : alone k m m' v -> alone (Unlock k) m m' v
| al_rlock k m m' v : alone k m m' v -> alone (RLock k) m m' v
| al_runlock k m m' v : alone k m m' v -> alone (RUnlock k) m m' v
| al_try k b m m' v : alone (k b) m m' v -> alone (TryLock k) m m' v.

(** A call alone from memory [m] may panic. *)
Inductive crashes : prog M V -> M -> Prop :=
| cr_crash m : crashes Crash m
| cr_access f k m : crashes (k m) (f m) -> crashes (Access f k) m
| cr_load k z m : uint32 z -> crashes (k z) m -> crashes (Load k) m
| cr_store z k m : crashes k m -> crashes (Store z k) m
| cr_inc k m : crashes k m -> crashes (Inc k) m
| cr_lock k m : crashes k m -> crashes (Lock k) m
| cr_wait k m : crashes k m -> crashes (LockWait k) m
| cr_unlock k m : crashes k m -> crashes (Unlock k) m
| cr_rlock k m : crashes k m -> crashes (RLock k) m
| cr_runlock k m : crashes k m -> crashes (RUnlock k) m
| cr_try k b m : crashes (k b) m -> crashes (TryLock k) m.

(** The calls of several goroutines, one after the other: whose turn it is, the memory, the calls still to be
    made and the results so far, before and after. *)
Inductive one_by_one : list nat -> M -> list (goroutine M V) -> M -> list (goroutine M V) -> Prop :=
| ob_nil m gs : one_by_one [] m gs m gs
| ob_cons i turns p l r gs m m1 v m2 gs2 : nth_error gs i = Some (mkGo (p :: l) r) -> alone p m m1 v ->
    one_by_one turns m1 (set_nth i (mkGo l (r ++ [v])) gs) m2 gs2 -> one_by_one (i :: turns) m gs m2 gs2.

(** ** Calls that keep to the mutex *)
(** holding the mutex as the only one *)
Inductive writing : prog M V -> Prop :=
| wr_access f k : (forall m, writing (k m)) -> writing (Access f k)
| wr_load k : (forall z, uint32 z -> writing (k z)) -> writing (Load k)
| wr_store z k : uint32 z -> writing k -> writing (Store z k)
| wr_crash : writing Crash
| wr_end v : writing (Unlock (Return v)).
(** holding it as a reader: the memory is not changed *)
Inductive reading : prog M V -> Prop :=
| re_access f k : (forall m, f m = m) -> (forall m, reading (k m)) -> reading (Access f k)
| re_crash : reading Crash
| re_end v : reading (RUnlock (Return v)).
(** The whole call happens under the mutex. A call that tries only does nothing else if it fails. *)
Definition guarded (p : prog M V) : Prop :=
  (exists k, p = Lock k /\ writing k) \/ (exists k, p = RLock k /\ reading k) \/
  (exists k v, p = TryLock k /\ writing (k true) /\ k false = Inc (Return v)).

(** ** All calls return *)
(** In every schedule the calls come to an end: until they have, some goroutine can move, and no
    schedule goes on forever. *)
Inductive ends : system M V -> Prop :=
| en_done x : finished x -> ends x
| en_crash x : sy_crashed x = true -> ends x
| en_step x : (exists i b y, step i b x y) -> (forall i b y, step i b x y -> ends y) -> ends x.

(** Some calls have not returned, and nobody can move any more. *)
Definition deadlock (x : system M V) : Prop :=
  ~ finished x /\ sy_crashed x = false /\ forall i b y, ~ step i b x y.
End S.
