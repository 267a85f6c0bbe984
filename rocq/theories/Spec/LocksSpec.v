(** What users expect of calls that use several mutexes, and which calls keep to the rules. *)
From Verif.Model Require Import Base Mutex Locks.

Section S.
Context {K C V : Type} {E : Keys K}.

(** ** All calls return *)
(** In every schedule the calls come to an end: until they have, some goroutine can move, and no schedule goes on
    forever. *)
Inductive ends : system K C V -> Prop :=
| en_done x : finished x -> ends x
| en_crash x : sy_crashed x = true -> ends x
| en_step x : (exists y, step x y) -> (forall y, step x y -> ends y) -> ends x.

(** Some calls have not returned, and nobody can move any more. *)
Definition deadlock (x : system K C V) : Prop := ~ finished x /\ sy_crashed x = false /\ forall y, ~ step x y.

(** The mutexes a call holds: keys, and whether as a writer. *)
Definition holding : Type := list (K * bool).
Definition keys (h : holding) : list K := map fst h.
Definition release (i : K) (h : holding) : holding := filter (fun x => if eqK (fst x) i then false else true) h.

(** The rest of a call that holds [h] takes mutexes in ascending rank only, never one of the rank of a mutex it
    holds, and lets go of all of them. It may try any mutex it does not hold. *)
Inductive ordered (rank : K -> nat) : holding -> prog K C V -> Prop :=
| or_return v : ordered rank [] (Return v)
| or_crash h : ordered rank h Crash
| or_access h i f k : (forall c, ordered rank h (k c)) -> ordered rank h (Access i f k)
| or_lock h i k : Forall (fun j => rank j < rank i)%nat (keys h) -> ordered rank ((i, true) :: h) k -> ordered rank h (Lock i k)
| or_rlock h i k : Forall (fun j => rank j < rank i)%nat (keys h) -> ordered rank ((i, false) :: h) k -> ordered rank h (RLock i k)
| or_unlock h i k : In (i, true) h -> ordered rank (release i h) k -> ordered rank h (Unlock i k)
| or_runlock h i k : In (i, false) h -> ordered rank (release i h) k -> ordered rank h (RUnlock i k)
| or_try h i k : ~ In i (keys h) -> ordered rank ((i, true) :: h) (k true) -> ordered rank h (k false) -> ordered rank h (TryLock i k).

(** ** One call at a time *)
(** A call alone: from memory [m] it leaves [m'] and returns [v]; TryLock may fail. *)
Inductive alone : prog K C V -> (K -> C) -> (K -> C) -> V -> Prop :=
| al_return v m m' : (forall i, m' i = m i) -> alone (Return v) m m' v
| al_access i f k m m' v : alone (k (m i)) (upd m i (f (m i))) m' v -> alone (Access i f k) m m' v
| al_lock i k m m' v : alone k m m' v -> alone (Lock i k) m m' v
| al_wait i k m m' v : alone k m m' v -> alone (LockWait i k) m m' v
| al_unlock i k m m' v : alone k m m' v -> alone (Unlock i k) m m' v
| al_rlock i k m m' v : alone k m m' v -> alone (RLock i k) m m' v
| al_runlock i k m m' v : alone k m m' v -> alone (RUnlock i k) m m' v
| al_try i k b m m' v : alone (k b) m m' v -> alone (TryLock i k) m m' v.

(** The calls a goroutine still makes and the results it has, when the calls are made one at a time. *)
Definition todo : Type := (list (prog K C V) * list V)%type.
Inductive one_by_one : list nat -> (K -> C) -> list todo -> (K -> C) -> list todo -> Prop :=
| ob_nil m gs : one_by_one [] m gs m gs
| ob_cons i turns p l r gs m m1 v m2 gs2 : nth_error gs i = Some (p :: l, r) -> alone p m m1 v ->
    one_by_one turns m1 (set_nth i (l, r ++ [v]) gs) m2 gs2 -> one_by_one (i :: turns) m gs m2 gs2.

(** What the goroutines were told in [x] is what they were told one at a time, except that a call still under way may
    have been made. *)
Definition accounted (g : goroutine K C V) (told : list V) : Prop :=
  told = go_results g \/ go_now g <> None /\ exists v, told = go_results g ++ [v].
Definition accounts (x : system K C V) (gs : list todo) : Prop :=
  Forall2 accounted (sy_gos x) (map snd gs).

(** ** Two phases
    A call first takes mutexes, then lets go of them; every access is to a cell whose mutex it holds, as a writer if it
    changes it. While it still takes mutexes it may panic, it may let go of one whose cell it has not touched, and it may
    read what is the same in all states of a cell. [ok i c]: what is known of the cell [i] at all times. *)
Section TwoPhase.
Variable ok : K -> C -> Prop.
Inductive releasing : holding -> prog K C V -> Prop :=
| rl_return v : releasing [] (Return v)
| rl_access h i f k : In (i, true) h \/ In (i, false) h /\ (forall c, f c = c) -> (forall c, ok i c -> ok i (f c)) ->
    (forall c, ok i c -> releasing h (k c)) -> releasing h (Access i f k)
| rl_unlock h i k : In (i, true) h -> releasing (release i h) k -> releasing h (Unlock i k)
| rl_runlock h i k : In (i, false) h -> releasing (release i h) k -> releasing h (RUnlock i k).
Inductive taking : holding -> list K -> prog K C V -> Prop :=
| tk_crash h t : taking h t Crash
| tk_access h t i f k : In (i, true) h \/ In (i, false) h /\ (forall c, f c = c) -> (forall c, ok i c -> ok i (f c)) ->
    (forall c, ok i c -> taking h (i :: t) (k c)) -> taking h t (Access i f k)
| tk_constant h t i f k : In i (keys h) -> (forall c, f c = c) -> (forall c c', ok i c -> ok i c' -> k c = k c') ->
    (forall c, ok i c -> taking h t (k c)) -> taking h t (Access i f k)
| tk_lock h t i k : ~ In i (keys h) -> taking ((i, true) :: h) t k -> taking h t (Lock i k)
| tk_rlock h t i k : ~ In i (keys h) -> taking ((i, false) :: h) t k -> taking h t (RLock i k)
| tk_try h t i k : ~ In i (keys h) -> taking ((i, true) :: h) t (k true) -> taking h t (k false) -> taking h t (TryLock i k)
| tk_unlock h t i k : In (i, true) h -> ~ In i t -> taking (release i h) t k -> taking h t (Unlock i k)
| tk_runlock h t i k : In (i, false) h -> ~ In i t -> taking (release i h) t k -> taking h t (RUnlock i k)
| tk_release h t p : releasing h p -> taking h t p.
Definition two_phase (p : prog K C V) : Prop := taking [] [] p.
End TwoPhase.
End S.
