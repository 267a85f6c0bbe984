(** What a user sees of properties: the entries a variable shows and the entries a route or track has. *)
From stdpp Require Import gmap strings.
From Verif.Model Require Import Base PropMap PropHeap.

Section PropHeapSpec.
Context {T : Type}.

(** the entries seen through a variable; the entries of a route or track *)
Definition seen (s : pheap T) (v : nat) : props T := read s (ph_var s v).
Definition owned (s : pheap T) (o : nat) : props T := read s (ph_own s o).

(** the call assigns the variable [v] (or resets it) *)
Definition assigns (v : nat) (op : pop T) : Prop :=
  match op with HMake u | HProps u _ | HAssign u _ | HReset u => u = v | _ => False end.
(** the call makes [o] anew or replaces what it is by a snapshot *)
Definition replaces (o : nat) (op : pop T) : Prop :=
  match op with HRestore u _ | HFromSnapshot u _ => u = o | _ => False end.
Definition restores (op : pop T) : Prop := match op with HRestore _ _ => True | _ => False end.
(** the call writes through the variable [v] *)
Definition writes_through (v : nat) (op : pop T) : Prop :=
  match op with HSet u _ _ | HRemove u _ | HMerge u _ => u = v | _ => False end.

(** what the entries [p] become by the call, [other] being the entries merged *)
Definition written (p other : props T) (op : pop T) : props T :=
  match op with
  | HSet _ k x => (<[k := x]> (p : gmap string (gval T)))
  | HRemove _ k => delete k (p : gmap string (gval T))
  | HMerge _ _ => (other : gmap string (gval T)) ∪ (p : gmap string (gval T))
  | _ => p
  end.
Definition merged_from (s : pheap T) (op : pop T) : props T := match op with HMerge _ w => seen s w | _ => props_Make end.

(** states a program can get to *)
Definition heap_reachable (s : pheap T) : Prop := exists ops, run_pops pheap_init ops = Ret s.
(** assignment to an entry of a nil map *)
Definition nil_write (s : pheap T) (op : pop T) : Prop :=
  match op with
  | HSet v _ _ => ph_var s v = None
  | HMerge v w => ph_var s v = None /\ exists k, props_lookup (seen s w) k <> None
  | _ => False
  end.
End PropHeapSpec.
