(** Properties as Go has them: references to maps. [Properties] is a map type (properties/properties.go 4), so a
    variable of this type, and the field props of a route or track, is a reference to a map, or nil. The heap is
    the list of all maps ever made (there is no garbage collection in the model); variables of the program and
    routes and tracks ("owners") are numbered by [nat]. The other fields of routes and tracks are in Model/Track.v
    and Model/Route.v, which give each owner its own map; here we look at the sharing this leaves out. *)
From stdpp Require Import gmap strings.
From Verif.Model Require Import Base PropMap.

Section PropHeap.
Context {T : Type}.

Record pheap : Type := mkPHeap {
  ph_maps : list (props T);
  ph_var : nat -> option nat;
  ph_own : nat -> option nat }.

(** nothing allocated: all variables and all fields props are nil *)
Definition pheap_init : pheap := mkPHeap [] (fun _ => None) (fun _ => None).

Definition assign (f : nat -> option nat) (v : nat) (a : option nat) : nat -> option nat :=
  fun u => if Nat.eqb u v then a else f u.
Definition set_var (s : pheap) (v : nat) (a : option nat) : pheap := mkPHeap (ph_maps s) (assign (ph_var s) v a) (ph_own s).
Definition set_own (s : pheap) (o : nat) (a : option nat) : pheap := mkPHeap (ph_maps s) (ph_var s) (assign (ph_own s) o a).

(** properties/properties.go 7-9: a new map, and its address *)
Definition alloc (s : pheap) (p : props T) : nat * pheap :=
  (List.length (ph_maps s), mkPHeap (ph_maps s ++ [p]) (ph_var s) (ph_own s)).

(** the map a reference stands for when it is read; nil reads like an empty map *)
Definition read (s : pheap) (a : option nat) : props T :=
  match a with Some i => match nth_error (ph_maps s) i with Some p => p | None => props_Make end | None => props_Make end.
Definition write (s : pheap) (i : nat) (p : props T) : pheap := mkPHeap (set_nth i p (ph_maps s)) (ph_var s) (ph_own s).

Inductive pop : Type :=
| HMake (v : nat)                          (* v = properties.Make() *)
| HProps (v o : nat)                       (* v = o.Props() *)
| HAssign (v w : nat)                      (* v = w *)
| HSet (v : nat) (k : string) (x : gval T) (* v.Set(k, x) *)
| HRemove (v : nat) (k : string)           (* v.Remove(k) *)
| HMerge (v w : nat)                       (* v.Merge(w) *)
| HReset (v : nat)                         (* v.Reset(), that is (&v).Reset() *)
| HRestore (o v : nat)                     (* o = RestoreRoute(id, color, v) *)
| HFromSnapshot (o : nat) (p : option (props T)). (* o.RouteFromSnapshot or TrackFromSnapshot(o, _), [p] being what the JSON of the snapshot gives *)

(** navigator/route.go 101-106, navigator/route_track.go 110-115: the field, made if it was nil *)
Definition owner_Props (s : pheap) (o : nat) : option nat * pheap :=
  match ph_own s o with
  | Some a => (Some a, s)
  | None => let (a, s) := alloc s props_Make in (Some a, set_own s o (Some a))
  end.

Definition run_pop (s : pheap) (op : pop) : res pheap :=
  match op with
  | HMake v => let (a, s) := alloc s props_Make in Ret (set_var s v (Some a))
  | HProps v o => let (a, s) := owner_Props s o in Ret (set_var s v a)
  | HAssign v w => Ret (set_var s v (ph_var s w))
  (* properties/properties.go 60-63: assignment to an entry of a nil map panics *)
  | HSet v k x => match ph_var s v with
                  | Some a => Ret (write s a (props_Set (read s (Some a)) k x))
                  | None => Panic
                  end
  (* properties/properties.go 66-68: delete on a nil map does nothing *)
  | HRemove v k => match ph_var s v with
                   | Some a => Ret (write s a (props_Remove (read s (Some a)) k))
                   | None => Ret s
                   end
  (* properties/properties.go 12-16: the loop assigns once for each entry of the other map; if both are the same
     map it assigns to every entry the value it has *)
  | HMerge v w => let other := read s (ph_var s w) in
                  match ph_var s v with
                  | Some a => Ret (write s a (props_Merge (read s (Some a)) other))
                  | None => if (props_len other =? 0)%Z then Ret s else Panic
                  end
  (* properties/properties.go 71-73: *p = make(Properties) *)
  | HReset v => let (a, s) := alloc s props_Make in Ret (set_var s v (Some a))
  (* navigator/route.go 37-48: props: props *)
  | HRestore o v => Ret (set_own s o (ph_var s v))
  (* navigator/route.go 210-231, navigator/route_track.go 161-169: a new map or nil *)
  | HFromSnapshot o p => match p with
                         | Some m => let (a, s) := alloc s m in Ret (set_own s o (Some a))
                         | None => Ret (set_own s o None)
                         end
  end.

Fixpoint run_pops (s : pheap) (ops : list pop) : res pheap :=
  match ops with
  | [] => Ret s
  | op :: ops => match run_pop s op with Ret s => run_pops s ops | Panic => Panic | NoFuel => NoFuel end
  end.
End PropHeap.
Arguments pheap T : clear implicits.
Arguments pop T : clear implicits.
