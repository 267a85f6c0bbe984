(** What users expect of generators and devices used by several goroutines. *)
From Verif.Model Require Import Base Num Geo Curve PropMap Pb Types TypesSnap Track Route Navigator Device Generator Mutex DeviceConc Locks GenLocks.
From Verif.Spec Require Import NavSpec TypesSpec DeviceSpec GenSpec MutexSpec DeviceConcSpec LocksSpec.

Section S.
Context {T : Type} {NT : Num T} {J : JsonLib T} {U : UtmLib T}.

(** What a goroutine does: it calls a method of a generator or of a device, or it is one of the goroutines of a running
    generator and moves the devices, serialises a slice or clears the packet. The callback given to Each makes some calls
    on devices and says whether it wants to see more. *)
Inductive gen_use : Type :=
| UAttach (g : nat) (p : option nat)
| UDetach (g : nat) (id : string)
| UHas (g : nat) (id : string)
| ULookup (g : nat) (id : string)
| UNum (g : nat)
| UOn (g : nat)
| UEach (g : nat) (fn : nat -> nat -> list (nat * dev_call T) * bool)
| UDevice (p : nat) (c : dev_call T)
| USensorAt (p : nat) (i : Z)
| UIsFinish (p : nat)
| USnapshot (p : nat)
| UTick (g : nat) (tick : T) (x : nat -> nextDraws T)
| UMarshal (g : nat)
| UReset (g : nat).

Fixpoint callback (l : list (nat * dev_call T)) (next : bool) (k : bool -> gprog T) : gprog T :=
  match l with
  | [] => k next
  | (p, c) :: r => at_device p (call_prog c) (fun _ => callback r next k)
  end.

Definition use_prog (u : gen_use) : gprog T :=
  match u with
  | UAttach g p => Attach_prog g p
  | UDetach g id => Detach_prog g id
  | UHas g id => HasTracker_prog g id
  | ULookup g id => Lookup_prog g id
  | UNum g => NumDevices_prog g
  | UOn g => On_prog g
  | UEach g fn => Each_prog g (fun i p => callback (fst (fn i p)) (snd (fn i p)))
  | UDevice p c => at_device p (call_prog c) (fun v => Return (RDev v))
  | USensorAt p i => at_device p (SensorAt_prog i) (fun v => Return (RDev v))
  | UIsFinish p => at_device p IsFinish_prog (fun v => Return (RDev v))
  | USnapshot p => at_device p Snapshot_prog (fun v => Return (RDev v))
  | UTick g tick x => Tick_prog g tick x
  | UMarshal g => Marshal_prog g
  | UReset g => Reset_prog g
  end.

(** Next, changes and queries of a device hold its lock from beginning to end (C69). *)
Definition lawful_use (u : gen_use) : Prop :=
  match u with
  | UEach _ fn => forall i p, Forall (fun x => lawful (snd x)) (fst (fn i p))
  | UDevice _ c => lawful c
  | _ => True
  end.

(** The memory the calls start from: the generators and devices of a world. *)
Definition memory (w : world T) (i : gkey) : cell T :=
  match i with
  | G g => CList (gen_devices w g)
  | D p => CDev (w_heap w p)
  | N _ | P _ => CTick 0
  end.

(** ** One call at a time *)
(** The calls that are meant to behave as if they happened at once: those on generators, and those that change or
    query a device under its lock; Next, SensorAt, IsFinish and Snapshot are left to C69. Devices are mounted and unmounted by generators only. *)
Definition serial_use (w : world T) (u : gen_use) : Prop :=
  match u with
  | UAttach g _ | UDetach g _ | UHas g _ | ULookup g _ | UNum g | UOn g => (g < List.length (w_gens w))%nat
  | UEach g fn => (g < List.length (w_gens w))%nat /\ forall i p, fst (fn i p) = []
  | UDevice _ (CChange o) => under_lock o /\ not_mount o
  | UDevice _ (CQuery _) => True
  | _ => False
  end.

(** The call made alone in the world [w]: what it returns and the world after it, by the sequential functions of
    Generator.v and Device.v; [None] if it panics. *)
Definition does (w : world T) (u : gen_use) : option (gval T * world T) :=
  match u with
  | UAttach g p => let '(e, w') := Attach w g p in Some (RErr e, w')
  | UDetach g id => let '(e, w') := Detach w g id in Some (RErr e, w')
  | UHas g id => Some (RBool (HasTracker w g id), w)
  | ULookup g id => Some (RDevice (GenLookup w g id), w)
  | UNum g => Some (RNum (NumDevices w g), w)
  | UEach g fn => Some (RCalls (Each w g (fun i p => snd (fn i p))), w)
  | UDevice p (CChange o) => match run_dev (w_heap w p) o with Ret d => Some (RDev VUnit, set_heap w p d) | _ => None end
  | UDevice p (CQuery f) => Some (RDev (f (w_heap w p)), w)
  | _ => Some (RUnit, w)
  end.

(** The calls the goroutines still make and what they were told, when the calls are made one at a time, in these turns. *)
Inductive in_turn : list nat -> world T -> list (list gen_use * list (gval T)) -> world T -> list (list gen_use * list (gval T)) -> Prop :=
| it_nil w us : in_turn [] w us w us
| it_cons i turns u l r us w v w1 w2 us2 : nth_error us i = Some (u :: l, r) -> does w u = Some (v, w1) ->
    in_turn turns w1 (set_nth i (l, r ++ [v]) us) w2 us2 -> in_turn (i :: turns) w us w2 us2.

(** What the goroutines were told in [x] is what they are told in turn, except that a call still under way may count as
    made. *)
Definition explains (us : list (list gen_use * list (gval T))) (x : Locks.system gkey (cell T) (gval T)) : Prop :=
  Forall2 accounted (Locks.sy_gos x) (map snd us).

(** Goroutine number i calls g.Attach(p) for the i-th generator of [gs]. *)
Definition attach_to (gs : list nat) (p : nat) : list (list gen_use) := map (fun g => [UAttach g (Some p)]) gs.

(** A callback for Each or EachSensor that makes the call [q], whatever it returns, and wants to see more. *)
Definition then_go_on {A : Type} (q : gprog T) : nat -> A -> (bool -> gprog T) -> gprog T := fun _ _ k =>
  let fix go q := match q with
    | Locks.Return _ => k true
    | Locks.Crash => Locks.Crash
    | Locks.Access i f h => Locks.Access i f (fun c => go (h c))
    | Locks.Lock i h => Locks.Lock i (go h)
    | Locks.LockWait i h => Locks.LockWait i (go h)
    | Locks.Unlock i h => Locks.Unlock i (go h)
    | Locks.RLock i h => Locks.RLock i (go h)
    | Locks.RUnlock i h => Locks.RUnlock i (go h)
    | Locks.TryLock i h => Locks.TryLock i (fun b => go (h b))
    end in go q.
End S.
Arguments gen_use : clear implicits.
