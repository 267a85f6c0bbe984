(** The methods of generator.go, and those of the devices, as programs on shared generators and devices with their
    mutexes: g.mu (key [G]), g.dmu (key [P]) and d.mu (key [D]). The key [N] stands for the counter d.tick of a device,
    which has no mutex. The cell of [G g] is the list of devices, that of [D p] the device; the packet guarded by g.dmu
    is left out. Devices are pointers. *)
From Verif.Model Require Import Base Num Geo Curve PropMap Pb Types TypesSnap Track Route Navigator Device Generator Mutex DeviceConc Locks.
Open Scope num_scope.

Inductive gkey : Type := G (g : nat) | P (g : nat) | D (p : nat) | N (p : nat).
#[global] Instance gkeys : Keys gkey.
Proof. intros a b. decide equality; apply Nat.eq_dec. Defined.

Section GenLocks.
Context {T : Type} {NT : Num T} {J : JsonLib T} {U : UtmLib T}.

Inductive cell : Type := CList (l : list nat) | CDev (d : device T) | CTick (z : Z).

(** What a call returns. [RCalls l]: Each has called fn(i, d) for the pairs in [l]. *)
Inductive gval : Type :=
| RUnit
| RErr (e : option goerr)
| RBool (b : bool)
| RDevice (p : option nat)
| RNum (n : Z)
| RCalls (l : list (nat * nat))
| RDev (v : dval T).

Definition gprog : Type := Locks.prog gkey cell gval.

Definition on_dev (f : device T -> device T) (c : cell) : cell := match c with CDev d => CDev (f d) | _ => c end.
Definition on_tick (f : Z -> Z) (c : cell) : cell := match c with CTick z => CTick (f z) | _ => c end.

(** A device method (DeviceConc.v) called on device [p]; then [k]. *)
Fixpoint at_device (p : nat) (q : dprog T) (k : dval T -> gprog) : gprog :=
  match q with
  | Mutex.Return v => k v
  | Mutex.Crash => Crash
  | Mutex.Access f q => Access (D p) (on_dev f) (fun c => match c with CDev d => at_device p (q d) k | _ => Crash end)
  | Mutex.Load q => Access (N p) (fun c => c) (fun c => match c with CTick z => at_device p (q z) k | _ => Crash end)
  | Mutex.Store z q => Access (N p) (on_tick (fun _ => z)) (fun _ => at_device p q k)
  | Mutex.Inc q => Access (N p) (on_tick (fun z => (z + 1) mod 2 ^ 32)%Z) (fun _ => at_device p q k)
  | Mutex.Lock q => Lock (D p) (at_device p q k)
  | Mutex.LockWait q => LockWait (D p) (at_device p q k)
  | Mutex.Unlock q => Unlock (D p) (at_device p q k)
  | Mutex.RLock q => RLock (D p) (at_device p q k)
  | Mutex.RUnlock q => RUnlock (D p) (at_device p q k)
  | Mutex.TryLock q => TryLock (D p) (fun b => at_device p (q b) k)
  end.

(** g.devices, read and written *)
Definition read_list (g : nat) (k : list nat -> gprog) : gprog :=
  Access (G g) (fun c => c) (fun c => match c with CList l => k l | _ => Crash end).
Definition write_list (g : nat) (l : list nat) (k : gprog) : gprog := Access (G g) (fun _ => CList l) (fun _ => k).

(** device.go 139-143 *)
Definition ID_prog (p : nat) (k : string -> gprog) : gprog :=
  RLock (D p) (Access (D p) (fun c => c) (fun c => match c with CDev d => RUnlock (D p) (k (device_ID d)) | _ => Crash end)).
(** device.go 790-798, 800-808 *)
Definition mount_prog (p : nat) (k : option goerr -> gprog) : gprog :=
  Lock (D p) (Access (D p) (on_dev (fun d => snd (mount d))) (fun c => match c with CDev d => Unlock (D p) (k (fst (mount d))) | _ => Crash end)).
Definition unmount_prog (p : nat) (k : option goerr -> gprog) : gprog :=
  Lock (D p) (Access (D p) (on_dev (fun d => snd (unmount d))) (fun c => match c with CDev d => Unlock (D p) (k (fst (unmount d))) | _ => Crash end)).

(** generator.go 385-388, 396-402: the loop; [found i p] for the first device with this ID *)
Fixpoint find_prog (id : string) (i : nat) (l : list nat) (found : nat -> nat -> gprog) (none : gprog) : gprog :=
  match l with
  | [] => none
  | p :: r => ID_prog p (fun s => if String.eqb s id then found i p else find_prog id (S i) r found none)
  end.

(** generator.go 95-101 *)
Definition HasTracker_prog (g : nat) (id : string) : gprog :=
  Lock (G g) (read_list g (fun l => find_prog id 0 l
    (fun _ _ => Unlock (G g) (Return (RBool true))) (Unlock (G g) (Return (RBool false))))).

(** generator.go 104-118 *)
Definition Attach_prog (g : nat) (p : option nat) : gprog :=
  match p with
  | None => Return (RErr None)
  | Some p =>
      Lock (G g) (mount_prog p (fun e =>
        match e with
        | Some _ => Unlock (G g) (Return (RErr e))
        | None => read_list g (fun l => write_list g (l ++ [p]) (Unlock (G g) (Return (RErr None))))
        end))
  end.

(** generator.go 121-130, 385-394 *)
Definition Detach_prog (g : nat) (id : string) : gprog :=
  if (slen id =? 0)%Z then Return (RErr None)
  else Lock (G g) (read_list g (fun l => find_prog id 0 l
         (fun i p => unmount_prog p (fun e => write_list g (del_nth i l) (Unlock (G g) (Return (RErr e)))))
         (Unlock (G g) (Return (RErr None))))).

(** generator.go 146-155 *)
Definition Lookup_prog (g : nat) (id : string) : gprog :=
  if (slen id =? 0)%Z then Return (RDevice None)
  else RLock (G g) (read_list g (fun l => find_prog id 0 l
         (fun _ p => RUnlock (G g) (Return (RDevice (Some p)))) (RUnlock (G g) (Return (RDevice None))))).

(** generator.go 158-162 *)
Definition NumDevices_prog (g : nat) : gprog := RLock (G g) (read_list g (fun l => RUnlock (G g) (Return (RNum (zlen l))))).

(** generator.go 165-183: OnError, OnPacket, OnNext; the field they set is left out *)
Definition On_prog (g : nat) : gprog := Lock (G g) (Unlock (G g) (Return RUnit)).

(** generator.go 134-142: the callback, given an index, a device and what is done after it returned, says what happens next. *)
Fixpoint each_loop (g i : nat) (l : list nat) (done : list (nat * nat)) (fn : nat -> nat -> (bool -> gprog) -> gprog) : gprog :=
  match l with
  | [] => RUnlock (G g) (Return (RCalls done))
  | p :: r => fn i p (fun next : bool =>
      if next then each_loop g (S i) r (done ++ [(i, p)]) fn else RUnlock (G g) (Return (RCalls (done ++ [(i, p)]))))
  end.
Definition Each_prog (g : nat) (fn : nat -> nat -> (bool -> gprog) -> gprog) : gprog :=
  RLock (G g) (read_list g (fun l => each_loop g 0 l [] fn)).

(** generator.go 229-252, one tick of the run loop: g.mu is held while the devices are moved and put into the packet. Only
    ticks with fewer devices than fit into a packet; otherwise g.mu is let go of for each flush. *)
Fixpoint move_all (l : list nat) (tick : T) (x : nat -> nextDraws T) (k : gprog) : gprog :=
  match l with
  | [] => k
  | p :: r => at_device p (Next_prog tick (x p)) (fun _ => move_all r tick x k)
  end.
Fixpoint pack_all (g : nat) (l : list nat) (k : gprog) : gprog :=
  match l with
  | [] => k
  | p :: r => Lock (P g) (at_device p (query (fun _ => VUnit)) (fun _ => Unlock (P g) (pack_all g r k)))
  end.
Definition Tick_prog (g : nat) (tick : T) (x : nat -> nextDraws T) : gprog :=
  RLock (G g) (read_list g (fun l => move_all l tick x (pack_all g l (RUnlock (G g) (Return RUnit))))).
(** generator.go 291-294: a worker serialises its slice of the packet *)
Definition Marshal_prog (g : nat) : gprog := RLock (P g) (RUnlock (P g) (Return RUnit)).
(** generator.go 377-383 *)
Definition Reset_prog (g : nat) : gprog := Lock (P g) (Unlock (P g) (Return RUnit)).

(** device.go 297-307: EachSensor of device [p] with a callback that does as it likes *)
Definition DeviceEachSensor_prog (p : nat) (fn : nat -> sensor T -> (bool -> gprog) -> gprog) : gprog :=
  let fix loop i l := match l with
    | [] => RUnlock (D p) (Return RUnit)
    | s :: r => fn i s (fun next : bool => if next then loop (S i) r else RUnlock (D p) (Return RUnit))
    end in
  RLock (D p) (Access (D p) (fun c => c) (fun c => match c with CDev d => loop O (d_sensors d) | _ => Crash end)).
End GenLocks.
Arguments cell : clear implicits.
Arguments gval : clear implicits.
Arguments gprog : clear implicits.
