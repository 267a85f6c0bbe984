(** The methods of device.go as programs on a shared device, its mutex d.mu and its tick counter: which lock a
    method takes, and what it reads and writes outside of it.

    The memory is a [device]; its field [d_tick] is not used here, the counter of Mutex.v stands for it. Methods that hold
    d.mu from their first to their last access are one access under the lock (any finer program that keeps to the
    lock is covered by the theorems about guarded programs); Next, Snapshot, SensorAt and IsFinish are given in
    steps. Calls on routes, tracks and sensors through the handles a device hands out take no lock and are left out. *)
From Verif.Model Require Import Base Num Geo Curve PropMap Pb Types TypesSnap Track Route Navigator Device Mutex.
Open Scope num_scope.

Section DeviceConc.
Context {T : Type} {N : Num T} {J : JsonLib T} {U : UtmLib T}.

(** What a call returns. [VSnap s l]: a snapshot whose list of sensors is [l], nil for an entry that was never set;
    [VPacket r]: what a worker of the generator hands to OnPacket or OnError (PacketConc.v). *)
Inductive dval : Type :=
| VUnit
| VBool (b : bool)
| VErr (e : option goerr)
| VText (s : string)
| VNum (z : Z)
| VSensor (s : option (sensor T))
| VSnap (s : pbSnapshot T) (sensors : list (option (pbSensor T)))
| VPacket (r : goret (list Z)).

Definition dprog : Type := prog (device T) dval.

(** Look at the device, or run a part of a method on it. *)
Definition look (k : device T -> dprog) : dprog := Access (fun d => d) k.
Definition part {A} (f : device T -> res (A * device T)) (k : A -> dprog) : dprog :=
  Access (fun d => match f d with Ret (_, d') => d' | _ => d end)
         (fun d => match f d with Ret (a, _) => k a | _ => Crash end).
Definition part_ (f : device T -> res (device T)) (k : dprog) : dprog :=
  part (fun d => let* d' := f d in Ret (tt, d')) (fun _ => k).

(** d.mu.Lock(); defer d.mu.Unlock(): device.go 112-136, 160-168, 184-213, 240-269 (after the test of the ID),
    318-328, 338-362, 376-383, 505-512, 524-601, 748-779, 790-808 *)
Definition change (f : device T -> res (dval * device T)) : dprog := Lock (part f (fun v => Unlock (Return v))).
(** d.mu.RLock(); defer d.mu.RUnlock(): device.go 139-157, 171-181, 216-235, 272-283, 331-336, 365-374, 386-447,
    455-503, 516-521, 607-627 *)
Definition query (f : device T -> dval) : dprog := RLock (look (fun d => RUnlock (Return (f d)))).

(** device.go 286-295 *)
Definition SensorAt_prog (i : Z) : dprog :=
  look (fun d =>
    if ((zlen (d_sensors d) =? 0) || (zlen (d_sensors d) - 1 <? i) || (i <? 0))%Z then Return (VSensor None)
    else RLock (look (fun d =>
           match zget (d_sensors d) i with
           | Some s => RUnlock (Return (VSensor (Some s)))
           | None => Crash
           end))).

(** device.go 449-453, navigator/navigator.go 239-248 *)
Definition IsFinish_prog : dprog :=
  RLock (look (fun d => if fst (device_IsFinish d)
                        then Access (fun d => snd (device_IsFinish d)) (fun _ => RUnlock (Return (VBool true)))
                        else RUnlock (Return (VBool false)))).

(** device.go 297-307, 310-315: the callback, given an index and what is to be done after it returned, says what happens next. *)
Fixpoint each_from {A} (i : nat) (l : list A) (fn : nat -> A -> (bool -> dprog) -> dprog) (k : dprog) : dprog :=
  match l with
  | [] => k
  | x :: r => fn i x (fun next : bool => if next then each_from (S i) r fn k else k)
  end.
Definition EachSensor_prog (fn : nat -> sensor T -> (bool -> dprog) -> dprog) : dprog :=
  RLock (look (fun d => each_from 0 (d_sensors d) fn (RUnlock (Return VUnit)))).
Definition EachRoute_prog (fn : nat -> route T -> (bool -> dprog) -> dprog) : dprog :=
  RLock (look (fun d => each_from 0 (n_routes (d_nav d)) fn (RUnlock (Return VUnit)))).

(** device.go 633-692 *)
Definition Next_prog (tick : T) (x : nextDraws T) : dprog :=
  TryLock (fun ok => if ok : bool then
    look (fun d =>
      match n_routes (d_nav d) with
      | [] => Unlock (Return (VBool false))
      | _ =>
        Load (fun owed =>
        let seconds := fofZ owed + tick in
        Store 0 (
        part_ (fun d => Ret (dset_state d (st_time (d_state d) (pde_tick (d_state d)) (pde_duration (d_state d) + seconds)))) (
        part_ (fun d => Ret (dset_state d (st_time (d_state d) seconds (pde_duration (d_state d))))) (
        part_ (fun d => Ret (dset_battery d (battery_Next (d_battery d) seconds))) (
        part_ (fun d => next_lowBattery d x) (
        look (fun d => let t := nextT d seconds in
        part_ (fun d => next_speed d t) (
        part (fun d => let* (ok, n) := NextLocation (d_nav d) seconds (pde_speed (d_state d)) (xd_loc x) in Ret (ok, dset_nav d n)) (fun ok =>
        part (fun d => if ok : bool then next_moved d t else next_stopped d x) (fun b =>
        Unlock (Return (VBool b))))))))))))
      end)
    else Inc (Return (VBool false))).

(** device.go 719-743; [sensors_of n l]: the list made for n sensors, filled from the l there are (lines 736-738) *)
Definition sensors_of (n : Z) (l : list (sensor T)) : list (option (pbSensor T)) :=
  map (fun s => Some (sensor_Snapshot s)) l ++ repeat None (Z.to_nat n - List.length l)%nat.
Definition Snapshot_prog : dprog :=
  look (fun d => let id := pde_id (d_state d) in
  look (fun d => let user := pde_user_id (d_state d) in
  look (fun d => let model := pde_model (d_state d) in
  look (fun d => let tick := pde_tick (d_state d) in
  look (fun d => let color := pde_color (d_state d) in
  look (fun d => let descr := pde_description (d_state d) in
  look (fun d => let duration := pde_duration (d_state d) in
  part (fun d => let* n := nav_Snapshot (d_nav d) in Ret (n, d)) (fun nav =>
  look (fun d => let speed := speed_Snapshot (d_speed d) in
  look (fun d => let battery := battery_Snapshot (d_battery d) in
  let snap := mkPbSnapshot id user tick duration model descr Stopped color (Some nav) (Some speed) (Some battery) [] in
  look (fun d => if (0 <? zlen (d_sensors d))%Z then
    look (fun d => let n := zlen (d_sensors d) in
    RLock (look (fun d => if (zlen (d_sensors d) <=? n)%Z
                          then RUnlock (Return (VSnap snap (sensors_of n (d_sensors d))))
                          else Crash)))
  else Return (VSnap snap [])))))))))))).
End DeviceConc.
Arguments dval : clear implicits.
Arguments dprog : clear implicits.
