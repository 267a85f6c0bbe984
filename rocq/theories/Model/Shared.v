(** Several devices that hold the same route and sensor objects.

    Device.v gives a device its routes and sensors as values. In the code they are pointers (device.go 27-38: sensors;
    navigator/navigator.go 11-28: routes), so one *Route may be held by several devices, and one *Sensor as well. Here the
    objects live in a heap, and a device holds the positions of its objects in it. What a method does with the objects is
    taken from Device.v: it is run on the objects the device points to, and what it makes of them goes back to the
    same places. Which objects a device points to afterwards is written out below.

    Simplifications: tracks are values inside their route; objects that are made later are in the heap from the start; a
    position outside of the heap is a nil pointer. *)
From Verif.Model Require Import Base Num Geo Curve PropMap Types Pb TypesSnap Track Route Navigator Device.
From Verif.Spec Require Import ListSpec TrackSpec RouteSpec NavSpec TypesSpec DeviceSpec.

Section Shared.
Context {T : Type} {N : Num T} {J : JsonLib T} {U : UtmLib T}.

(** what the pointers [l] point to *)
Definition pick {A} (h : list A) (l : list nat) : list A :=
  flat_map (fun a => match nth_error h a with Some x => [x] | None => [] end) l.
(** what one argument points to *)
Definition target {A} (h : list A) (p : option nat) : option A :=
  match p with Some a => nth_error h a | None => None end.
(** the objects the pointers [l] point to become [v] *)
Fixpoint put {A} (h : list A) (l : list nat) (v : list A) : list A :=
  match l, v with
  | a :: l', x :: v' => put (set_nth a x h) l' v'
  | _, _ => h
  end.

(** A device and the objects it points to; [n_routes] and [d_sensors] of [sd_dev] stand for nothing. *)
Record sdevice : Type := mkSDev { sd_dev : device T; sd_routes : list nat; sd_sensors : list nat }.
Record world : Type := mkWorld { w_routes : list (route T); w_sensors : list (sensor T); w_devs : list sdevice }.

(** the device with its objects *)
Definition load (w : world) (s : sdevice) : device T :=
  let d := sd_dev s in
  dset_sensors (dset_nav d (set_routes (d_nav d) (pick (w_routes w) (sd_routes s)))) (pick (w_sensors w) (sd_sensors s)).

(** navigator/navigator.go 83-90 *)
Fixpoint add_route_ptrs (h : list (route T)) (l : list nat) (new : list (option nat)) : list nat :=
  match new with
  | [] => l
  | p :: r =>
      match p, target h p with
      | Some a, Some x => if hasRoute (pick h l) (rt_id x) then add_route_ptrs h l r else add_route_ptrs h (l ++ [a]) r
      | _, _ => add_route_ptrs h l r
      end
  end.
(** device.go 192-200 *)
Fixpoint add_sensor_ptrs (h : list (sensor T)) (l : list nat) (new : list (option nat)) : list nat :=
  match new with
  | [] => l
  | p :: r =>
      match p, target h p with
      | Some a, Some x => if hasSensor (pick h l) (s_id x) then add_sensor_ptrs h l r else add_sensor_ptrs h (l ++ [a]) r
      | _, _ => add_sensor_ptrs h l r
      end
  end.

(** Calls on a device: AddRoute and AddSensor with pointers, the others as in [dev_op]. *)
Inductive shared_op : Type :=
| OAddRoute (l : list (option nat))
| OAddSensor (l : list (option nat))
| OOther (o : dev_op T).

Definition op_of (w : world) (o : shared_op) : dev_op T :=
  match o with
  | OAddRoute l => DAddRoute (map (target (w_routes w)) l)
  | OAddSensor l => DAddSensor (map (target (w_sensors w)) l)
  | OOther o => o
  end.

(** navigator/navigator.go 79-96, 113-121, 149-165 *)
Definition route_ptrs (h : list (route T)) (l : list nat) (o : shared_op) : list nat :=
  match o with
  | OAddRoute new => add_route_ptrs h l new
  | OOther DResetRoutes => []
  | OOther (DRemoveRoute id) =>
      if ((slen id =? 0) || (36 <? slen id))%Z then l
      else match find_index (fun r => String.eqb (rt_id r) id) (pick h l) with Some i => del_nth i l | None => l end
  | _ => l
  end.
(** device.go 184-213, 240-269 *)
Definition sensor_ptrs (h : list (sensor T)) (l : list nat) (o : shared_op) : list nat :=
  match o with
  | OAddSensor new => add_sensor_ptrs h l new
  | OOther DResetSensors => []
  | OOther (DRemoveSensor id) =>
      if (slen id =? 0)%Z then l
      else match find_index (fun s => String.eqb (s_id s) id) (pick h l) with Some i => del_nth i l | None => l end
  | _ => l
  end.

(** one call on the [i]-th device *)
Definition call_device (w : world) (i : nat) (o : shared_op) : res world :=
  match nth_error (w_devs w) i with
  | None => Ret w
  | Some s =>
      let* d := run_dev (load w s) (op_of w o) in
      let rp := route_ptrs (w_routes w) (sd_routes s) o in
      let sp := sensor_ptrs (w_sensors w) (sd_sensors s) o in
      Ret (mkWorld (put (w_routes w) rp (n_routes (d_nav d))) (put (w_sensors w) sp (d_sensors d))
                   (set_nth i (mkSDev d rp sp) (w_devs w)))
  end.

(** A call on a device, on a route, or on a sensor. *)
Inductive scall : Type :=
| SDevice (i : nat) (o : shared_op)
| SRoute (a : nat) (o : route_op T)
| SSensor (a : nat) (o : gen_op T).

Definition run_call (w : world) (c : scall) : res world :=
  match c with
  | SDevice i o => call_device w i o
  | SRoute a o =>
      Ret match nth_error (w_routes w) a with
          | Some r => mkWorld (set_nth a (run_route r o) (w_routes w)) (w_sensors w) (w_devs w)
          | None => w
          end
  | SSensor a o =>
      match nth_error (w_sensors w) a with
      | Some s => let* s' := run_sensor1 s o in Ret (mkWorld (w_routes w) (set_nth a s' (w_sensors w)) (w_devs w))
      | None => Ret w
      end
  end.
Fixpoint run_calls (w : world) (l : list scall) : res world :=
  match l with
  | [] => Ret w
  | c :: r => let* w' := run_call w c in run_calls w' r
  end.
End Shared.
Arguments sdevice : clear implicits.
Arguments world : clear implicits.
Arguments shared_op : clear implicits.
Arguments scall : clear implicits.
