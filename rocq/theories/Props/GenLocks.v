(** C72, C73: generators and devices used by several goroutines. *)
From Coq Require Import Lia.
From Verif.Model Require Import Base Num NumF64 Geo Curve PropMap Pb Types TypesSnap Track Route Navigator Device Generator Mutex DeviceConc Locks GenLocks.
From Verif.Spec Require Import NumLaws NavSpec TypesSpec DeviceSpec GenSpec DeviceConcSpec LocksSpec GenLocksSpec Examples DeviceExamples.
From Verif.Proofs Require Import GenProofs GenLocksLive GenLocksSerial GenLocksRefuted.
From Verif.Props Require Import Generator.
Open Scope num_scope.

(** C72. Whatever calls any number of goroutines make on any generators and devices, while generators move their
    devices, and however they are scheduled: the calls all return, or one of them panics. Partial: callbacks of Each
    use devices only, device calls hold the lock of the device throughout, and a tick fills one packet only. *)
Theorem C72_all_return_partial :
  forall (T : Type) (N : Num T) (J : JsonLib T) (U : UtmLib T) (w : world T) (calls : list (list (gen_use T)))
    (x : system gkey (cell T) (gval T)),
    Forall (Forall lawful_use) calls -> steps (start (memory w) (map (map use_prog) calls)) x -> ends x.
Proof. intros T N J U w calls x _. apply C72_proof. Qed.
Print Assumptions C72_all_return_partial.

(** Two goroutines attach and detach while the generator runs and a fourth walks over the devices and uses them. *)
Definition busy : list (list (gen_use f64)) :=
  [[UAttach 0 (Some 5%nat); UDetach 0 "device-1"%string];
   [UAttach 0 (Some 6%nat); UHas 0 "device-1"%string; UDevice 6 (CNext (f64_ofZ 1) ex_draws)];
   [UTick 0 (f64_ofZ 1) (fun _ => ex_draws); UMarshal 0; UReset 0];
   [UEach 0 (fun _ p => ([(p, CNext (f64_ofZ 1) ex_draws); (p, CChange (DSetUserID "ann"%string))], true))]].
Example C72_example : Forall (Forall lawful_use) busy.
Proof. repeat constructor. Qed.

(** C72 is false of callbacks that use the generator: with Attach, Detach, HasTracker and OnPacket in its callback, Each
    waits for itself whenever there is a device to visit. *)
Theorem C72_each_refuted :
  forall (T : Type) (N : Num T) (J : JsonLib T) (U : UtmLib T) (w : world T) g (u : gen_use T),
    gen_devices w g <> [] ->
    (match u with UAttach h p => h = g /\ p <> None | UDetach h id => h = g /\ id <> ""%string | UHas h _ | UOn h => h = g | _ => False end) ->
    exists x : system gkey (cell T) (gval T), steps (start (memory w) [[Each_prog g (then_go_on (use_prog u))]]) x /\ deadlock x.
Proof. exact @C72_each_proof. Qed.
Print Assumptions C72_each_refuted.

(** With Lookup and NumDevices in its callback, Each and a writer wait for each other. *)
Theorem C72_each_reader_refuted :
  forall (T : Type) (N : Num T) (J : JsonLib T) (U : UtmLib T) (w : world T) g (u v : gen_use T),
    gen_devices w g <> [] ->
    (match u with ULookup h id => h = g /\ id <> ""%string | UNum h => h = g | _ => False end) ->
    (match v with UAttach h p => h = g /\ p <> None | UDetach h id => h = g /\ id <> ""%string | UHas h _ | UOn h => h = g | _ => False end) ->
    exists x : system gkey (cell T) (gval T), steps (start (memory w) [[Each_prog g (then_go_on (use_prog u))]; [use_prog v]]) x /\ deadlock x.
Proof. exact @C72_each_reader_proof. Qed.
Print Assumptions C72_each_reader_refuted.

(** A callback of a device's EachSensor that asks the generator anything, and an Attach of that device, wait for each
    other: one has the device and wants the generator, the other has the generator and wants the device. *)
Theorem C72_sensors_refuted :
  forall (T : Type) (N : Num T) (J : JsonLib T) (U : UtmLib T) (w : world T) g p (u : gen_use T),
    d_sensors (w_heap w p) <> [] ->
    (match u with ULookup h id => h = g /\ id <> ""%string | UNum h | UHas h _ => h = g | _ => False end) ->
    exists x : system gkey (cell T) (gval T),
      steps (start (memory w) [[DeviceEachSensor_prog p (then_go_on (use_prog u))]; [Attach_prog g (Some p)]]) x /\ deadlock x.
Proof. exact @C72_sensors_proof. Qed.
Print Assumptions C72_sensors_refuted.

Example C72_refuted_example : gen_devices ex_w 0 <> [] /\
  d_sensors (w_heap (run_world ex_w (OpCall 5%nat (DAddSensor [ex_sensor "s1" "temp"]))) 5%nat) <> [].
Proof.
  split; [vm_compute; discriminate|].
  intros X. apply (f_equal (@List.length _)) in X. revert X. vm_compute. discriminate.
Qed.

(** C73. The calls of any number of goroutines, at any moment of any schedule: what everybody was told is what they are
    told when the calls are made one at a time in some order, and that order only grows. When all have returned,
    the generators and devices are those that order leaves. *)
Theorem C73_history :
  forall (T : Type) (N : Num T) (J : JsonLib T) (U : UtmLib T) (w : world T) (calls : list (list (gen_use T)))
    (x y : system gkey (cell T) (gval T)),
    Forall (Forall (serial_use w)) calls -> steps (start (memory w) (map (map use_prog) calls)) x -> steps x y ->
    exists before after w1 us1 w2 us2,
      in_turn before w (map (fun l => (l, [])) calls) w1 us1 /\ explains us1 x /\
      in_turn after w1 us1 w2 us2 /\ explains us2 y /\
      (finished y -> (forall i, sh_mem (sy_shared y) i = memory w2 i) /\ us2 = map (fun g => ([], go_results g)) (sy_gos y)).
Proof. exact @C73_proof. Qed.
Print Assumptions C73_history.

(** C73. So the devices of the generators and the marks on the devices agree after any schedule, as they do after calls
    in turn (C51): no list has a device twice, no two lists share one, and a device runs iff it is in a list. *)
Theorem C73_membership :
  forall (T : Type) (N : Num T) (J : JsonLib T) (U : UtmLib T) (w : world T) (calls : list (list (gen_use T)))
    (y : system gkey (cell T) (gval T)),
    made_world w -> Forall (Forall (serial_use w)) calls ->
    steps (start (memory w) (map (map use_prog) calls)) y -> finished y ->
    let m := sh_mem (sy_shared y) in
    (forall g l, m (G g) = CList l -> NoDup l) /\
    (forall g h p l l', m (G g) = CList l -> m (G h) = CList l' -> In p l -> In p l' -> g = h) /\
    (forall p d, m (D p) = CDev d -> (d_status d = Running <-> exists g l, m (G g) = CList l /\ In p l)).
Proof. exact @C73_membership_proof. Qed.
Print Assumptions C73_membership.

(** C73. Of any number of goroutines that attach one device at the same time, to whatever generators, exactly one is told it
    did. *)
Theorem C73_one_owner :
  forall (T : Type) (N : Num T) (J : JsonLib T) (U : UtmLib T) (w : world T) gs p (y : system gkey (cell T) (gval T)),
    gs <> [] -> ~ is_running w p -> Forall (fun g => g < List.length (w_gens w))%nat gs ->
    steps (start (memory w) (map (map use_prog) (attach_to gs p))) y -> finished y ->
    exists i, (i < List.length gs)%nat /\
      map go_results (sy_gos y) = map (fun j => [if (j =? i)%nat then RErr None else RErr (Some ErrAlreadyRunning)]) (seq 0 (List.length gs)).
Proof. exact @C73_owner_proof. Qed.
Print Assumptions C73_one_owner.

(** two generators want device 8, the second call overtakes the first and wins *)
Example C73_example : made_world ex_w /\ ~ is_running ex_w 8%nat /\ Forall (Forall (serial_use ex_w)) (attach_to [0; 1]%nat 8%nat) /\
  exists y : system gkey (cell f64) (gval f64),
    steps (start (memory ex_w) (map (map use_prog) (attach_to [0; 1]%nat 8%nat))) y /\ finished y /\
    map go_results (sy_gos y) = [[RErr (Some ErrAlreadyRunning)]; [RErr None]].
Proof.
  split; [exact (proj1 C51_example)|]. split; [vm_compute; discriminate|]. split; [repeat constructor; vm_compute; lia|].
  apply race_run; vm_compute; reflexivity.
Qed.
