(** C69-C71: devices used by several goroutines, and the end of a journey. *)
From Coq Require Import Lia.
From Verif.Model Require Import Base Num NumF64 Geo Curve PropMap Types Pb TypesSnap Track Route Navigator Device Mutex DeviceConc.
From Verif.Spec Require Import NumLaws NavSpec TypesSpec DeviceSpec MutexSpec DeviceConcSpec Examples DeviceExamples.
From Verif.Proofs Require Import MutexProofs DeviceConcProofs DeviceConcRefuted FinishProofs.
Open Scope num_scope.

(** A device that moves 0.1 m with every step of one second, on its way; the same with a sensor. *)
Definition slow : deviceOptions f64 := let o := ex_skip in
  mkDevOpts (do_id o) "Slow" (do_color o) (do_userID o) (do_descr o) true (do_offMin o) (do_offMax o)
    (do_elevMin o) (do_elevMax o) (do_elevAmp o) (do_elevMode o) (do_batMin o) (do_batMax o) (do_batCharge o)
    (fdec 1 10) (fdec 1 10) (do_speedAmp o).
Definition slow_new : device f64 := match fst (NewDevice (Some slow) ex_new_draws) with GOk d => d | GErr _ => device_zero end.
Definition slow_ready : device f64 := ran (run_devs slow_new [DAddRoute [ex_r1]]).
Definition slow_moved : device f64 := after (Next slow_ready true (f64_ofZ 1) ex_draws).
Definition slow_sensor : device f64 := ran (run_devs slow_ready [DAddSensor [ex_sensor "s1" "temp"]]).

Lemma slow_check :
  match fst (NewDevice (Some slow) ex_new_draws) with
  | GOk d0 => match run_devs d0 [DAddRoute [ex_r1]] with
    | Ret d => match Next d true (f64_ofZ 1) ex_draws with
      | Ret (b, d') => b && fst (device_IsFinish d') && (n_cd (d_nav d') <? n_dist (d_nav d'))
      | _ => false end
    | _ => false end
  | GErr _ => false end = true.
Proof. vm_compute. reflexivity. Qed.

(** C69. Calls that hold the mutex from their first to their last access, made by any number of goroutines in
    any interleaving: the results and the memory at the end are those of making the calls one at a time, in the
    order in which they let go of the mutex. Partial: Snapshot, SensorAt and IsFinish are no such calls. *)
Theorem C69_serial_partial :
  forall (M V : Type) (m : M) c (calls : list (list (prog M V))) ps (x : system M V),
    uint32 c -> Forall (Forall guarded) calls -> steps ps (start m c calls) x -> finished x ->
    one_by_one ps m (map (fun l => mkGo l []) calls) (sh_mem (sy_shared x)) (sy_gos x).
Proof. exact @guarded_serial. Qed.
Print Assumptions C69_serial_partial.

(** C69. The device: whatever Next calls, changes and queries the goroutines make, the device ends up, and everybody
    is told, as if the calls had been made one at a time. *)
Theorem C69_history_partial :
  forall (T : Type) (N : Num T) (J : JsonLib T) (U : UtmLib T) (d0 : device T) cnt calls turns x,
    d_tick d0 = 0%Z -> uint32 cnt -> Forall (Forall lawful) calls ->
    steps turns (start d0 cnt (map (map call_prog) calls)) x -> finished x ->
    history turns d0 calls (map (fun _ => []) calls) (sh_mem (sy_shared x)) (map go_results (sy_gos x)).
Proof. exact @C69_history_proof. Qed.
Print Assumptions C69_history_partial.

(** a step that finds the lock taken by a change, and a query: three goroutines that run to the end *)
Definition two_steps : list (list (dev_call f64)) :=
  [[CChange (DSetUserID "ann"); CNext (f64_ofZ 1) ex_draws];
   [CNext (f64_ofZ 1) ex_draws]; [CQuery (fun d => VText (pde_user_id (d_state d)))]].
Example C69_example : d_tick slow_ready = 0%Z /\ Forall (Forall lawful) two_steps /\
  exists turns x, steps turns (start slow_ready 0 (map (map call_prog) two_steps)) x /\ finished x /\ turns = [1;0;0;2]%nat /\
    map go_results (sy_gos x) = [[VUnit; VBool true]; [VBool false]; [VText "ann"%string]] /\
    (pde_tick (d_state (sh_mem (sy_shared x))) =? f64_ofZ 2) = true.
Proof.
  split; [vm_compute; reflexivity|]. split; [repeat constructor|].
  destruct (run_view ([0;0;1;1;1;0;0;0] ++ repeat 0 14 ++ [2;2;2;2])%nat%list (start slow_ready 0 (map (map call_prog) two_steps))
    (fun t x => (t, left_to_do x, map go_results (sy_gos x), pde_tick (d_state (sh_mem (sy_shared x))) =? f64_ofZ 2))
    ([1;0;0;2]%nat, [0;0;0]%nat, [[VUnit; VBool true]; [VBool false]; [VText "ann"%string]], true)) as (t & x & S & C).
  { vm_compute. reflexivity. }
  injection C as C1 C2 C3 C4. exists t, x. split; [exact S|]. split; [|auto]. apply nothing_left. rewrite C2. repeat constructor.
Qed.

(** C69. If such calls panic, one of them panics alone, after the calls that have left the mutex. *)
Theorem C69_panic_partial :
  forall (M V : Type) (m : M) c (calls : list (list (prog M V))) ps (x : system M V),
    uint32 c -> Forall (Forall guarded) calls -> steps ps (start m c calls) x -> sy_crashed x = true ->
    exists m' gs i p l r, one_by_one ps m (map (fun l => mkGo l []) calls) m' gs /\
      nth_error gs i = Some (mkGo (p :: l) r) /\ crashes p m'.
Proof. exact @guarded_panic. Qed.
Print Assumptions C69_panic_partial.

(** C69. No schedule of Next calls, changes and queries panics a device, DestinationTo excepted (C63). *)
Theorem C69_no_panic_partial :
  forall (T : Type) (N : Num T) (J : JsonLib T) (U : UtmLib T) opts x0 (d0 : device T) cnt calls turns (x : system (device T) (dval T)),
    zero_eq_zero N -> built opts x0 d0 -> uint32 cnt -> Forall (Forall harmless) calls ->
    steps turns (start d0 cnt (map (map call_prog) calls)) x -> sy_crashed x = false.
Proof. intros T N J U opts x0 d0 cnt calls turns x Z0. exact (C69_no_panic_proof Z0 opts x0 d0 cnt calls turns x). Qed.
Print Assumptions C69_no_panic_partial.

Example C69_no_panic_example : zero_eq_zero exN /\ (exists d0, built (Some slow) ex_new_draws d0) /\
  Forall (Forall harmless) ([CChange (DAddRoute [ex_r1]); CNext (f64_ofZ 1) ex_draws] :: two_steps).
Proof.
  split; [vm_compute; reflexivity|]. split; [|repeat (constructor; cbn; auto)].
  assert (B : match fst (NewDevice (Some slow) ex_new_draws) with GOk _ => true | GErr _ => false end = true) by (vm_compute; reflexivity).
  unfold built. revert B. destruct (fst (NewDevice (Some slow) ex_new_draws)) as [d|]; [intros _; exists d; reflexivity|discriminate].
Qed.

(** C69 is false of SensorAt: it looks at the number of sensors before it takes the lock. Alone it answers on every device,
    beside a call of ResetSensors it may panic. *)
Theorem C69_sensor_at_refuted :
  forall (T : Type) (N : Num T) (J : JsonLib T) (U : UtmLib T) (d : device T), d_sensors d <> [] ->
    (forall (d' : device T) i, exists v, alone (SensorAt_prog i) d' d' v) /\
    exists ps x, steps ps (start d 0 [[SensorAt_prog 0]; [call_prog (CChange DResetSensors)]]) x /\ sy_crashed x = true.
Proof. intros T N J U d H. split; [intros; apply SensorAt_alone|now apply SensorAt_panics]. Qed.
Print Assumptions C69_sensor_at_refuted.

(** C69 is false of Snapshot: it makes room for the sensors before it takes the lock, and may panic beside AddSensor. *)
Theorem C69_snapshot_panic_refuted :
  forall (T : Type) (N : Num T) (J : JsonLib T) (U : UtmLib T) (d : device T) s nv,
    d_sensors d <> [] -> hasSensor (d_sensors d) (s_id s) = false -> nav_Snapshot (d_nav d) = Ret nv ->
    exists ps x, steps ps (start d 0 [[Snapshot_prog]; [call_prog (CChange (DAddSensor [Some s]))]]) x /\ sy_crashed x = true.
Proof. exact @Snapshot_panics. Qed.
Print Assumptions C69_snapshot_panic_refuted.

(** C69 is false of Snapshot: it shows the user from before and the description from after two changes made in this
    order, which no order of the calls explains. *)
Theorem C69_snapshot_torn_refuted :
  forall (T : Type) (N : Num T) (J : JsonLib T) (U : UtmLib T) (d : device T) u e nv,
    nav_Snapshot (d_nav d) = Ret nv -> d_sensors d = [] -> u <> pde_user_id (d_state d) -> e <> pde_description (d_state d) ->
    let calls := [[Snapshot_prog]; [call_prog (CChange (DSetUserID u)); call_prog (CChange (DSetDescription e))]] in
    exists ps x, steps ps (start d 0 calls) x /\ finished x /\
      forall turns d' gs, one_by_one turns d (map (fun p => mkGo p []) calls) d' gs -> map go_results gs <> map go_results (sy_gos x).
Proof.
  intros T N J U d u e nv En Es Hu He calls. destruct (Snapshot_torn d u e nv En Es) as (ps & x & s & l & S & F & R & R1 & R2).
  exists ps, x. split; [exact S|]. split; [exact F|]. intros turns d' gs O E. rewrite R in E.
  destruct (Snapshot_in_turn d u e turns d' gs s l O E) as [H|[H|H]]; unfold user_descr in H; congruence.
Qed.
Print Assumptions C69_snapshot_torn_refuted.

(** C69 is false of Snapshot beside a step: the time of before the step with the position of after it. *)
Theorem C69_snapshot_step_refuted :
  forall (T : Type) (N : Num T) (J : JsonLib T) (U : UtmLib T) (d : device T) tick x b d' nv,
    d_tick d = 0%Z -> n_routes (d_nav d) <> [] -> Next d true tick x = Ret (b, d') ->
    nav_Snapshot (d_nav d') = Ret nv -> d_sensors d' = [] ->
    exists ps y s l, steps ps (start d 0 [[Snapshot_prog]; [Next_prog tick x]]) y /\ finished y /\
      map go_results (sy_gos y) = [[VSnap s l]; [VBool b]] /\
      psn_duration s = pde_duration (d_state d) /\ psn_navigator s = Some nv.
Proof. exact @Snapshot_between. Qed.
Print Assumptions C69_snapshot_step_refuted.

(** C69 is false of IsFinish: two goroutines may both be told that the journey has ended, one after the other they are not. *)
Theorem C69_is_finish_refuted :
  forall (T : Type) (N : Num T) (J : JsonLib T) (U : UtmLib T) (d : device T),
    (@f0 T N =? fdec 1 10) = false -> fst (device_IsFinish d) = true ->
    exists ps x, steps ps (start d 0 [[IsFinish_prog]; [IsFinish_prog]]) x /\ finished x /\
      map go_results (sy_gos x) = [[VBool true]; [VBool true]] /\
      forall turns d' gs, one_by_one turns d (map (fun p => mkGo p []) [[IsFinish_prog]; [IsFinish_prog]]) d' gs ->
        map go_results gs <> map go_results (sy_gos x).
Proof.
  intros T N J U d Z0 E. destruct (IsFinish_twice d E) as (ps & x & S & F & R). exists ps, x. repeat split; auto.
  intros turns d' gs O. rewrite R. eapply IsFinish_in_turn; eauto.
Qed.
Print Assumptions C69_is_finish_refuted.

Example C69_refuted_example :
  zlen (d_sensors slow_sensor) = 1%Z /\
  match ex_sensor "s2" "rain" with Some s => hasSensor (d_sensors slow_sensor) (s_id s) | None => true end = false /\
  match nav_Snapshot (d_nav slow_sensor) with Ret _ => true | _ => false end = true /\
  d_sensors slow_ready = [] /\ d_sensors slow_moved = [] /\ d_tick slow_ready = 0%Z /\ zlen (n_routes (d_nav slow_ready)) = 1%Z /\
  match nav_Snapshot (d_nav slow_moved) with Ret n => pna_current_distance n =? fdec 1 10 | _ => false end = true /\
  (pde_duration (d_state slow_ready) =? f0) = true /\ (pde_duration (d_state slow_moved) =? f64_ofZ 1) = true /\
  (@f0 f64 _ =? fdec 1 10) = false /\ fst (device_IsFinish slow_moved) = true.
Proof. vm_compute. auto 20. Qed.

(** C70. Under every schedule such calls all return (or one panics), and no schedule goes on for ever. *)
Theorem C70_all_return_partial :
  forall (T : Type) (N : Num T) (J : JsonLib T) (U : UtmLib T) (d0 : device T) cnt calls turns x,
    uint32 cnt -> Forall (Forall lawful) calls -> steps turns (start d0 cnt (map (map call_prog) calls)) x -> ends x.
Proof. intros T N J U d0 cnt calls turns x Hu Hl. apply guarded_ends; [exact Hu|now apply lawful_guarded]. Qed.
Print Assumptions C70_all_return_partial.

Example C70_example : Forall (Forall lawful) two_steps /\ ends (start slow_ready 0 (map (map call_prog) two_steps)).
Proof.
  split; [repeat constructor|]. eapply (C70_all_return_partial _ _ _ _ slow_ready 0 two_steps []); [now split|repeat constructor|constructor].
Qed.

(** C70 is false of EachSensor and EachRoute with callbacks that use the device. One that changes it: *)
Theorem C70_callback_change_refuted :
  forall (T : Type) (N : Num T) (J : JsonLib T) (U : UtmLib T) (d : device T) o,
    (d_sensors d <> [] -> exists ps x, steps ps (start d 0 [[EachSensor_prog (callback_change o)]]) x /\ deadlock x) /\
    (n_routes (d_nav d) <> [] -> exists ps x, steps ps (start d 0 [[EachRoute_prog (callback_change o)]]) x /\ deadlock x).
Proof. intros T N J U d o. split; [apply EachSensor_write_deadlock|apply EachRoute_write_deadlock]. Qed.
Print Assumptions C70_callback_change_refuted.

(** One that only looks at it, while another goroutine wants to change it: *)
Theorem C70_callback_query_refuted :
  forall (T : Type) (N : Num T) (J : JsonLib T) (U : UtmLib T) (d : device T) o, d_sensors d <> [] ->
    exists ps x, steps ps (start d 0 [[EachSensor_prog callback_query]; [call_prog (CChange o)]]) x /\ deadlock x.
Proof. exact @EachSensor_read_deadlock. Qed.
Print Assumptions C70_callback_query_refuted.

Example C70_refuted_example : zlen (d_sensors slow_sensor) = 1%Z /\ zlen (n_routes (d_nav slow_sensor)) = 1%Z.
Proof. split; vm_compute; reflexivity. Qed.

(** C71. What IsFinish answers: yes exactly when the device is on the first segment of its first route and track
    and has gone 0.1 m in all; asked again it says no. *)
Theorem C71_answer_partial :
  forall (T : Type) (N : Num T) (d : device T),
    (fst (device_IsFinish d) = true <->
      n_ri (d_nav d) = 0%Z /\ n_ti (d_nav d) = 0%Z /\ n_si (d_nav d) = 0%Z /\ (n_cd (d_nav d) =? fdec 1 10) = true) /\
    ((@f0 T N =? fdec 1 10) = false -> fst (device_IsFinish (snd (device_IsFinish d))) = false).
Proof. exact @C71_answer_proof. Qed.
Print Assumptions C71_answer_partial.

(** C71 is false: after a step that did not move, one that completes the journey included, IsFinish says no. *)
Theorem C71_completed_refuted :
  forall (T : Type) (N : Num T) (J : JsonLib T) (U : UtmLib T) (d : device T) tick x d',
    (@f0 T N =? fdec 1 10) = false -> n_routes (d_nav d) <> [] ->
    Next d true tick x = Ret (false, d') -> fst (device_IsFinish d') = false.
Proof. exact @C71_stopped_proof. Qed.
Print Assumptions C71_completed_refuted.

(** a device that arrives: the second of two long steps completes the journey and restarts the clock *)
Definition far : f64 := f64_ofZ 1000000000000.
Definition slow_late : device f64 := after (Next slow_ready true far ex_draws).
Definition slow_arrived : res (bool * device f64) := Next slow_late true far ex_draws.
Example C71_example :
  (@f0 f64 _ =? fdec 1 10) = false /\ zlen (n_routes (d_nav slow_late)) = 1%Z /\
  match slow_arrived with Ret (b, d) => (b, duration d =? f0, duration slow_late =? f0, fst (device_IsFinish d)) | _ => (true, false, false, true) end
  = (false, true, false, false).
Proof. split; [vm_compute; reflexivity|]. split; vm_compute; reflexivity. Qed.

(** C71 is false: IsFinish says yes of a device that is on its way. *)
Theorem C71_spurious_refuted :
  exists (d0 d d' : device f64) tick x, built (Some slow) ex_new_draws d0 /\ run_devs d0 [DAddRoute [ex_r1]] = Ret d /\
    Next d true tick x = Ret (true, d') /\ fst (device_IsFinish d') = true /\ (n_cd (d_nav d') <? n_dist (d_nav d')) = true.
Proof.
  pose proof (spurious_finish (Some slow) ex_new_draws [DAddRoute [ex_r1]] (f64_ofZ 1) ex_draws) as H.
  specialize (H slow_check). exact H.
Qed.
Print Assumptions C71_spurious_refuted.
