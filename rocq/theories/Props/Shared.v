(** C78: devices that share routes and sensors. *)
From Coq Require Import Lia.
From Verif.Model Require Import Base Num NumF64 Geo Curve PropMap Types Pb TypesSnap Track Route Navigator Device Shared.
From Verif.Spec Require Import ListSpec NumLaws TrackSpec RouteSpec NavSpec TypesSpec DeviceSpec SnapSpec RestoreSpec SharedSpec Examples DeviceExamples.
From Verif.Proofs Require Import SharedProofs SharedAlone.
Open Scope num_scope.

(** C78. Whatever the devices share and whatever is done to them and to their routes and sensors, each device behaves
    like a single device with routes and sensors of its own (so that everything proved about the histories of one device
    holds for it): it has a history that consists of the calls made on it, with calls on its routes and sensors in
    between. *)
Theorem C78_history :
  forall (T : Type) (N : Num T) (J : JsonLib T) (U : UtmLib T) (w w' : world T) l j d,
    well_held w -> Forall plain l -> run_calls w l = Ret w' -> device_at w j = Some d ->
    exists d' ops, device_at w' j = Some d' /\ run_devs d ops = Ret d' /\ filter on_device ops = calls_on w j l.
Proof. intros T N J U w w' l j d. exact (history_proof l w w' j d). Qed.
Print Assumptions C78_history.

(** C78. A device that shares routes but no sensors goes on as if the others were not there, as long as nobody else
    removes tracks: without the other devices' calls it gives the same answers and looks the same in the end. *)
Theorem C78_alone_partial :
  forall (T : Type) (N : Num T) (J : JsonLib T) (U : UtmLib T) (w w' : world T) l j d,
    well_held w -> Forall plain l -> run_calls w l = Ret w' -> device_at w j = Some d ->
    sensors_not_shared w j l -> others_keep_tracks j l ->
    let l' := without_others j (its_sensors w j l) l in
    exists v' e e', run_calls w l' = Ret v' /\ device_at w' j = Some e /\ device_at v' j = Some e' /\
      view true true e = view true true e' /\ answers w j l = answers w j l'.
Proof. intros T N J U w w' l j d W P R D S K. exact (alone_proof w j d l w' W P D S K R). Qed.
Print Assumptions C78_alone_partial.

(** C78. However routes and sensors are shared, no call panics; with at most two routes for DestinationTo (C20). *)
Theorem C78_no_panic_partial :
  forall (T : Type) (N : Num T) (J : JsonLib T) (U : UtmLib T) (w : world T) l,
    zero_eq_zero N -> fresh_world w -> Forall plain l -> jumps_on_at_most_two w l -> exists w', run_calls w l = Ret w'.
Proof. intros T N J U w l Z0. exact (no_panic_proof Z0 w l). Qed.
Print Assumptions C78_no_panic_partial.

(** ** Two devices, the route r1 with two tracks, and one sensor *)
Definition sh_dev2 : device f64 :=
  match fst (NewDevice (Some ex_skip) ex_new_draws) with GOk d => d | GErr _ => device_zero end.
Definition sh_route : route f64 := match ex_r1 with Some r => r | None => NewRoute "" "" end.
Definition sh_sensors : list (sensor f64) := match ex_sensor "s1" "temp" with Some s => [s] | None => [] end.
Definition sh_world : world f64 := mkWorld [sh_route] sh_sensors [mkSDev ex_dev [] []; mkSDev sh_dev2 [] []].
Definition sh_next : scall f64 := SDevice 0 (OOther (DNext true (f64_ofZ 5) ex_draws)).

Lemma sh_fresh : fresh_world sh_world.
Proof.
  split.
  - assert (A : built (Some NewDeviceOptions) ex_new_draws ex_dev).
    { assert (H : match fst (NewDevice (Some NewDeviceOptions) ex_new_draws) with GOk _ => true | GErr _ => false end = true) by (vm_compute; reflexivity).
      unfold built, ex_dev. destruct (fst (NewDevice (Some NewDeviceOptions) ex_new_draws)); [reflexivity|discriminate]. }
    assert (B : built (Some ex_skip) ex_new_draws sh_dev2).
    { assert (H : match fst (NewDevice (Some ex_skip) ex_new_draws) with GOk _ => true | GErr _ => false end = true) by (vm_compute; reflexivity).
      unfold built, sh_dev2. destruct (fst (NewDevice (Some ex_skip) ex_new_draws)); [reflexivity|discriminate]. }
    cbn [w_devs sh_world]. constructor; [|constructor; [|constructor]]; cbn [sd_dev sd_routes sd_sensors]; repeat split; eauto.
  - cbn [w_sensors sh_world]. unfold sh_sensors, ex_sensor.
    destruct (NewSensor "temp" (f64_ofZ 10) (f64_ofZ 20) 4 0 "s1" (fun _ => f64_ofZ 0)) as [s|] eqn:E; [|constructor].
    constructor; [|constructor]. exists "temp"%string, (f64_ofZ 10), (f64_ofZ 20), 4%Z, 0%Z, "s1"%string, (fun _ => f64_ofZ 0), s, []. split; [exact E|reflexivity].
Qed.
Lemma sh_held : well_held sh_world.
Proof. cbn. unfold well_held. cbn. repeat constructor. Qed.

Definition done {A} (r : res A) : bool := match r with Ret _ => true | _ => false end.
Definition sh_end (l : list (scall f64)) (j : nat) : option (device f64) := match run_calls sh_world l with Ret w => device_at w j | _ => None end.

(** The second device moves along the shared route while the first does, and removes the route. *)
Definition sh_calls : list (scall f64) :=
  [SDevice 0 (OAddRoute [Some 0%nat]); SDevice 1 (OAddRoute [Some 0%nat; None; Some 0%nat]); SDevice 0 (OAddSensor [Some 0%nat]);
   sh_next; SDevice 1 (OOther (DDestinationTo (km 30))); SRoute 0 (RChangeName "north"); sh_next; SSensor 0 (GNext (f64_ofZ 1));
   SDevice 1 (OOther (DNext true (f64_ofZ 5) ex_draws)); SDevice 1 (OOther (DRemoveRoute "r1")); sh_next].
Example C78_example :
  well_held sh_world /\ fresh_world sh_world /\ Forall plain sh_calls /\ done (run_calls sh_world sh_calls) = true /\
  sensors_not_shared sh_world 0 sh_calls /\ sensors_not_shared sh_world 1 sh_calls /\
  others_keep_tracks 0 sh_calls /\ jumps_on_at_most_two sh_world sh_calls /\
  List.length (without_others 0 (its_sensors sh_world 0 sh_calls) sh_calls) = 7%nat /\
  List.length (answers sh_world 0 sh_calls) = 5%nat.
Proof.
  split; [exact sh_held|]. split; [exact sh_fresh|]. split; [repeat constructor|]. split; [vm_compute; reflexivity|].
  split; [|split; [|split; [|split; [|split]]]].
  - intros [|[|i]] a H K; try congruence; try (cbn in K; contradiction). unfold its_sensors, sensors_held in K. cbn in K. now destruct i.
  - intros [|[|i]] a H K; try congruence; cbn; auto.
  - apply keep_b_ok. vm_compute. reflexivity.
  - apply jumps_b_ok. vm_compute. reflexivity.
  - vm_compute. reflexivity.
  - vm_compute. reflexivity.
Qed.

(** C78 is false of RemoveTrack: the first device removes a track from the shared route, and the second one can no longer
    be moved to it. *)
Definition sh_remove : list (scall f64) :=
  [SDevice 0 (OAddRoute [Some 0%nat]); SDevice 1 (OAddRoute [Some 0%nat]);
   SDevice 0 (OOther (DRemoveTrack "r1" "t12")); SDevice 1 (OOther (DMoveToTrackByID "r1" "t12"))].
Theorem C78_remove_track_refuted :
  exists (w : world f64) l w' v', fresh_world w /\ Forall plain l /\ sensors_not_shared w 1 l /\
    let l' := without_others 1 (its_sensors w 1 l) l in
    run_calls w l = Ret w' /\ run_calls w l' = Ret v' /\
    answers w 1 l = [Ret (Err None); Ret (Bool false)] /\ answers w 1 l' = [Ret (Err None); Ret (Bool true)].
Proof.
  assert (A : done (run_calls sh_world sh_remove) = true) by (vm_compute; reflexivity).
  assert (B : done (run_calls sh_world (without_others 1 (its_sensors sh_world 1 sh_remove) sh_remove)) = true) by (vm_compute; reflexivity).
  destruct (run_calls sh_world sh_remove) as [w'| |] eqn:Ew; try discriminate A.
  destruct (run_calls sh_world (without_others _ _ _)) as [v'| |] eqn:Ev; try discriminate B.
  exists sh_world, sh_remove, w', v'. split; [exact sh_fresh|]. split; [repeat constructor|]. split.
  - intros [|[|i]] a H K; try congruence; unfold its_sensors, sensors_held; cbn; auto.
  - cbv zeta. split; [exact Ew|]. split; [exact Ev|]. clear. split; vm_compute; reflexivity.
Qed.
Print Assumptions C78_remove_track_refuted.

(** C78 is false of shared sensors: a step of the first device changes what the second one reports of the sensor. *)
Definition sh_step : list (scall f64) :=
  [SDevice 0 (OAddRoute [Some 0%nat]); SDevice 0 (OAddSensor [Some 0%nat]); SDevice 1 (OAddSensor [Some 0%nat]);
   sh_next; SDevice 1 (OOther DUpdate)].
Definition sh_values (d : device f64) : list Z := map (fun s => ftrunc (pdn_val_y s)) (pde_sensors (d_state d)).
Theorem C78_sensor_refuted :
  exists (w : world f64) l w' v' e e', fresh_world w /\ Forall plain l /\ others_keep_tracks 1 l /\
    run_calls w l = Ret w' /\ run_calls w (without_others 1 (its_sensors w 1 l) l) = Ret v' /\
    device_at w' 1 = Some e /\ device_at v' 1 = Some e' /\ pde_sensors (d_state e) <> pde_sensors (d_state e').
Proof.
  assert (A : match run_calls sh_world sh_step with Ret w => match device_at w 1 with Some d => sh_values d | None => [] end | _ => [] end = [10%Z]) by (vm_compute; reflexivity).
  assert (B : match run_calls sh_world (without_others 1 (its_sensors sh_world 1 sh_step) sh_step) with Ret w => match device_at w 1 with Some d => sh_values d | None => [] end | _ => [] end = [0%Z]) by (vm_compute; reflexivity).
  destruct (run_calls sh_world sh_step) as [w'| |] eqn:Ew; try discriminate A.
  destruct (run_calls sh_world (without_others _ _ _)) as [v'| |] eqn:Ev; try discriminate B.
  destruct (device_at w' 1) as [e|] eqn:De; [|discriminate A]. destruct (device_at v' 1) as [e'|] eqn:De'; [|discriminate B].
  exists sh_world, sh_step, w', v', e, e'. split; [exact sh_fresh|]. split; [repeat constructor|]. split.
  { apply keep_b_ok. vm_compute. reflexivity. }
  split; [exact Ew|]. split; [exact Ev|]. split; [exact De|]. split; [exact De'|].
  intros K. unfold sh_values in A, B. rewrite K, B in A. discriminate A.
Qed.
Print Assumptions C78_sensor_refuted.
