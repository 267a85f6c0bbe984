(** C49-C51: slices, packets, attached devices. *)
From Coq Require Import Lia Permutation.
From Verif.Model Require Import Base Num NumF64 Geo Curve PropMap Pb Types TypesSnap Track Route Navigator Device Generator.
From Verif.Spec Require Import DeviceSpec GenSpec Examples DeviceExamples.
From Verif.Proofs Require Import GenProofs.

(** Every generator New makes has a worker, room for 1024 devices, and the worker size of its options. *)
Theorem C49_New : forall cpus opts, (1 <= cpus)%Z ->
  let c := New cpus opts in
  conf_ok c /\ (Z.to_nat 1024 <= c_packet c)%nat /\ c_workerSize c = (c_packet c / c_workers c)%nat.
Proof.
  intros cpus opts H. split; [now apply New_ok|]. split; [now apply New_packet|now apply New_workerSize].
Qed.
Print Assumptions C49_New.

(** C49. The slices of a flush cut the filled entries into consecutive pieces; each filled entry is in
    exactly one, no other entry in any; there are at most as many as workers, and none is empty unless
    nothing is filled. *)
Theorem C49_slices : forall c index, conf_ok c ->
  let l := flush_slices c index in
  tiles 0 l index /\
  (forall e, covered e l = if (e <? index)%nat then 1%nat else 0%nat) /\
  (List.length l <= c_workers c)%nat /\
  ((1 <= index)%nat -> Forall (fun s => fst s < snd s)%nat l).
Proof.
  intros c index (H & _). split; [now apply C49_tiles|]. split.
  - intros e. exact (tiles_covered e _ _ _ (C49_tiles c index H)).
  - split; [now apply C49_number|now apply C49_nonempty].
Qed.
Print Assumptions C49_slices.

Example C49_example : conf_ok (mkConf 3 20 6) /\ flush_slices (mkConf 3 20 6) 11 = [(0, 3); (3, 6); (6, 11)]%nat /\
  flush_slices (mkConf 3 20 6) 9 = [(0, 9)]%nat.
Proof. split; [split; cbn; lia|]. vm_compute. auto. Qed.

(** C50, for fewer devices than the packet size: the packets of a tick, one after the other, list every
    attached device once, in attachment order. Missing from the full property: other numbers of devices,
    for which it is false. *)
Theorem C50_reported_partial : forall (A : Type) c (devs : list A), conf_ok c -> (List.length devs < c_packet c)%nat ->
  List.concat (tick_packets c devs) = devs.
Proof. exact @C50_few. Qed.
Print Assumptions C50_reported_partial.

(** For every number of devices: they come in attachment order, and what is missing is every device at a
    position (from 1) that is a multiple of the packet size. *)
Theorem C50_all_sizes_partial : forall (A : Type) c (devs : list A), conf_ok c ->
  List.concat (tick_packets c devs) = at_positions (fun i => negb (S i mod c_packet c =? 0)%nat) 0 devs.
Proof. exact @tick_concat. Qed.
Print Assumptions C50_all_sizes_partial.

Theorem C50_lost_devices : forall (A : Type) c (devs : list A) i d, conf_ok c -> NoDup devs -> nth_error devs i = Some d ->
  (In d (List.concat (tick_packets c devs)) <-> (S i mod c_packet c)%nat <> 0%nat).
Proof. exact @C50_lost. Qed.
Print Assumptions C50_lost_devices.

(** The full property is false of every generator with at least as many devices as its packet size. *)
Theorem C50_refuted : forall (A : Type) c (devs : list A), conf_ok c -> NoDup devs -> (c_packet c <= List.length devs)%nat ->
  exists d, In d devs /\ ~ In d (List.concat (tick_packets c devs)).
Proof. exact @C50_refuted_proof. Qed.
Print Assumptions C50_refuted.

Example C50_example : conf_ok (mkConf 2 4 2) /\
  tick_packets (mkConf 2 4 2) [10; 20; 30]%nat = [[10; 20; 30]]%nat /\
  tick_packets (mkConf 2 4 2) [10; 20; 30; 40; 50]%nat = [[10; 20; 30]; [50]]%nat /\
  tick_packets (mkConf 2 9 1) [1; 2; 3; 4; 5; 6; 7]%nat = [[1; 2; 3]; [4; 5; 6; 7]]%nat.
Proof. split; [split; cbn; lia|]. vm_compute. auto. Qed.

(** C51. In every world, after any history of calls on any number of generators and devices: no device is
    twice in the lists, the running devices are the attached ones, and each is in one generator. *)
Theorem C51_membership :
  forall (T : Type) (N : Num T) (J : JsonLib T) (U : UtmLib T) (w : world T), made_world w ->
    NoDup (List.concat (w_gens w)) /\ (forall p, is_running w p <-> exists g, attached w g p) /\
    (forall g h p, attached w g p -> attached w h p -> g = h).
Proof.
  intros T N J U w H. destruct (C51_membership_proof w H) as (A & B). split; [exact A|]. split; [exact B|].
  intros g h p. now apply C51_one_proof.
Qed.
Print Assumptions C51_membership.

(** Attach: a running device is refused and nothing changes; otherwise the device runs and is last in
    the list, and no other device or list changes. *)
Theorem C51_attach :
  forall (T : Type) (w : world T) g p, (g < List.length (w_gens w))%nat ->
    (is_running w p -> Attach w g (Some p) = (Some ErrAlreadyRunning, w)) /\
    (~ is_running w p -> exists w', Attach w g (Some p) = (None, w') /\
       w_heap w' p = dset_status (w_heap w p) Running /\ same_status_except w w' p /\
       gen_devices w' g = gen_devices w g ++ [p] /\ same_gens_except w w' g).
Proof. intros T w g p Hg. split; [apply Attach_fails|now apply Attach_works]. Qed.
Print Assumptions C51_attach.

(** Detach: the first device with the ID stops and leaves the list; without such a device, or for the
    empty ID, nothing changes. *)
Theorem C51_detach :
  forall (T : Type) (w : world T) g id, (g < List.length (w_gens w))%nat ->
    (id = ""%string \/ Forall (fun q => id_of w q <> id) (gen_devices w g) -> Detach w g id = (None, w)) /\
    (forall pre p post, id <> ""%string -> gen_devices w g = pre ++ p :: post -> id_of w p = id ->
       Forall (fun q => id_of w q <> id) pre -> is_running w p ->
       exists w', Detach w g id = (None, w') /\ w_heap w' p = dset_status (w_heap w p) Stopped /\
         same_status_except w w' p /\ gen_devices w' g = pre ++ post /\ same_gens_except w w' g).
Proof. intros T w g id Hg. split; [apply Detach_none|]. intros pre p post. now apply Detach_first. Qed.
Print Assumptions C51_detach.

(** Lookup, HasTracker, NumDevices and Each read the list. *)
Theorem C51_queries :
  forall (T : Type) (w : world T) g,
    (forall id, HasTracker w g id = true <-> exists p, attached w g p /\ id_of w p = id) /\
    (forall id p, GenLookup w g id = Some p <-> id <> ""%string /\
       exists pre post, gen_devices w g = pre ++ p :: post /\ id_of w p = id /\ Forall (fun q => id_of w q <> id) pre) /\
    NumDevices w g = Z.of_nat (List.length (gen_devices w g)) /\
    Each w g (fun _ _ => true) = combine (seq 0 (List.length (gen_devices w g))) (gen_devices w g).
Proof.
  intros T w g. split; [intros id; apply HasTracker_spec|]. split; [intros id p; apply Lookup_spec|].
  split; [reflexivity|apply each_all].
Qed.
Print Assumptions C51_queries.

(** Each stops at the first device its callback refuses. *)
Theorem C51_each_stops :
  forall (T : Type) (w : world T) g (more : nat -> nat -> bool), exists rest,
    combine (seq 0 (List.length (gen_devices w g))) (gen_devices w g) = Each w g more ++ rest /\
    (forall x, In x (removelast (Each w g more)) -> more (fst x) (snd x) = true) /\
    (rest <> [] -> exists x, In x (Each w g more) /\ more (fst x) (snd x) = false).
Proof. intros T w g more. apply each_stop. Qed.
Print Assumptions C51_each_stops.

(** The history must not restore a device in place: restoring an attached device from a snapshot marks
    it stopped, and it can be attached a second time, to another generator or to the same one. *)
Theorem C51_restored_refuted :
  forall (T : Type) (N : Num T) (J : JsonLib T) (U : UtmLib T) (w : world T) g h p d0 s d,
    (h < List.length (w_gens w))%nat -> attached w g p ->
    device_Snapshot d0 = Ret s -> device_FromSnapshot (w_heap w p) s = Ret d ->
    exists w', Attach (set_heap w p d) h (Some p) = (None, w') /\ attached w' h p /\
      (g <> h -> attached w' g p) /\
      (g = h -> exists pre mid post, gen_devices w' g = pre ++ p :: mid ++ p :: post).
Proof. exact @C51_restored_proof. Qed.
Print Assumptions C51_restored_refuted.

(** two generators, three devices: one attached to each, one detached again *)
Definition ex_w0 : world f64 := mkWorld (fun _ => ex_dev) [[]; []].
Definition ex_w : world f64 := fold_left (@run_world _ _ _ _)
  [OpAttach 0 (Some 5%nat); OpAttach 1 (Some 6%nat); OpAttach 0 (Some 6%nat); OpAttach 1 (Some 7%nat);
   OpDetach 1 "device-1"%string; OpCall 5%nat (DAddRoute [ex_r1])] ex_w0.
Example C51_example : made_world ex_w /\ w_gens ex_w = [[5]; [7]]%nat /\ id_of ex_w 7%nat = "device-1"%string.
Proof.
  split; [|vm_compute; auto]. unfold ex_w. cbn [fold_left].
  repeat (apply mw_op; [|vm_compute; auto]).
  exact (mw_start (fun _ => ex_dev) 2 (fun _ => ltac:(vm_compute; discriminate))).
Qed.
