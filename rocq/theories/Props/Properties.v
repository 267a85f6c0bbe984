(** C82, C83: properties of routes and tracks: in the published state, and as handles. *)
From Verif.Model Require Import Base Num NumF64 Geo Curve PropMap Types Pb TypesSnap Track Route Navigator Device PropHeap.
From Verif.Spec Require Import ListSpec TrackSpec RouteSpec NavSpec NumLaws RealSpec TypesSpec DeviceSpec Examples DeviceExamples PropPubSpec PropHeapSpec.
From Verif.Proofs Require Import PropPub PropHeapProofs.
Open Scope num_scope.

(** C82. Update, and any change of the list of routes, publishes the properties of all routes and tracks. *)
Theorem C82_refresh :
  forall (T : Type) (N : Num T) (J : JsonLib T) (U : UtmLib T) (d d' : device T),
    device_Update d = Ret d' \/ (exists rs, AddRoute d rs = Ret (None, d')) \/ (exists id, RemoveRoute d id = Ret (true, d')) \/
    (exists rid tid, RemoveTrack d rid tid = Ret (true, d')) \/ ResetRoutes d = Ret (true, d') ->
    props_published d'.
Proof. exact @C82_refresh_proof. Qed.
Print Assumptions C82_refresh.

(** Once published they stay so at every successful step, whatever else is done, until a property is written. *)
Theorem C82_step_partial :
  forall (T : Type) (N : Num T) (J : JsonLib T) (U : UtmLib T) opts x (d0 : device T) ops1 d1 ops2 d tick y d',
    built opts x d0 -> run_devs d0 ops1 = Ret d1 -> props_published d1 ->
    Forall no_props_op ops2 -> run_devs d1 ops2 = Ret d -> Next d true tick y = Ret (true, d') -> props_published d'.
Proof. exact @C82_step_proof. Qed.
Print Assumptions C82_step_partial.

(** A property written after AddRoute is in the route, but no number of steps, moves and other calls that leave
    the list of routes alone publishes it: the published list stays what AddRoute made it. *)
Theorem C82_stale_refuted :
  forall (T : Type) (N : Num T) (J : JsonLib T) (U : UtmLib T) opts x (d0 : device T) ops0 d1 rs e d2 i r p ops d,
    built opts x d0 -> run_devs d0 ops0 = Ret d1 -> AddRoute d1 rs = Ret (e, d2) -> e = None ->
    nth_error (n_routes (d_nav d2)) i = Some r -> Forall driving ops ->
    run_devs d2 (DRouteOp i (RSetProps p) :: ops) = Ret d ->
    pde_routes (d_state d) = pde_routes (d_state d2) /\
    (exists r', nth_error (n_routes (d_nav d)) i = Some r' /\ rt_props r' = Some p) /\
    (props_published d <-> shown_props (Some p) = shown_props (rt_props r)).
Proof. exact @C82_stale_proof. Qed.
Print Assumptions C82_stale_refuted.

Definition C82_p : props f64 := props_Set props_Make "a" (GInt 1).
Definition C82_count (d : device f64) := option_map (fun l => map (fun r => pdr_props_count r) (pds_routes l)) (pde_routes (d_state d)).

(** The property is written, two steps are made: still no property is published; Update publishes it. *)
Example C82_stale_example :
  let d1 := ran (run_devs ex_dev [DAddRoute [ex_r1]]) in
  let d2 := ran (run_devs d1 [DRouteOp 0 (RSetProps C82_p); DNext true (f64_ofZ 5) ex_draws; DNext true (f64_ofZ 5) ex_draws]) in
  let d3 := ran (device_Update d2) in
  is_true_step (Next d2 true (f64_ofZ 5) ex_draws) = true /\
  C82_count d1 = Some [0%Z] /\ C82_count d2 = Some [0%Z] /\ C82_count d3 = Some [1%Z] /\
  C82_count (after (Next d3 true (f64_ofZ 5) ex_draws)) = Some [1%Z] /\
  map (fun r => option_map props_len (rt_props r)) (n_routes (d_nav d2)) = [Some 1%Z].
Proof. vm_compute. repeat split. Qed.

(** C83. What Props() returns stands for the properties of the route or track, as long as the variable is not
    assigned or reset and the route or track not restored: both show the same entries, writing through
    the variable does not panic, and what is written is written to the route or track. *)
Theorem C83_handle_partial :
  forall (T : Type) (s : pheap T) (v o : nat) ops s1,
    heap_reachable s -> run_pops s (HProps v o :: ops) = Ret s1 -> Forall (fun op => ~ assigns v op /\ ~ replaces o op) ops ->
    seen s1 v = owned s1 o /\
    forall op, writes_through v op -> exists s2, run_pop s1 op = Ret s2 /\
      owned s2 o = written (owned s1 o) (merged_from s1 op) op /\ seen s2 v = owned s2 o.
Proof. exact @C83_handle_proof. Qed.
Print Assumptions C83_handle_partial.

(** Without RestoreRoute, routes and tracks do not share properties: writing through what one of them returned
    changes no other. *)
Theorem C83_separate_partial :
  forall (T : Type) (ops0 : list (pop T)) s (v o : nat) ops s1 o' op s2,
    Forall (fun op => ~ restores op) ops0 -> run_pops pheap_init ops0 = Ret s ->
    run_pops s (HProps v o :: ops) = Ret s1 -> Forall (fun op => ~ assigns v op /\ ~ restores op) ops -> o' <> o ->
    writes_through v op -> run_pop s1 op = Ret s2 -> owned s2 o' = owned s1 o'.
Proof. exact @C83_separate_proof. Qed.
Print Assumptions C83_separate_partial.

(** Only assigning to an entry of a nil map panics: Set always, Merge if there is something to merge. *)
Theorem C83_panic : forall (T : Type) (s : pheap T) (op : pop T),
  (run_pop s op = Panic <-> nil_write s op) /\ run_pop s op <> NoFuel.
Proof. exact @C83_panic_proof. Qed.
Print Assumptions C83_panic.

(** Reset through a handle leaves the properties of the route as they are. *)
Theorem C83_reset_refuted : forall (T : Type) (s : pheap T) (v o : nat) s',
  heap_reachable s -> run_pops s [HProps v o; HReset v] = Ret s' -> owned s' o = owned s o /\ seen s' v = props_Make.
Proof. exact @C83_reset_proof. Qed.
Print Assumptions C83_reset_refuted.

(** Two routes made by RestoreRoute with the same map share it. *)
Theorem C83_restore_refuted : forall (T : Type) (s : pheap T) (v o o' w : nat) k x s',
  heap_reachable s -> ph_var s v <> None -> run_pops s [HRestore o v; HRestore o' v; HProps w o; HSet w k x] = Ret s' ->
  props_lookup (owned s' o') k = Some x.
Proof. exact @C83_restore_proof. Qed.
Print Assumptions C83_restore_refuted.

(** After RouteFromSnapshot or TrackFromSnapshot what was written through an older handle is not in the route. *)
Theorem C83_snapshot_refuted : forall (T : Type) (s : pheap T) (v o : nat) p k x s',
  heap_reachable s -> run_pops s [HProps v o; HFromSnapshot o p; HSet v k x] = Ret s' ->
  owned s' o = match p with Some m => m | None => props_Make end /\ props_lookup (seen s' v) k = Some x.
Proof. exact @C83_snapshot_proof. Qed.
Print Assumptions C83_snapshot_refuted.

(** A route 1 and a track 2: entries set through handles, merged, removed; one handle copied. *)
Definition C83_ops : list (pop f64) :=
  [HProps 0 1; HProps 3 2; HSet 0 "a" (GInt 1); HSet 3 "b" (GInt 2); HAssign 4 0; HSet 4 "c" (GInt 3); HMerge 3 0; HRemove 4 "a"].
Definition C83_state : pheap f64 := match run_pops pheap_init C83_ops with Ret s => s | _ => pheap_init end.
Example C83_example :
  let has o k := props_Int (owned C83_state o) k in
  heap_reachable C83_state /\ Forall (fun op => ~ assigns 0 op /\ ~ replaces 1 op /\ ~ restores op) (tl C83_ops) /\
  has 1%nat "a"%string = (0, false)%Z /\ has 1%nat "c"%string = (3, true)%Z /\ has 1%nat "b"%string = (0, false)%Z /\
  has 2%nat "a"%string = (1, true)%Z /\ has 2%nat "b"%string = (2, true)%Z /\ has 2%nat "c"%string = (3, true)%Z /\
  ph_var C83_state 0 <> None /\ nil_write C83_state (HSet 7 "a"%string GNil).
Proof.
  cbn zeta. split; [exists C83_ops; vm_compute; reflexivity|].
  split; [repeat constructor; cbn; intuition discriminate|].
  vm_compute. repeat split; discriminate.
Qed.
