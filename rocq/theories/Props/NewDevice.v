(** C79: options. *)
From Coq Require Import Lia.
From Verif.Model Require Import Base Num NumF64 Geo Curve PropMap Types Pb TypesSnap Track Route Navigator Device Generator.
From Verif.Spec Require Import DeviceSpec NewDeviceSpec Examples DeviceExamples.
From Verif.Proofs Require Import NewDeviceProofs GenProofs.
Open Scope num_scope.

(** C79. NewDevice makes a device exactly of the options that keep to the limits (NaN is within all of them: C61). *)
Theorem C79_accepts : forall (m : MathLib) (N := F64Num m) (opts : option (deviceOptions f64)) (x : newDraws f64),
  (exists d, built opts x d) <-> acceptable m (options_of opts) x.
Proof. exact accepts_proof. Qed.
Print Assumptions C79_accepts.

(** C79. The device is what the options ask for, as its snapshot shows. *)
Theorem C79_as_asked : forall (m : MathLib) (N := F64Num m) (J : JsonLib f64) (opts : option (deviceOptions f64)) (x : newDraws f64) d,
  built opts x d -> exists s, device_Snapshot d = Ret s /\ as_asked m (options_of opts) x s.
Proof. exact as_asked_proof. Qed.
Print Assumptions C79_as_asked.

(** C79. NewTracker and the like, which ignore the error, always return a device. *)
Theorem C79_presets : forall (m : MathLib) (N := F64Num m) (o : deviceOptions f64) (x : newDraws f64),
  In o (presets m) -> exists d, built (Some o) x d.
Proof. exact presets_proof. Qed.
Print Assumptions C79_presets.

(** C79. NewDevice keeps all options but an empty ID (full claim: it keeps the options). *)
Theorem C79_options_partial : forall (m : MathLib) (N := F64Num m) (o : deviceOptions f64) (x : newDraws f64),
  snd (NewDevice (Some o) x) = o \/ snd (NewDevice (Some o) x) = with_id o (given_or (do_id o) (nd_id x)).
Proof. exact options_proof. Qed.
Print Assumptions C79_options_partial.

(** C79 is false of options used again: all devices made of the same options have the same ID, although none was asked for
    and a new one is drawn each time. *)
Theorem C79_reuse_refuted : forall (m : MathLib) (N := F64Num m) (o : deviceOptions f64) (x1 x2 : newDraws f64) d1 d2,
  nd_id x1 <> ""%string -> built (Some o) x1 d1 -> built (Some (snd (NewDevice (Some o) x1))) x2 d2 ->
  pde_id (d_state d1) = pde_id (d_state d2).
Proof. exact reuse_proof. Qed.
Print Assumptions C79_reuse_refuted.

(** C79. A generator takes any options: it has a ticker, a packet and workers (on a machine with a CPU), and options in
    range are taken over, so that they can be used again. *)
Theorem C79_generator : forall cpus o, (1 <= cpus)%Z -> let q := prepare cpus o in
  (0 < go_Interval q /\ 1024 <= go_PacketSize q /\ 1 <= go_NumWorkers q)%Z /\
  ((0 < go_Interval o)%Z -> go_Interval q = go_Interval o) /\ ((1024 <= go_PacketSize o)%Z -> go_PacketSize q = go_PacketSize o) /\
  ((1 <= go_NumWorkers o)%Z -> go_NumWorkers q = go_NumWorkers o) /\ prepare cpus q = q.
Proof.
  intros cpus o H. pose proof (prepare_ok cpus o H) as (A & B & C). pose proof (prepare_keeps cpus o) as (D & E & F). cbv zeta in *.
  split; [repeat split; lia|]. split; [exact E|]. split; [exact D|]. split; [intros K; apply F; lia|].
  set (q := prepare cpus o) in *. clearbody q. destruct q as [i p w]. cbn [go_PacketSize go_Interval go_NumWorkers] in A, B, C. unfold prepare. cbn [go_PacketSize go_Interval go_NumWorkers].
  rewrite (proj2 (Z.ltb_ge p 1024) A). cbn [go_PacketSize go_Interval go_NumWorkers].
  rewrite (proj2 (Z.leb_gt i 0)) by lia. cbn [go_PacketSize go_Interval go_NumWorkers]. rewrite (proj2 (Z.leb_gt w 0)) by lia. reflexivity.
Qed.
Print Assumptions C79_generator.

(** C79 is false of the documented defaults of generator options, three seconds, 8192 and 4: options left at zero get none
    of them, but for the number of workers on a machine with four CPUs. Only no options at all do. *)
Theorem C79_defaults_refuted : forall cpus, (1 <= cpus)%Z ->
  let q := prepare cpus (mkGenOpts 0 0 0) in
  (go_Interval q <> 3 * 1000000000 /\ go_PacketSize q <> 8192 /\ (go_NumWorkers q = 4 <-> cpus = 4))%Z /\
  New cpus None = New cpus (Some (mkGenOpts (3 * 1000000000) 8192 4)).
Proof.
  intros cpus H q. split; [|reflexivity]. split; [discriminate|]. split; [discriminate|]. split; intros E; exact E.
Qed.
Print Assumptions C79_defaults_refuted.

(** Options without an ID, a device with a color; used twice. *)
Definition nd_options : deviceOptions f64 :=
  mkDevOpts "" "Truck" "#ff0000" "ann" "red" false 3 30 (f64_ofZ 5) (f64_ofZ 5) 4 0 (f64_ofZ 10) (f64_ofZ 90) 60000000000
    (f64_ofZ 20) (f64_ofZ 0) 512.
Definition nd_first : newDraws f64 := mkNewDraws "e1" (fun _ => f64_ofZ 0) (fun _ => f64_ofZ 0) "id-1" "" "" (Some "#ff0000"%string).
Definition nd_second : newDraws f64 := mkNewDraws "e2" (fun _ => f64_ofZ 0) (fun _ => f64_ofZ 0) "id-2" "" "" (Some "#ff0000"%string).
Example C79_example : acceptable idMath nd_options nd_first /\
  exists d1 d2, built (Some nd_options) nd_first d1 /\ built (Some (snd (NewDevice (Some nd_options) nd_first))) nd_second d2 /\
    pde_id (d_state d1) = "id-1"%string /\ pde_id (d_state d2) = "id-1"%string.
Proof.
  assert (A : acceptable idMath nd_options nd_first).
  { constructor; try solve [vm_compute; repeat split; discriminate | split; vm_compute; reflexivity | left; vm_compute; reflexivity | right; vm_compute; repeat split; discriminate]. }
  split; [exact A|].
  destruct (proj2 (C79_accepts idMath (Some nd_options) nd_first) A) as [d1 H1].
  assert (B : acceptable idMath (options_of (Some (snd (NewDevice (Some nd_options) nd_first)))) nd_second).
  { cbn [options_of]. assert (Q : snd (NewDevice (Some nd_options) nd_first) = with_id nd_options "id-1") by exact (options_built idMath _ _ _ H1). rewrite Q.
    constructor; try solve [vm_compute; repeat split; discriminate | split; vm_compute; reflexivity | left; vm_compute; reflexivity | right; vm_compute; repeat split; discriminate]. }
  destruct (proj2 (C79_accepts idMath (Some (snd (NewDevice (Some nd_options) nd_first))) nd_second) B) as [d2 H2].
  exists d1, d2. split; [exact H1|]. split; [exact H2|].
  pose proof (built_id idMath _ _ _ H1) as I1. pose proof (C79_reuse_refuted idMath nd_options nd_first nd_second d1 d2 ltac:(discriminate) H1 H2) as I2.
  rewrite I1 in *. split; [reflexivity|]. rewrite <- I2. reflexivity.
Qed.
