(** C74: Attach and Detach during a tick. *)
From Coq Require Import Lia Permutation.
From Verif.Model Require Import Base Generator GenConc.
From Verif.Spec Require Import GenSpec GenConcSpec.
From Verif.Proofs Require Import GenProofs GenConcProofs GenDevs.

(** Whatever is attached and detached during a tick, its packets are, each once, those of the devices read a packet at
    a time from lists the generator had during the tick, in that order. Missing from the full property: that the
    devices are those of one of the lists; where devices are detached this is false. *)
Theorem C74_tick_partial :
  forall (D : Type) c on, conf_ok c -> forall (s : state D) vs s',
    reachable c on s -> s_closed s = false -> s_run s = RChk -> visits c on s vs s' -> s_run s' = RSelect ->
    exists Ls cs, subsequence Ls vs /\ reads (c_packet c) 0 Ls cs /\
      Permutation (s_out s') (s_out s ++ tick_packets c (map Some cs)).
Proof. exact @C74_tick_proof. Qed.
Print Assumptions C74_tick_partial.

(** If devices are only attached, the packets are those of one list the generator had during the tick. *)
Theorem C74_attach_partial :
  forall (D : Type) c on, conf_ok c -> forall (s : state D) vs s',
    reachable c on s -> s_closed s = false -> s_run s = RChk -> visits c on s vs s' -> s_run s' = RSelect ->
    only_attached vs ->
    exists L, In L vs /\ Permutation (s_out s') (s_out s ++ tick_packets c (map Some L)).
Proof. exact @C74_attach_proof. Qed.
Print Assumptions C74_attach_partial.

(** So they are if there are never as many devices as a packet has room for, whatever is attached and detached. *)
Theorem C74_few_devices_partial :
  forall (D : Type) c on, conf_ok c -> forall (s : state D) vs s',
    reachable c on s -> s_closed s = false -> s_run s = RChk -> visits c on s vs s' -> s_run s' = RSelect ->
    (forall l, In l vs -> (List.length l < c_packet c)%nat) ->
    exists L, In L vs /\ Permutation (s_out s') (s_out s ++ tick_packets c (map Some L)).
Proof. exact @C74_few_proof. Qed.
Print Assumptions C74_few_devices_partial.

(** The full property is false of every generator New makes: with three devices more than a packet has room for,
    two calls of Detach during a tick can make the tick skip a device that is attached throughout and that
    would be reported both with the devices at the start of the tick and with those at its end. *)
Theorem C74_refuted :
  forall (D : Type) cpus opts on, (1 <= cpus)%Z -> let c := New cpus opts in
    forall devs : list D, NoDup devs -> List.length devs = (c_packet c + 3)%nat ->
      exists s vs s' d, reachable c on s /\ s_closed s = false /\ s_run s = RChk /\ s_devs s = devs /\ s_out s = [] /\
        visits c on s vs s' /\ s_run s' = RSelect /\ s_devs s' = skipn 2 devs /\
        (forall l, In l vs -> In d l) /\
        In (Some d) (List.concat (tick_packets c (map Some devs))) /\
        In (Some d) (List.concat (tick_packets c (map Some (skipn 2 devs)))) /\
        ~ In (Some d) (List.concat (s_out s')).
Proof.
  intros D cpus opts on H c devs ND L. apply (C74_refuted_proof c on (New_ok cpus opts H) devs); auto.
  now apply New_packet_4.
Qed.
Print Assumptions C74_refuted.

(** ** A run: packets of 4, three devices, a fourth is attached in the middle of the flush *)
Definition ex_c : genConf := mkConf 2 4 2.
Definition ex_ticked : state nat := at_run (start ex_c [10; 20; 30]%nat) RChk.
Ltac vi_run := eapply vi_step; [left; reflexivity|apply st_run; cbn; first [econstructor; reflexivity | econstructor; cbn; lia]|]; cbn.
Ltac vi_work i := eapply vi_step; [left; reflexivity|eapply (st_work _ _ i); [reflexivity|first [econstructor; reflexivity | econstructor; cbn; lia]]|]; cbn.

Example C74_example :
  conf_ok ex_c /\ reachable ex_c true ex_ticked /\ s_closed ex_ticked = false /\ s_run ex_ticked = RChk /\
  exists vs s', visits ex_c true ex_ticked vs s' /\ s_run s' = RSelect /\ only_attached vs /\
    In [10; 20; 30]%nat vs /\ In [10; 20; 30; 40]%nat vs /\ s_out s' = [[Some 10; Some 20; Some 30]]%nat.
Proof.
  split; [split; cbn; lia|]. split; [exists [10; 20; 30]%nat, [LClock]; econstructor; [apply st_clock; reflexivity|constructor]|].
  split; [reflexivity|]. split; [reflexivity|]. do 2 eexists. split.
  { unfold ex_ticked, start. cbn. do 7 vi_run.
    eapply vi_step; [right; reflexivity|apply (st_devs _ _ _ [10; 20; 30; 40]%nat); reflexivity|]. cbn.
    vi_run. do 6 vi_work 0%nat. do 3 vi_run. apply vi_here. }
  cbn. split; [reflexivity|]. split.
  { assert (G : forall (l : list nat) ls, only_attached (l :: ls) -> only_attached (l :: l :: ls)).
    { intros l ls H. pose proof (oa_more l [] ls) as G. rewrite app_nil_r in G. auto. }
    repeat first [apply oa_one|apply G|apply (oa_more [10; 20; 30]%nat [40]%nat)]. }
  split; [now left|]. split; [|reflexivity]. do 8 right. now left.
Qed.

(** and one with three devices, two of them detached: C74_few_devices_partial *)
Example C74_few_example :
  exists (s : state nat) vs s', reachable ex_c true s /\ s_closed s = false /\ s_run s = RChk /\ visits ex_c true s vs s' /\
    s_run s' = RSelect /\ (forall l, In l vs -> (List.length l < 4)%nat) /\ In [10; 20; 30]%nat vs /\ In [30]%nat vs /\
    s_out s' = [[Some 10; Some 20; Some 30]]%nat.
Proof.
  exists ex_ticked. do 2 eexists. split; [exists [10; 20; 30]%nat, [LClock]; econstructor; [apply st_clock; reflexivity|constructor]|].
  split; [reflexivity|]. split; [reflexivity|]. split.
  { unfold ex_ticked, start. cbn. do 7 vi_run.
    eapply vi_step; [right; reflexivity|apply (st_devs _ _ _ [30]%nat); reflexivity|]. cbn.
    vi_run. do 6 vi_work 0%nat. do 3 vi_run. apply vi_here. }
  cbn. split; [reflexivity|]. split; [intros l Hl; repeat (destruct Hl as [<-|Hl]; [cbn; lia|]); destruct Hl|].
  split; [now left|]. split; [|reflexivity]. do 8 right. now left.
Qed.
