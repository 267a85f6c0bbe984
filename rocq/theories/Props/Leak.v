(** C88: no goroutine of a closed generator is left behind. *)
From Coq Require Import Lia.
From Verif.Model Require Import Base Generator GenConc GenAgain.
From Verif.Spec Require Import GenSpec GenConcSpec LeakSpec.
From Verif.Proofs Require Import GenProofs GenLeak GenAgainProofs GenSilence.
From Verif.Props Require GenConc.

(** Until Close is called none of them returns: the run loop, the OnNext loop and every worker are there. *)
Theorem C88_until_close :
  forall (D : Type) c on, conf_ok c -> forall s : state D,
    reachable c on s -> s_closed s = false -> goroutines s = (c_workers c + 2)%nat.
Proof. exact @open_all_proof. Qed.
Print Assumptions C88_until_close.

(** Close while the generator waits for its clock: in every schedule Run returns and none is left. *)
Theorem C88_between_ticks_partial :
  forall (D : Type) c on, conf_ok c -> forall (s : state D) n,
    reachable c on s -> s_closed s = false -> s_run s = RSelect ->
    inevitable c on (fun s' => run_returned s' /\ goroutines s' = 0%nat) n (set_closed s).
Proof. exact @idle_left_proof. Qed.
Print Assumptions C88_between_ticks_partial.

(** Close at any moment, with no more devices than one flush sends as one slice: in every schedule Run returns and
    at most one is left. Missing from the full property: that it is none, which is false. *)
Theorem C88_few_devices_partial :
  forall (D : Type) c on, conf_ok c -> forall n (s : state D) m,
    one_flush c n -> reachable_upto c on n s -> s_closed s = true ->
    inevitable c on (fun s' => run_returned s' /\ (goroutines s' <= 1)%nat) m s.
Proof. exact @few_left_proof. Qed.
Print Assumptions C88_few_devices_partial.

(** Close at any moment, with any devices: in every schedule the OnNext loop returns and the goroutines that have not
    returned by some moment never do. Missing from the full property: that there are none, which is false. *)
Theorem C88_settles_partial :
  forall (D : Type) c on (s : state D) n,
    reachable c on s -> s_closed s = true ->
    inevitable c on (fun s1 => s_next s1 = NGone /\ forall ls s2, steps c on ls s1 s2 -> goroutines s2 = goroutines s1) n s.
Proof. exact @settles_proof. Qed.
Print Assumptions C88_settles_partial.

(** The full property is false of every generator New makes, with as few devices as one likes: there is a schedule in
    which Close was called, Run has returned, and one goroutine stays for ever, whatever happens next. *)
Theorem C88_refuted :
  forall (D : Type) cpus opts on, (1 <= cpus)%Z -> let c := New cpus opts in
    forall devs : list D, one_flush c (List.length devs) ->
      exists ls s, steps c on ls (start c devs) s /\ s_closed s = true /\ run_returned s /\
        forall ls' s', steps c on ls' s s' -> goroutines s' = 1%nat.
Proof. intros D cpus opts on H c devs L. exact (left_one_proof c on (New_ok cpus opts H) devs L). Qed.
Print Assumptions C88_refuted.

(** Nor does it hold for Run called again after Close, even if the first Run left nothing behind: in every schedule this
    Run returns, and all of its workers stay for ever. *)
Theorem C88_again_refuted :
  forall (D : Type) c on, conf_ok c -> forall (s : state D) ls s1 n,
    reachable c on s -> s_closed s = false -> s_run s = RSelect ->
    steps c on ls (set_closed s) s1 -> goroutines s1 = 0%nat ->
    inevitable c on (fun s2 => run_returned s2 /\ forall ls' s3, steps c on ls' s2 s3 -> goroutines s3 = c_workers c) n
      (run_again c s1).
Proof. exact @again_proof. Qed.
Print Assumptions C88_again_refuted.

(** Two workers, packets of four, three devices: a generator that waits for its clock and one in the middle of a
    flush; the generator New makes without options, with no devices and with three. *)
Example C88_applies :
  conf_ok GenConc.ex_c /\
  (reachable GenConc.ex_c true (start GenConc.ex_c [10; 20; 30]%nat) /\ s_run (start GenConc.ex_c [10; 20; 30]%nat) = RSelect) /\
  (reachable GenConc.ex_c true GenConc.ex_sent /\ s_closed GenConc.ex_sent = false /\ goroutines GenConc.ex_sent = 4%nat) /\
  one_flush GenConc.ex_c 3 /\
  (exists s : state nat, reachable_upto GenConc.ex_c true 3 s /\ s_closed s = true /\ s_run s = RChk1 Final) /\
  one_flush (New 8 None) 0 /\ one_flush (New 8 None) 3.
Proof.
  split; [exact GenConc.ex_ok|]. split; [split; [exists [10; 20; 30]%nat, []; constructor|reflexivity]|].
  split; [split; [exact GenConc.ex_sent_reachable|split; reflexivity]|].
  split; [exact (proj1 GenConc.C54_example)|].
  split; [destruct (proj1 (proj2 GenConc.C54_example)) as (s & A & B & C & _); exists s; auto|].
  assert (Q : (10 <= c_packet (New 8 None))%nat /\ (3 <= c_workers (New 8 None))%nat).
  { split; apply Nat.leb_le; vm_compute; reflexivity. }
  split; split; lia.
Qed.

(** A generator with one worker that was closed before it did anything, after which all its goroutines returned. *)
Definition one_c : genConf := mkConf 1 4 4.
Definition one_end : state nat :=
  mkState true [10]%nat [None; None; None; None] 0 RGone [WGone] NGone [] 1 false 0 [] 0 0.
Example C88_again_applies :
  conf_ok one_c /\ reachable one_c true (start one_c [10]%nat) /\ s_run (start one_c [10]%nat) = RSelect /\
  steps one_c true (repeat LInt 7) (set_closed (start one_c [10]%nat)) one_end /\ goroutines one_end = 0%nat.
Proof.
  split; [split; cbn; lia|]. split; [exists [10]%nat, []; constructor|]. split; [reflexivity|]. split; [|reflexivity].
  cbn. unfold start. cbn.
  eapply ss_cons; [eapply (st_work _ _ 0); [reflexivity|apply wk_done; reflexivity]|]; cbn.
  eapply ss_cons; [eapply (st_work _ _ 0); [reflexivity|apply wk_exit]|]; cbn.
  eapply ss_cons; [eapply (st_work _ _ 0); [reflexivity|apply wk_exit_send; cbn; lia]|]; cbn.
  eapply ss_cons; [apply st_run; apply rn_done; reflexivity|]; cbn.
  eapply ss_cons; [apply st_run; apply rn_exit|]; cbn.
  eapply ss_cons; [apply st_next; apply nx_done; reflexivity|]; cbn.
  eapply ss_cons; [apply st_next; apply nx_exit|]; cbn.
  apply ss_nil.
Qed.
