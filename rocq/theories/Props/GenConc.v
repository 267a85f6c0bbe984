(** C50, C52-C55: a running generator. *)
From Coq Require Import Lia Permutation.
From Verif.Model Require Import Base Generator GenConc.
From Verif.Spec Require Import GenSpec GenConcSpec.
From Verif.Proofs Require Import GenProofs GenConcProofs GenLive GenClose GenStuck.

(** ** A concrete run: 2 workers, packets of 4 (worker size 2: up to 4 entries are sent as one slice) *)
Definition ex_c : genConf := mkConf 2 4 2.
Definition ex_sent : state nat :=
  mkState false [10; 20; 30]%nat [Some 10; Some 20; Some 30; None]%nat 3 (RChk1 Final) [WSelect; WSelect] NSelect
    [(0, 3)]%nat 0 false 4 [] 0 0.
Definition ex_done : state nat :=
  mkState false [10; 20; 30]%nat [None; None; None; None] 3 RNotify [WSelect; WSelect] NSelect
    [] 0 false 4 [[Some 10; Some 20; Some 30]]%nat 0 0.

Ltac go_run := eapply ss_cons; [apply st_run; cbn; first [econstructor; reflexivity | econstructor; cbn; lia]|]; cbn.
Ltac go_clock := eapply ss_cons; [apply st_clock; reflexivity|]; cbn.
Ltac go_work i := eapply ss_cons; [eapply (st_work _ _ i); [reflexivity|first [econstructor; reflexivity | econstructor; cbn; lia]]|]; cbn.

Lemma ex_ok : conf_ok ex_c. Proof. split; cbn; lia. Qed.

Lemma ex_sent_steps : steps ex_c true (LClock :: repeat LInt 7) (start ex_c [10; 20; 30]%nat) ex_sent.
Proof. cbn. unfold start. cbn. go_clock. do 7 go_run. apply ss_nil. Qed.

Lemma ex_done_steps : steps ex_c true (repeat LInt 9) ex_sent ex_done.
Proof.
  cbn. unfold ex_sent. go_run. go_work 0%nat. go_work 0%nat. go_work 0%nat. go_work 0%nat. go_work 0%nat. go_work 0%nat.
  go_run. go_run. apply ss_nil.
Qed.

Lemma steps_app {D} c on ls ls' (s1 s2 s3 : state D) : steps c on ls s1 s2 -> steps c on ls' s2 s3 -> steps c on (ls ++ ls') s1 s3.
Proof. induction 1; cbn; auto. intros H1. econstructor; eauto. Qed.

Lemma ex_sent_reachable : reachable ex_c true ex_sent.
Proof. exists [10; 20; 30]%nat, (LClock :: repeat LInt 7). exact ex_sent_steps. Qed.
Lemma ex_done_reachable : reachable ex_c true ex_done.
Proof. exists [10; 20; 30]%nat, ((LClock :: repeat LInt 7) ++ repeat LInt 9). exact (steps_app _ _ _ _ _ _ _ ex_sent_steps ex_done_steps). Qed.

(** ** C50 and C52 *)

(** C52. While the generator is open, no step of any goroutine, of the clock, of Attach, Detach or Close
    changes an entry some worker still has to serialise. *)
Theorem C52_not_torn :
  forall (D : Type) c on, conf_ok c -> forall l (s s' : state D) x e,
    reachable c on s -> s_closed s = false -> step c on l s s' -> to_serialise s x ->
    (fst x <= e < snd x)%nat -> nth_error (s_packet s') e = nth_error (s_packet s) e.
Proof. exact @C52_untouched_proof. Qed.
Print Assumptions C52_not_torn.

Example C52_example : reachable ex_c true ex_sent /\ s_closed ex_sent = false /\ to_serialise ex_sent (0, 3)%nat /\
  exists s', step ex_c true LInt ex_sent s'.
Proof.
  split; [exact ex_sent_reachable|]. split; [reflexivity|]. split; [left; left; reflexivity|].
  eexists. apply st_run. cbn. apply rn_chk1_open. reflexivity.
Qed.

(** Each slice of a flush is serialised exactly once before flush returns, with the entries it had when
    flush was called, even if devices are attached and detached meanwhile. *)
Theorem C52_flush :
  forall (D : Type) c on, conf_ok c -> forall (s s' : state D) k,
    reachable c on s -> s_closed s = false -> s_run s = RFlush k -> flush_run c on s s' ->
    Permutation (s_out s') (s_out s ++ flush_packets c (filled s)).
Proof. exact @C52_flush_proof. Qed.
Print Assumptions C52_flush.

(** From the start of a tick to the run loop's next wait, in every schedule of the goroutines: the packets
    handed to the callback are those of the tick, each once. Attach, Detach and Close do not intervene. *)
Theorem C52_tick :
  forall (D : Type) c on, conf_ok c -> forall n (s s' : state D),
    reachable c on s -> s_closed s = false -> s_run s = RChk ->
    steps c on (repeat LInt n) s s' -> s_run s' = RSelect ->
    Permutation (s_out s') (s_out s ++ tick_packets c (map Some (s_devs s))).
Proof. exact @C52_tick_proof. Qed.
Print Assumptions C52_tick.

(** the run above, from the tick to the wait after it *)
Example C52_tick_example :
  exists n s s', reachable ex_c true s /\ s_run s = RChk /\ steps ex_c true (repeat LInt n) s s' /\ s_run s' = RSelect /\
    s_out s' = [[Some 10; Some 20; Some 30]]%nat /\
    tick_packets ex_c (map Some (s_devs s)) = [[Some 10; Some 20; Some 30]]%nat.
Proof.
  pose proof ex_sent_steps as H. inversion H as [|l ls s1 s2 s3 A1 A2]; subst.
  exists (7 + 9 + 1)%nat, s2. eexists. split; [exists [10; 20; 30]%nat, [LClock]; econstructor; [exact A1|apply ss_nil]|].
  inversion A1; subst. split; [reflexivity|]. split; [|split; [|split; [|vm_compute; reflexivity]]].
  { rewrite !repeat_app. eapply steps_app; [eapply steps_app; [exact A2|exact ex_done_steps]|].
    eapply ss_cons; [apply st_run; apply rn_notify|apply ss_nil]. }
  all: reflexivity.
Qed.

(** ** C53 *)

(** In every reachable state of an open generator some goroutine can move, or the run loop waits for
    the clock. *)
Theorem C53_no_deadlock :
  forall (D : Type) c on, conf_ok c -> forall s : state D,
    reachable c on s -> s_closed s = false -> s_run s = RSelect \/ exists s', step c on LInt s s'.
Proof. exact @C53_progress_proof. Qed.
Print Assumptions C53_no_deadlock.

(** A tick that has started finishes, in every schedule, with any (bounded) number of calls of Attach and
    Detach meanwhile, unless Close is called. *)
Theorem C53_tick_finishes :
  forall (D : Type) c on, conf_ok c -> forall (s : state D) n,
    reachable c on s -> s_closed s = false -> s_run s <> RSelect ->
    inevitable c on (fun x => s_closed x = true \/ s_run x = RSelect /\ s_ticks x = S (s_ticks s)) n s.
Proof. exact @C53_tick_proof. Qed.
Print Assumptions C53_tick_finishes.

Example C53_example : reachable ex_c true ex_sent /\ s_closed ex_sent = false /\ s_run ex_sent <> RSelect.
Proof. split; [exact ex_sent_reachable|]. split; [reflexivity|discriminate]. Qed.

(** ** C54 *)

(** C54 when Close is called between ticks. *)
Theorem C54_between_ticks_partial :
  forall (D : Type) c on, conf_ok c -> forall (s : state D) n,
    reachable c on s -> s_closed s = false -> s_run s = RSelect -> inevitable c on run_returned n (set_closed s).
Proof. exact @C54_idle_proof. Qed.
Print Assumptions C54_between_ticks_partial.

(** C54 at any closing point for generators that never have more devices than one flush sends as one
    slice. Missing from the full property: more devices and Close during a tick, where it is false. *)
Theorem C54_few_devices_partial :
  forall (D : Type) c on, conf_ok c -> forall n (s : state D) m,
    one_flush c n -> reachable_upto c on n s -> s_closed s = true -> inevitable c on run_returned m s.
Proof. exact @C54_small_proof. Qed.
Print Assumptions C54_few_devices_partial.

(** closed in the middle of a flush, with three devices *)
Example C54_example : one_flush ex_c 3 /\
  (exists s, reachable_upto ex_c true 3 s /\ s_closed s = true /\ s_run s = RChk1 Final /\ s_devs s = [10; 20; 30]%nat) /\
  reachable ex_c true (start ex_c [10; 20; 30; 40; 50]%nat).
Proof.
  split; [split; cbn; lia|]. split.
  - exists (set_closed ex_sent). split; [|repeat split]. eapply ru_step; [|apply st_close|cbn; lia].
    assert (G : forall ls s s', steps ex_c true ls s s' -> reachable_upto ex_c true 3 s ->
              Forall (fun l => l <> LDevs) ls -> s_devs s = [10; 20; 30]%nat -> reachable_upto ex_c true 3 s').
    { induction 1 as [|l ls s1 s2 s3 A1 A2 IH]; intros R F E; auto. inversion F; subst.
      assert (E2 : s_devs s2 = [10; 20; 30]%nat).
      { destruct A1 as [i w w' s s' Hw Hk|s s' Hk|s s' Hk| | |]; cbn; auto; try congruence;
          inversion Hk; subst; cbn; auto; destruct k; cbn; auto. }
      apply IH; auto. eapply ru_step; [exact R|exact A1|rewrite E2; cbn; lia]. }
    eapply G; [exact ex_sent_steps|apply ru_start; cbn; lia| |reflexivity].
    repeat constructor; discriminate.
  - exists [10; 20; 30; 40; 50]%nat, []. constructor.
Qed.

(** The full property is false of every generator New makes: with this many devices there is a schedule
    after which Close was called and Run never returns, whatever happens next. *)
Theorem C54_refuted :
  forall (D : Type) cpus opts on, (1 <= cpus)%Z -> let c := New cpus opts in
    forall devs : list D,
      List.length devs = (if c_packet c - 1 <=? c_workers c + c_workerSize c then c_workers c * c_packet c
                          else c_workers c + c_workerSize c + 1)%nat ->
      exists ls s, steps c on ls (start c devs) s /\ s_closed s = true /\
        forall ls' s', steps c on ls' s s' -> ~ run_returned s'.
Proof.
  intros D cpus opts on H c devs L. apply (C54_refuted_proof c on (New_ok cpus opts H) devs (New_workerSize cpus opts H) L).
Qed.
Print Assumptions C54_refuted.

(** ** C55 *)

(** OnNext is not called more often than ticks complete. *)
Theorem C55_at_most_once :
  forall (D : Type) c on (s : state D), reachable c on s -> (s_calls s <= s_ticks s)%nat.
Proof. exact @C55_once_proof. Qed.
Print Assumptions C55_at_most_once.

(** After a tick completes, a call of OnNext follows in every schedule, unless Close is called. *)
Theorem C55_follows :
  forall (D : Type) c, conf_ok c -> forall (s : state D) n,
    reachable c true s -> s_closed s = false -> s_run s = RNotify ->
    step c true LInt s (notified s) /\
    inevitable c true (fun x => s_closed x = true \/ (s_calls s < s_calls x)%nat) n (notified s).
Proof.
  intros D c H s n Hr Hc Er. split; [|exact (C55_last_proof c true H s n eq_refl Hr Hc Er)].
  apply st_run. rewrite Er. apply rn_notify.
Qed.
Print Assumptions C55_follows.

Example C55_example : reachable ex_c true ex_done /\ s_closed ex_done = false /\ s_run ex_done = RNotify.
Proof. split; [exact ex_done_reachable|]. split; reflexivity. Qed.
