(** C90: after Close the callbacks stop. *)
From Coq Require Import Lia.
From Verif.Model Require Import Base Generator GenConc.
From Verif.Spec Require Import GenSpec GenConcSpec SilenceSpec.
From Verif.Proofs Require Import GenProofs GenSilence.
From Verif.Props Require GenConc Leak.

(** After Close OnNext is not called again, and each worker hands out at most the one packet it was already
    serialising: in whatever schedule, with whatever devices. *)
Theorem C90_few :
  forall (D : Type) c on ls (s s' : state D), s_closed s = true -> steps c on ls s s' ->
    s_calls s' = s_calls s /\ exists ps, s_out s' = s_out s ++ ps /\ (List.length ps <= in_hand s)%nat.
Proof. exact @C90_few_proof. Qed.
Print Assumptions C90_few.

(** In every schedule the generator comes to rest after Close: none of its goroutines ever moves again, whatever happens,
    and no callback is called any more. *)
Theorem C90_rests :
  forall (D : Type) c on (s : state D) n, reachable c on s -> s_closed s = true ->
    inevitable c on (fun s1 => (forall ls s2, steps c on ls s1 s2 -> at_rest c on s2) /\ silent c on s1) n s.
Proof. exact @C90_rests_proof. Qed.
Print Assumptions C90_rests.

(** Once Run has returned no callback is called any more, also if goroutines were left behind (C88). *)
Theorem C90_returned :
  forall (D : Type) c on (s : state D), reachable c on s -> run_returned s -> silent c on s.
Proof. exact @C90_returned_proof. Qed.
Print Assumptions C90_returned.

(** Two workers, three devices: Close while one worker has the packet in hand, which it then hands out, so that the
    bound is reached; and a generator whose Run has returned. *)
Definition in_hand_ex : state nat :=
  mkState true [10; 20; 30]%nat [Some 10; Some 20; Some 30; None]%nat 3 (RRecv1 Final)
    [WCall [Some 10; Some 20; Some 30]%nat; WSelect] NSelect [] 0 false 4 [] 0 0.
Example C90_applies :
  (reachable GenConc.ex_c true in_hand_ex /\ s_closed in_hand_ex = true /\ in_hand in_hand_ex = 1%nat) /\
  (exists s', steps GenConc.ex_c true [LInt] in_hand_ex s' /\ s_out s' = [[Some 10; Some 20; Some 30]]%nat) /\
  ~ at_rest GenConc.ex_c true in_hand_ex /\ ~ silent GenConc.ex_c true in_hand_ex /\
  (reachable Leak.one_c true Leak.one_end /\ run_returned Leak.one_end).
Proof.
  assert (S : step GenConc.ex_c true LInt in_hand_ex
    (set_workers (add_out in_hand_ex [Some 10; Some 20; Some 30]%nat) [WChk; WSelect])).
  { refine (st_work _ _ 0 _ _ _ _ _ _); [reflexivity|apply wk_call]. }
  split; [split; [|split; reflexivity]|].
  { exists [10; 20; 30]%nat, ((LClock :: repeat LInt 7) ++ (repeat LInt 4 ++ [LClose])).
    apply (GenConc.steps_app _ _ _ _ _ _ _ GenConc.ex_sent_steps). cbn. unfold GenConc.ex_sent.
    GenConc.go_run. GenConc.go_work 0%nat. GenConc.go_work 0%nat. GenConc.go_work 0%nat.
    eapply ss_cons; [apply st_close|apply ss_nil]. }
  split; [eexists; split; [eapply ss_cons; [exact S|apply ss_nil]|reflexivity]|].
  split; [intros R; exact (R _ S)|].
  split; [intros Q; destruct (Q [LInt] _ (ss_cons _ _ _ _ _ _ _ S (ss_nil _ _ _))) as [E _]; discriminate E|].
  split; [|reflexivity]. exists [10]%nat, (LClose :: repeat LInt 7). eapply ss_cons; [apply st_close|].
  exact (proj1 (proj2 (proj2 (proj2 Leak.C88_again_applies)))).
Qed.
