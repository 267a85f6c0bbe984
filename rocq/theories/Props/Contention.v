(** C48: calls of Next that find the device locked. *)
From Coq Require Import Lia.
From Verif.Model Require Import Base Contention.
From Verif.Spec Require Import ContentionSpec.
From Verif.Proofs Require Import ContentionProofs.

(** C48, in every interleaving that leaves the device unlocked: each contended call was counted by a
    successful call, or is still owed, or has not reached the counter yet, or its increment fell between
    the load and the store of a successful call. Missing from the full property: the last group is empty
    (it need not be), and the calls are counted by the very next successful call. *)
Theorem C48_ledger_partial : forall es s, ev_steps es idle_counter s -> (failed es < 2 ^ 32)%Z -> ct_lock s = Free ->
  (counted es + ct_tick s + Z.of_nat (ct_late s) + crossed false es = failed es)%Z.
Proof. exact C48_ledger_proof. Qed.
Print Assumptions C48_ledger_partial.

(** The next successful call counts all of them, if nothing crossed before and no call is late. *)
Theorem C48_next_partial : forall es s es' v s', ev_steps es idle_counter s -> (failed es < 2 ^ 32)%Z ->
  ct_lock s = Free -> ct_late s = 0%nat -> crossed false es = 0%Z ->
  ev_steps (ENext :: ELoad :: es' ++ [EStore v]) s s' -> (forall w, ~ In (EStore w) es') ->
  v = (failed es - counted es)%Z.
Proof. exact C48_next_proof. Qed.
Print Assumptions C48_next_partial.

(** two contended calls, then a successful one that counts both while a third one is turned away *)
Example C48_example :
  exists s s', ev_steps [ELock; EFail; EFail; EInc; EInc; EUnlock] idle_counter s /\
    ct_lock s = Free /\ ct_late s = 0%nat /\
    ev_steps (ENext :: ELoad :: [EFail] ++ [EStore 2]) s s' /\
    (failed [ELock; EFail; EFail; EInc; EInc; EUnlock] = 2)%Z.
Proof.
  exists (mkCounter Free 2 0), (mkCounter Stored 0 1). unfold idle_counter.
  split; [repeat (eapply ev_cons; [constructor; discriminate|]); apply ev_nil|].
  split; [reflexivity|]. split; [reflexivity|].
  split; [repeat (eapply ev_cons; [constructor; discriminate|]); apply ev_nil|reflexivity].
Qed.

(** The full property is false: a contended call's second can be lost for good. All calls have returned,
    nothing is owed, one call was turned away and no extra second was counted. *)
Theorem C48_refuted : exists es, ev_steps es idle_counter idle_counter /\ failed es = 1%Z /\ counted es = 0%Z.
Proof. exact C48_refuted_proof. Qed.
Print Assumptions C48_refuted.
