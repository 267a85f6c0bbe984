(** C90: the callbacks after Close and after Run. *)
From Coq Require Import Lia.
From Verif.Model Require Import Base Generator GenConc.
From Verif.Spec Require Import GenSpec GenConcSpec LeakSpec SilenceSpec.
From Verif.Proofs Require Import BaseLemmas GenProofs GenConcProofs GenLive GenClose.

Section X.
Context {D : Type} (c : genConf) (on : bool) (HC : conf_ok c).
Implicit Types s : state D.
Notation W := (c_workers c).

Definition inflight (w : wpc D) : nat := match w with WMarshal _ | WCall _ => 1 | _ => 0 end.
Lemma in_hand_cnt s : in_hand s = cnt inflight (s_workers s).
Proof.
  unfold in_hand. induction (s_workers s) as [|w l IH]; [reflexivity|]. destruct w; cbn in *; congruence.
Qed.

(** *** one step of a closed generator *)
Lemma silence_step l s s' : step c on l s s' -> s_closed s = true ->
  s_calls s' = s_calls s /\ exists ps, s_out s' = s_out s ++ ps /\
    (List.length ps + cnt inflight (s_workers s') <= cnt inflight (s_workers s))%nat.
Proof.
  intros H Hc. inversion H as [i w w' s0 s1 Hi Hw|s0 s1 Hr|s0 s1 Hn|s0 Hr|s0|s0 l0 Hm]; subst.
  - pose proof (cnt_set inflight (s_workers s) w w' i Hi) as K. split; [destruct Hw; reflexivity|].
    destruct Hw; try congruence; cbn in *;
      try (exists []; rewrite app_nil_r; split; [reflexivity|cbn; lia]).
    exists [p]. split; [reflexivity|cbn; lia].
  - split; [destruct Hr; try reflexivity; destruct k; reflexivity|].
    exists []. rewrite app_nil_r. destruct Hr; try (split; [reflexivity|cbn; lia]); destruct k; split; try reflexivity; cbn; lia.
  - split; [destruct Hn; try reflexivity; congruence|]. exists []. rewrite app_nil_r. destruct Hn; split; try reflexivity; cbn; lia.
  - split; [reflexivity|]. exists []. rewrite app_nil_r. split; [reflexivity|cbn; lia].
  - split; [reflexivity|]. exists []. rewrite app_nil_r. split; [reflexivity|cbn; lia].
  - split; [reflexivity|]. exists []. rewrite app_nil_r. split; [reflexivity|cbn; lia].
Qed.

Lemma silence_steps ls s s' : steps c on ls s s' -> s_closed s = true ->
  s_calls s' = s_calls s /\ exists ps, s_out s' = s_out s ++ ps /\
    (List.length ps + cnt inflight (s_workers s') <= cnt inflight (s_workers s))%nat.
Proof.
  induction 1 as [|l ls s1 s2 s3 H1 H2 IH]; intros Hc.
  - split; [reflexivity|]. exists []. rewrite app_nil_r. split; [reflexivity|cbn; lia].
  - destruct (silence_step _ _ _ H1 Hc) as (A & ps & B & C). destruct (IH (closed_stays c on _ _ _ H1 Hc)) as (A' & ps' & B' & C').
    split; [congruence|]. exists (ps ++ ps'). rewrite B', B, app_assoc, app_length. split; [reflexivity|lia].
Qed.

Lemma C90_few_proof ls s s' : s_closed s = true -> steps c on ls s s' ->
  s_calls s' = s_calls s /\ exists ps, s_out s' = s_out s ++ ps /\ (List.length ps <= in_hand s)%nat.
Proof.
  intros Hc H. destruct (silence_steps _ _ _ H Hc) as (A & ps & B & C). split; [exact A|]. exists ps. rewrite in_hand_cnt. split; [exact B|lia].
Qed.

Lemma none_silent s : s_closed s = true -> cnt inflight (s_workers s) = 0%nat -> silent c on s.
Proof.
  intros Hc Z ls s' H. destruct (silence_steps _ _ _ H Hc) as (A & ps & B & C). split; [|exact A].
  destruct ps; [rewrite app_nil_r in B; exact B|cbn in C; lia].
Qed.

(** *** what can move after Close *)
Lemma work_can s w : s_closed s = true -> (exists w' s', work c s w w' s') \/
  (forall w' s', ~ work c s w w' s') /\ (w = WAck \/ w = WExitSend \/ w = WGone).
Proof.
  intros Hc. destruct w.
  - left. eexists _, _. now apply wk_done.
  - left. eexists _, _. now apply wk_closed.
  - left. eexists _, _. apply wk_marshal.
  - left. eexists _, _. apply wk_call.
  - left. eexists _, _. now apply wk_chk_closed.
  - destruct (Nat.ltb_spec (s_waitCh s) W) as [L|L]; [left; eexists _, _; now apply wk_ack|right].
    split; [|auto]. intros w' s' H. inversion H. lia.
  - left. eexists _, _. apply wk_exit.
  - destruct (Nat.ltb_spec (s_waitCh s) W) as [L|L]; [left; eexists _, _; now apply wk_exit_send|right].
    split; [|auto]. intros w' s' H. inversion H. lia.
  - right. split; [|auto]. intros w' s' H. inversion H.
Qed.

Lemma workers_can s (l : list (wpc D)) : s_closed s = true -> (exists w, In w l /\ exists w' s', work c s w w' s') \/
  (forall w, In w l -> (forall w' s', ~ work c s w w' s') /\ (w = WAck \/ w = WExitSend \/ w = WGone)).
Proof.
  intros Hc. induction l as [|w l IH]; [right; contradiction|].
  destruct (work_can s w Hc) as [H|H]; [left; exists w; split; [now left|exact H]|].
  destruct IH as [(x & H1 & H2)|H']; [left; exists x; split; [now right|exact H2]|right].
  intros x [<-|Hx]; auto.
Qed.

Lemma run_can s : s_closed s = true -> (exists s', run c s (s_run s) s') \/ (forall s', ~ run c s (s_run s) s').
Proof.
  intros Hc. destruct (s_run s) as [| |i|k|k|k|k|k j|k j|k j|k j| | | |] eqn:Er.
  - left. eexists. now apply rn_done.
  - left. eexists. now apply rn_chk_closed.
  - left. destruct (nth_error (s_devs s) i) eqn:E; [|eexists; now apply rn_stored].
    destruct (s_index s + 1 =? c_packet c)%nat eqn:F; eexists; [eapply rn_store_full|eapply rn_store]; eauto.
  - left. destruct (one_slice c (s_index s)) eqn:F; eexists; [eapply rn_one|eapply rn_many]; eauto.
  - destruct (Nat.ltb_spec (List.length (s_sliceCh s)) W) as [L|L]; [left; eexists; now apply rn_send1|right].
    intros s' H. inversion H. lia.
  - left. eexists. now apply rn_chk1_closed.
  - destruct (s_waitCh s) as [|n] eqn:E; [right; intros s' H; inversion H; congruence|left; eexists; eapply rn_recv1, E].
  - left. destruct (j <? W)%nat eqn:F; eexists; [eapply rn_loops_closed|eapply rn_loops_end]; eauto.
  - destruct (Nat.ltb_spec (List.length (s_sliceCh s)) W) as [L|L]; [left; eexists; now apply rn_sendn|right].
    intros s' H. inversion H. lia.
  - left. destruct (j <? W)%nat eqn:F; eexists; [eapply rn_loopr_closed|eapply rn_loopr_end]; eauto.
  - destruct (s_waitCh s) as [|n] eqn:E; [right; intros s' H; inversion H; congruence|left; eexists; eapply rn_recvn, E].
  - left. eexists. apply rn_reset.
  - left. eexists. apply rn_notify.
  - left. eexists. apply rn_exit.
  - right. intros s' H. inversion H.
Qed.

Lemma next_can s : s_closed s = true -> (exists s', next on s (s_next s) s') \/ s_next s = NGone.
Proof.
  intros Hc. destruct (s_next s); [left|left|left|left|now right]; eexists;
    [apply nx_done|apply nx_closed|apply nx_return|apply nx_exit]; auto.
Qed.

Lemma rest_or_move s : s_closed s = true -> (exists s', step c on LInt s s') \/
  at_rest c on s /\ s_next s = NGone /\ forall w, In w (s_workers s) -> w = WAck \/ w = WExitSend \/ w = WGone.
Proof.
  intros Hc. destruct (workers_can s (s_workers s) Hc) as [(w & Hw & H)|Hw]; [left; exact (worker_moves c on s w Hw H)|].
  destruct (run_can s Hc) as [(s' & H)|Hr]; [left; exists s'; now apply st_run|].
  destruct (next_can s Hc) as [(s' & H)|Hn]; [left; exists s'; now apply st_next|].
  right. split; [|split; [exact Hn|intros w H; now apply Hw]].
  intros s' H. inversion H as [i w w' s0 s1 Hi Hk|s0 s1 Hk|s0 s1 Hk| | |]; subst.
  - exact (proj1 (Hw w (nth_error_In _ _ Hi)) _ _ Hk).
  - exact (Hr _ Hk).
  - rewrite Hn in Hk. inversion Hk.
Qed.

(** *** in the loops of flush *)
Definition in_loop s : Prop := match s_run s with RSendN _ j | RRecvN _ j => (j < W)%nat | _ => True end.
Lemma in_loop_step l s s' : step c on l s s' -> in_loop s -> in_loop s'.
Proof.
  unfold in_loop. intros H Q. inversion H as [i w w' s0 s1 Hi Hw|s0 s1 Hr|s0 s1 Hn|s0 Hr|s0|s0 l0 Hm]; subst; auto.
  - destruct Hw; exact Q.
  - destruct Hr; cbn; auto; try (destruct k; exact I); now apply Nat.ltb_lt.
  - destruct Hn; exact Q.
  - cbn. exact I.
Qed.
Lemma in_loop_reachable s : reachable c on s -> in_loop s.
Proof.
  intros (devs & ls & H). assert (Q : in_loop (start c devs)) by exact I.
  revert Q. induction H as [|l ls s1 s2 s3 H1 H2 IH]; intros Q; auto. apply IH. eapply in_loop_step; eauto.
Qed.

Lemma blocked_none (l : list (wpc D)) : (forall w, In w l -> w = WAck \/ w = WExitSend \/ w = WGone) -> cnt inflight l = 0%nat.
Proof.
  induction l as [|w l IH]; intros H; [reflexivity|]. cbn. rewrite IH by (intros x Hx; apply H; now right).
  destruct (H w (or_introl eq_refl)) as [->|[->| ->]]; reflexivity.
Qed.

(** *** at rest for ever *)
Lemma work_devs s l w w' s' : work c (set_devs s l) w w' s' -> exists s'', work c s w w' s''.
Proof. intros H. inversion H; subst; cbn in *; eexists; try (constructor; assumption). eapply wk_recv; eassumption. Qed.
Lemma run_devs s l r s' : holds_mu r = false -> run c (set_devs s l) r s' -> exists s'', run c s r s''.
Proof.
  intros M H. inversion H; subst; cbn in *; try discriminate M; eexists;
    solve [constructor; assumption | eapply rn_recv1; eassumption | eapply rn_recvn; eassumption
          | eapply rn_loops_closed; eassumption | eapply rn_loops_open; eassumption
          | eapply rn_loopr_closed; eassumption | eapply rn_loopr_open; eassumption ].
Qed.
Lemma next_devs s l n s' : next on (set_devs s l) n s' -> exists s'', next on s n s''.
Proof.
  intros H. inversion H; subst; cbn in *; eexists;
    first [apply nx_done; assumption | apply nx_recv; assumption | apply nx_closed; assumption | apply nx_off; auto; fail | apply nx_call; auto; fail | apply nx_return | apply nx_exit].
Qed.

Lemma rest_step l s s' : s_closed s = true -> at_rest c on s -> step c on l s s' -> at_rest c on s'.
Proof.
  intros Hc R H. inversion H as [i w w' s0 s1 Hi Hw|s0 s1 Hr|s0 s1 Hn|s0 Hr|s0|s0 l0 Hm]; subst; try (exfalso; exact (R _ H)).
  - exfalso. eapply R, st_run. rewrite Hr. now apply rn_done.
  - replace (set_closed s) with s; [exact R|]. destruct s; cbn in *. now subst.
  - intros s' H'. inversion H' as [i w w' s0 s1 Hi Hw|s0 s1 Hr|s0 s1 Hn| | |]; subst.
    + destruct (work_devs _ _ _ _ _ Hw) as [s2 K]. exact (R _ (st_work c on i w w' s s2 Hi K)).
    + destruct (run_devs _ _ _ _ Hm Hr) as [s2 K]. exact (R _ (st_run c on s s2 K)).
    + destruct (next_devs _ _ _ _ Hn) as [s2 K]. exact (R _ (st_next c on s s2 K)).
Qed.
Lemma rest_steps ls s s' : steps c on ls s s' -> s_closed s = true -> at_rest c on s -> at_rest c on s'.
Proof.
  induction 1 as [|l ls s1 s2 s3 H1 H2 IH]; intros Hc R; [exact R|].
  apply IH; [exact (closed_stays c on _ _ _ H1 Hc)|eapply rest_step; eauto].
Qed.
Lemma C90_rests_proof s n : reachable c on s -> s_closed s = true ->
  inevitable c on (fun s1 => (forall ls s2, steps c on ls s1 s2 -> at_rest c on s2) /\ silent c on s1) n s.
Proof.
  intros Hr Hc. apply (iv_intro c on (fun s => s_closed s = true /\ in_loop s) _ (meas c)); [|split; [exact Hc|now apply in_loop_reachable]].
  clear s n Hr Hc. intros s [Hc Q].
  destruct (rest_or_move s Hc) as [H|(R & _ & H)]; [right|left].
  - split; [exact H|]. split; [intros l s' Hs; left; split; [exact (closed_stays c on _ _ _ Hs Hc)|eapply in_loop_step; eauto]|].
    intros s' Hs. eapply meas_int; [|exact Hs]. exact Q.
  - split; [intros ls s2 H2; exact (rest_steps _ _ _ H2 Hc R)|]. apply none_silent; [exact Hc|]. now apply blocked_none.
Qed.

(** *** after Run has returned *)
Lemma returned_step l s s' : wg_inv s -> run_returned s -> step c on l s s' -> s_out s' = s_out s /\ s_calls s' = s_calls s /\ run_returned s'.
Proof.
  unfold wg_inv, run_returned. intros Wg E H.
  assert (U : cnt unfinished (s_workers s) = 0%nat) by lia.
  inversion H as [i w w' s0 s1 Hi Hw|s0 s1 Hr|s0 s1 Hn|s0 Hr|s0|s0 l0 Hm]; subst; auto.
  - destruct (unfinished_all _ U w (nth_error_In _ _ Hi)) as [->| ->]; inversion Hw; subst; cbn; auto.
  - assert (R : run_unfinished (s_run s) = 0%nat) by lia. destruct (s_run s); try discriminate. inversion Hr.
  - assert (N : next_unfinished (s_next s) = 0%nat) by lia. destruct (s_next s); try discriminate. inversion Hn.
Qed.

Lemma C90_returned_proof s : reachable c on s -> run_returned s -> silent c on s.
Proof.
  intros Hr E. pose proof (wg_reachable c on s Hr) as Wg. clear Hr. intros ls s' H. revert Wg E.
  induction H as [|l ls s1 s2 s3 H1 H2 IH]; intros Wg E; [auto|].
  destruct (returned_step _ _ _ Wg E H1) as (A & B & C). destruct (IH (wg_step c on _ _ _ H1 Wg) C) as (A' & B'). split; congruence.
Qed.

(** *** C88: whatever the devices, the goroutines that are left are left for ever *)
Lemma rest_same ls s s' : steps c on ls s s' -> s_closed s = true -> at_rest c on s ->
  s_workers s' = s_workers s /\ s_run s' = s_run s /\ s_next s' = s_next s.
Proof.
  induction 1 as [|l ls s1 s2 s3 H1 H2 IH]; intros Hc R; [auto|].
  destruct (IH (closed_stays c on _ _ _ H1 Hc) (rest_step _ _ _ Hc R H1)) as (A & B & C). rewrite A, B, C.
  inversion H1 as [i w w' s0 s4 Hi Hw|s0 s4 Hr|s0 s4 Hn|s0 Hr|s0|s0 l0 Hm]; subst; auto; exfalso; try exact (R _ H1).
  eapply R, st_run. rewrite Hr. now apply rn_done.
Qed.

Lemma settles_proof s n : reachable c on s -> s_closed s = true ->
  inevitable c on (fun s1 => s_next s1 = NGone /\ forall ls s2, steps c on ls s1 s2 -> goroutines s2 = goroutines s1) n s.
Proof.
  intros Hr Hc. apply (iv_intro c on (fun s => s_closed s = true /\ in_loop s) _ (meas c)); [|split; [exact Hc|now apply in_loop_reachable]].
  clear s n Hr Hc. intros s [Hc Q].
  destruct (rest_or_move s Hc) as [H|(R & N & _)]; [right|left].
  - split; [exact H|]. split; [intros l s' Hs; left; split; [exact (closed_stays c on _ _ _ Hs Hc)|eapply in_loop_step; eauto]|].
    intros s' Hs. eapply meas_int; [|exact Hs]. exact Q.
  - split; [exact N|]. intros ls s2 H. destruct (rest_same _ _ _ H Hc R) as (A & B & C). unfold goroutines. now rewrite A, B, C.
Qed.
End X.
