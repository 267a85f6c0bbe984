(** C88: Run after Run and Close. *)
From Coq Require Import Lia.
From Verif.Model Require Import Base Generator GenConc GenAgain.
From Verif.Spec Require Import GenSpec GenConcSpec LeakSpec.
From Verif.Proofs Require Import BaseLemmas GenProofs GenConcProofs GenLive GenClose GenLeak.

Section X.
Context {D : Type} (c : genConf) (on : bool) (HC : conf_ok c).
Implicit Types s : state D.
Notation W := (c_workers c).

Definition leaving (w : wpc D) : Prop := match w with WSelect | WGot _ | WExit | WExitSend => True | _ => False end.
Record again s : Prop := {
  ag_closed : s_closed s = true;
  ag_len : List.length (s_workers s) = W;
  ag_run : quiet_run (s_run s);
  ag_live : forall w, In w (s_workers s) -> leaving w;
  ag_wait : s_waitCh s = W;
  ag_wg : wg_inv s }.

Lemma In_set_nth {A} (l : list A) w : forall i x, In x (set_nth i w l) -> x = w \/ In x l.
Proof.
  induction l as [|a l IH]; intros [|i] x H; cbn in *; auto.
  - destruct H as [H|H]; auto.
  - destruct H as [H|H]; auto. destruct (IH i x H); auto.
Qed.

Lemma again_step l s s' : again s -> step c on l s s' -> again s'.
Proof.
  intros [I1 I2 I3 I4 I5 I6] H. pose proof (wg_step c on _ _ _ H I6) as I6'. pose proof (closed_stays c on _ _ _ H I1) as I1'.
  inversion H as [i w w' s0 s1 Hi Hw|s0 s1 Hr|s0 s1 Hn|s0 Hr|s0|s0 l0 Hm]; subst.
  - pose proof (I4 w (nth_error_In _ _ Hi)) as Lw.
    constructor; auto.
    + cbn. rewrite set_nth_length. destruct Hw; exact I2.
    + destruct Hw; exact I3.
    + intros x Hx. cbn in Hx. apply In_set_nth in Hx as [->|Hx]; [destruct Hw; cbn in *; auto; try congruence; lia|].
      apply I4. destruct Hw; exact Hx.
    + destruct Hw; cbn in *; auto; try contradiction. lia.
  - remember (s_run s) as r eqn:Er in Hr. rewrite <- Er in I3. destruct Hr; try contradiction; try congruence; constructor; cbn; auto.
  - constructor; auto; destruct Hn; auto.
  - constructor; cbn; auto.
  - constructor; auto.
  - constructor; auto.
Qed.

Lemma again_progress s : again s -> ~ run_returned s -> exists s', step c on LInt s s'.
Proof.
  intros [I1 I2 I3 I4 I5 I6] NR. unfold run_returned in NR. unfold wg_inv in I6.
  assert (GN : forall s', next on s (s_next s) s' -> exists s', step c on LInt s s') by (intros s' H; exists s'; now apply st_next).
  assert (GR : forall s', run c s (s_run s) s' -> exists s', step c on LInt s s') by (intros s' H; exists s'; now apply st_run).
  destruct (next_unfinished (s_next s)) as [|n] eqn:En.
  2:{ destruct (s_next s); try discriminate; eapply GN; [apply nx_done|apply nx_closed|apply nx_return|apply nx_exit]; auto. }
  destruct (cnt unfinished (s_workers s)) as [|u] eqn:Eu.
  2:{ destruct (cnt_pos unfinished (s_workers s)) as (w & Hw & Hu); [lia|]. pose proof (I4 w Hw) as Lw.
      apply (worker_moves c on s w Hw). destruct w; cbn in Hu, Lw; try lia; try contradiction; eexists _, _.
      - now apply wk_done.
      - now apply wk_closed.
      - apply wk_exit. }
  destruct (s_run s) eqn:Er; try contradiction.
  - eapply GR, rn_done, I1.
  - eapply GR, rn_chk_closed, I1.
  - eapply GR, rn_exit.
Qed.

Lemma again_left s : again s -> run_returned s -> goroutines s = W.
Proof.
  intros I R. destruct (returned_parts s (ag_wg _ I) R) as (U & Ur & Un). pose proof (goroutines_cnt s) as G.
  pose proof (ag_len _ I) as L.
  assert (cnt gone (s_workers s) = 0%nat).
  { destruct (cnt gone (s_workers s)) eqn:E; [reflexivity|]. destruct (cnt_pos gone (s_workers s)) as (w & Hw & Hg); [lia|].
    apply (ag_live _ I) in Hw. destruct w; cbn in *; try lia; contradiction. }
  lia.
Qed.

Lemma wg_down l s s' : wg_inv s -> step c on l s s' -> run_returned s -> run_returned s'.
Proof.
  unfold run_returned. intros I H E. inversion H as [i w w' s0 s1 Hi Hw|s0 s1 Hr|s0 s1 Hn|s0 Hr|s0|s0 l0 Hm]; subst; auto.
  - destruct Hw; cbn; auto. lia.
  - destruct Hr; cbn; auto; try (destruct k; cbn; auto). lia.
  - destruct Hn; cbn; auto. lia.
Qed.

Lemma again_stays ls s s' : again s -> run_returned s -> steps c on ls s s' -> goroutines s' = W.
Proof.
  intros I R H. revert I R. induction H as [|l ls s1 s2 s3 H1 H2 IH]; intros I R; [now apply again_left|].
  apply IH; [eapply again_step; eauto|]. eapply wg_down; eauto. exact (ag_wg _ I).
Qed.

Lemma again_inv s n : again s ->
  inevitable c on (fun s1 => run_returned s1 /\ forall ls s2, steps c on ls s1 s2 -> goroutines s2 = W) n s.
Proof.
  apply (iv_intro c on again _ (meas c)). clear s n. intros s I.
  destruct (Nat.eq_dec (s_wg s) 0) as [E|E].
  { left. split; [exact E|]. intros ls s2 H. eapply again_stays; eauto. }
  right. split; [now apply again_progress|]. split; [intros l s' Hs; left; eapply again_step; eauto|].
  intros s' Hs. eapply meas_int; [|exact Hs]. pose proof (ag_run _ I) as Q. destruct (s_run s); auto; contradiction.
Qed.

Lemma run_again_again s : s_closed s = true -> s_waitCh s = W -> again (run_again c s).
Proof.
  intros Hc Hw. constructor; cbn; auto.
  - apply repeat_length.
  - intros w H. apply repeat_spec in H. subst w. exact I.
  - unfold wg_inv. cbn. rewrite cnt_repeat. cbn. lia.
Qed.

Lemma again_proof s ls s1 n : reachable c on s -> s_closed s = false -> s_run s = RSelect ->
  steps c on ls (set_closed s) s1 -> goroutines s1 = 0%nat ->
  inevitable c on (fun s2 => run_returned s2 /\ forall ls s3, steps c on ls s2 s3 -> goroutines s3 = W) n (run_again c s1).
Proof.
  intros Hr Hc Er H G. assert (Q : quiet c (set_closed s)) by now apply (idle_quiet c on HC).
  assert (Q1 : quiet c s1) by (clear - H Q; induction H as [|l ls s1 s2 s3 H1 H2 IH]; auto; apply IH; eapply quiet_step; eauto).
  apply again_inv, run_again_again.
  - exact (ci_closed _ _ (qi_closed _ _ Q1)).
  - pose proof (goroutines_cnt s1) as K. pose proof (ci_len _ _ (qi_closed _ _ Q1)) as L. rewrite (qi_wait _ _ Q1).
    assert (cnt gone (s_workers s1) <= List.length (s_workers s1))%nat by (apply cnt_length; intros w _; destruct w; cbn; lia). lia.
Qed.
End X.
