(** C53-C55: what happens sooner or later. *)
From Coq Require Import Lia Permutation.
From Verif.Model Require Import Base Generator GenConc.
From Verif.Spec Require Import GenSpec GenConcSpec.
From Verif.Proofs Require Import BaseLemmas GenProofs GenConcProofs.

Section L.
Context {D : Type} (c : genConf) (on : bool) (HC : conf_ok c).
Implicit Types s : state D.
Notation W := (c_workers c).

Lemma iv_intro (Inv P : state D -> Prop) (m : state D -> nat) :
  (forall s, Inv s -> P s \/
     (exists s', step c on LInt s s') /\
     (forall l s', step c on l s s' -> Inv s' \/ P s') /\
     (forall s', step c on LInt s s' -> m s' < m s)%nat) ->
  forall n s, Inv s -> inevitable c on P n s.
Proof.
  intros H n. induction n as [n IHn] using lt_wf_ind. intros s.
  induction s as [s IHs] using (well_founded_induction (Wf_nat.well_founded_ltof _ m)). intros I.
  destruct (H s I) as [HP|(H1 & H2 & H3)]; [now apply iv_now|]. apply iv_later; [exact H1| |].
  - intros s' Hs. destruct (H2 _ _ Hs) as [I'|HP]; [|now apply iv_now]. apply IHs; [|exact I']. apply H3, Hs.
  - intros l s' k -> Hs. destruct (H2 _ _ Hs) as [I'|HP]; [|now apply iv_now]. apply IHn; [lia|exact I'].
Qed.

(** ** C53: progress *)

Lemma worker_moves s w : In w (s_workers s) ->
  (exists w' s', work c s w w' s') -> exists s', step c on LInt s s'.
Proof.
  intros Hw (w' & s' & H). apply In_nth_error in Hw as (i & Hi). eexists. eapply st_work; eassumption.
Qed.

Lemma busy_moves s w : open_inv c s -> In w (s_workers s) -> busyw w = 1%nat -> exists s', step c on LInt s s'.
Proof.
  intros I Hw Hb. apply (worker_moves s w Hw). pose proof (oi_open _ _ I) as Hc. destruct w; try discriminate.
  - destruct (is_zero s0) eqn:E; eexists _, _; [apply wk_zero|apply wk_open]; auto.
  - eexists _, _. apply wk_marshal.
  - eexists _, _. apply wk_call.
  - eexists _, _. now apply wk_chk_open.
  - eexists _, _. apply wk_ack. pose proof (oi_count _ _ I) as Q.
    pose proof (cnt_In busyw _ _ Hw) as B. cbn in B.
    assert (owes c (s_run s) <= W)%nat.
    { pose proof (oi_bounds _ _ I) as Bd. destruct HC. destruct (s_run s); cbn in *; lia. }
    lia.
Qed.

Lemma waiting_moves s : open_inv c s -> (0 < owes c (s_run s))%nat -> s_waitCh s = 0%nat -> exists s', step c on LInt s s'.
Proof.
  intros I H0 Hw. pose proof (oi_count _ _ I) as Q. pose proof (oi_open _ _ I) as Hc.
  destruct (cnt busyw (s_workers s)) as [|b] eqn:Eb.
  - destruct (s_sliceCh s) as [|x r] eqn:Ex; [cbn in Q; lia|].
    destruct HC as (HW & _). pose proof (oi_len _ _ I) as Ln.
    destruct (s_workers s) as [|w l] eqn:El; [cbn in Ln; lia|].
    assert (Hin : In w (s_workers s)) by (rewrite El; now left).
    pose proof (oi_live _ _ I w Hin) as A. pose proof (cnt_In busyw _ w Hin) as B. rewrite El, Eb in B.
    assert (w = WSelect) as -> by (destruct w; cbn in *; try contradiction; try lia; reflexivity).
    apply (worker_moves s WSelect Hin). eexists _, _. eapply wk_recv. exact Ex.
  - destruct (cnt_pos busyw (s_workers s)) as (w & Hin & Hb); [lia|].
    apply (busy_moves s w I Hin). destruct w; cbn in *; lia.
Qed.

Lemma open_progress s : open_inv c s -> s_run s <> RSelect -> exists s', step c on LInt s s'.
Proof.
  intros I Hr. pose proof (oi_open _ _ I) as Hc. pose proof (oi_bounds _ _ I) as B. pose proof (oi_count _ _ I) as Q.
  assert (G : forall s', run c s (s_run s) s' -> exists s', step c on LInt s s').
  { intros s' H. exists s'. now apply st_run. }
  destruct (s_run s) eqn:Er; cbn in B, Q; try contradiction.
  - eapply G, rn_chk_open, Hc.
  - destruct (nth_error (s_devs s) i) eqn:E.
    + destruct (s_index s + 1 =? c_packet c)%nat eqn:F; eapply G; [eapply rn_store_full|eapply rn_store]; eauto.
    + eapply G, rn_stored, E.
  - destruct (one_slice c (s_index s)) eqn:F; eapply G; [eapply rn_one|eapply rn_many]; eauto.
  - eapply G, rn_send1. destruct HC. lia.
  - eapply G, rn_chk1_open, Hc.
  - destruct (s_waitCh s) as [|n] eqn:Ew; [apply waiting_moves; rewrite ?Er; cbn; auto|]. eapply G, rn_recv1, Ew.
  - destruct (j <? W)%nat eqn:F; eapply G; [eapply rn_loops_open|eapply rn_loops_end]; eauto.
  - eapply G, rn_sendn. lia.
  - destruct (j <? W)%nat eqn:F; eapply G; [eapply rn_loopr_open|eapply rn_loopr_end]; eauto.
  - destruct (s_waitCh s) as [|n] eqn:Ew; [apply waiting_moves; rewrite ?Er; cbn; auto; lia|]. eapply G, rn_recvn, Ew.
  - eapply G, rn_reset.
  - eapply G, rn_notify.
Qed.

Lemma C53_progress_proof s : reachable c on s -> s_closed s = false -> s_run s = RSelect \/ exists s', step c on LInt s s'.
Proof.
  intros Hr Hc. pose proof (reachable_inv c on HC s Hr Hc) as I.
  destruct (s_run s) eqn:Er; try (right; apply open_progress; [exact I|congruence]). now left.
Qed.

(** ** C53: termination *)

Definition mworker (w : wpc D) : nat :=
  match w with WSelect => 3 | WGot _ => 8 | WMarshal _ => 7 | WCall _ => 6 | WChk => 5 | WAck => 4
  | WExit => 2 | WExitSend => 1 | WGone => 0 end.
Definition mnext (n : npc) : nat := match n with NSelect => 2 | NGot => 4 | NCall => 3 | NExit => 1 | NGone => 0 end.
Definition mflush : nat := 10 * W + 12.
Definition mfill (n i : nat) : nat := (n - i) * (mflush + 1) + mflush + 8.
Definition mret (n : nat) (k : caller) : nat := match k with Mid i => mfill n (S i) | Final => 7 end.
Definition mrun (n : nat) (r : rpc) : nat :=
  match r with
  | RSelect => 2 | RExit => 1 | RGone => 0
  | RChk => mfill n 0 + 1
  | RFill i => mfill n i
  | RFlush k => mflush + mret n k
  | RSend1 k => 9 + mret n k
  | RChk1 k => 2 + mret n k
  | RRecv1 k => 1 + mret n k
  | RLoopS k j => 8 * (W - j) + 2 * W + 2 + mret n k
  | RSendN k j => 8 * (W - j) + 2 * W + 1 + mret n k
  | RLoopR k j => 2 * (W - j) + 1 + mret n k
  | RRecvN k j => 2 * (W - j) + mret n k
  | RReset => 7 | RNotify => 6
  end.
Definition meas s : nat :=
  (mrun (List.length (s_devs s)) (s_run s) + 6 * List.length (s_sliceCh s) + cnt mworker (s_workers s) +
   mnext (s_next s) + if s_nextCh s then 3 else 0)%nat.

Lemma mfill_step n i : (i < n)%nat -> mfill n i = (mfill n (S i) + mflush + 1)%nat.
Proof. intros H. unfold mfill. replace (n - i)%nat with (S (n - S i)) by lia. cbn. lia. Qed.

Lemma mfill_ge n i : (mflush + 8 <= mfill n i)%nat.
Proof. unfold mfill. generalize ((n - i) * (mflush + 1))%nat. lia. Qed.

Lemma meas_work s w w' s' i : nth_error (s_workers s) i = Some w -> work c s w w' s' ->
  (meas (set_workers s' (set_nth i w' (s_workers s'))) < meas s)%nat.
Proof.
  intros Hi Hw. pose proof (cnt_set mworker (s_workers s) w w' i Hi) as Q.
  destruct Hw; unfold meas; cbn in *; try lia. rewrite H. cbn. lia.
Qed.

Lemma meas_next s s' : next on s (s_next s) s' -> (meas s' < meas s)%nat.
Proof.
  intros H. unfold meas. remember (s_next s) as n eqn:En in H. rewrite <- En. destruct H; cbn; try lia.
  rewrite H. lia.
Qed.

Lemma meas_run s s' : (match s_run s with RSendN _ j | RRecvN _ j => j < W | _ => True end)%nat ->
  run c s (s_run s) s' -> (meas s' < meas s)%nat.
Proof.
  intros B H. unfold meas. remember (s_run s) as r eqn:Er in H. rewrite <- Er. rewrite <- Er in B. destruct H; cbn -[Nat.mul mfill]; try lia.
  - unfold mfill. lia.
  - rewrite (mfill_step _ i) by (apply nth_error_Some; congruence). lia.
  - rewrite (mfill_step _ i) by (apply nth_error_Some; congruence). lia.
  - pose proof (mfill_ge (List.length (s_devs s)) i). lia.
  - unfold mflush. lia.
  - unfold mflush. lia.
  - rewrite app_length. cbn. lia.
  - destruct k; cbn -[Nat.mul mfill]; lia.
  - destruct k; cbn -[Nat.mul mfill]; lia.
  - destruct k; cbn -[Nat.mul mfill]; lia.
  - rewrite app_length. cbn -[Nat.mul] in *. lia.
  - destruct k; cbn -[Nat.mul mfill]; lia.
  - destruct k; cbn -[Nat.mul mfill]; lia.
Qed.

Lemma meas_int s s' : (match s_run s with RSendN _ j | RRecvN _ j => j < W | _ => True end)%nat ->
  step c on LInt s s' -> (meas s' < meas s)%nat.
Proof.
  intros B H. inversion H as [i w w' s0 s1 Hi Hw|s0 s1 Hr|s0 s1 Hn| | |]; subst.
  - eapply meas_work; eassumption.
  - now apply meas_run.
  - now apply meas_next.
Qed.

Lemma open_meas s s' : open_inv c s -> step c on LInt s s' -> (meas s' < meas s)%nat.
Proof. intros I. apply meas_int. pose proof (oi_bounds _ _ I). destruct (s_run s); auto. Qed.

Lemma step_open l s s' : open_inv c s -> step c on l s s' -> open_inv c s' \/ s_closed s' = true.
Proof.
  intros I H. destruct (s_closed s') eqn:E; [now right|left]. eapply open_inv_step; eauto.
Qed.

Lemma step_ticks l s s' : step c on l s s' -> s_run s <> RSelect ->
  (s_run s' = RSelect /\ s_ticks s' = S (s_ticks s)) \/
  (s_run s' <> RSelect /\ s_ticks s' = s_ticks s).
Proof.
  intros H Hne. inversion H as [i w w' s0 s1 Hi Hw|s0 s1 Hr|s0 s1 Hn|s0 Hr|s0|s0 l0 Hm]; subst.
  - right. destruct Hw; cbn; auto.
  - remember (s_run s) as r eqn:Er in Hr. destruct Hr; cbn; try (right; split; [congruence|reflexivity]);
      try (right; destruct k; cbn; (split; [discriminate|reflexivity])).
    left. split; reflexivity.
  - right. destruct Hn; cbn; auto.
  - congruence.
  - right. cbn. auto.
  - right. cbn. auto.
Qed.

Definition tick_done (t0 : nat) s : Prop := s_closed s = true \/ s_run s = RSelect /\ s_ticks s = S t0.

Lemma C53_tick_proof s n : reachable c on s -> s_closed s = false -> s_run s <> RSelect ->
  inevitable c on (tick_done (s_ticks s)) n s.
Proof.
  intros Hr Hc Hne. set (t0 := s_ticks s).
  apply (iv_intro (fun x => open_inv c x /\ s_run x <> RSelect /\ s_ticks x = t0) (tick_done t0) meas).
  2:{ split; [now apply reachable_inv with (on := on)|auto]. }
  clearbody t0. clear s Hr Hc Hne. intros s (I & Hne & Et). right. split; [now apply open_progress|]. split.
  - intros l s' H. destruct (step_open l s s' I H) as [I'|Hc]; [|right; now left].
    destruct (step_ticks l s s' H Hne) as [(A & B)|(A & B)].
    + right. right. split; [exact A|congruence].
    + left. rewrite <- Et. auto.
  - intros s' H. eapply open_meas; eauto.
Qed.

(** ** C55 *)

Definition started (n : npc) : nat := match n with NGot => 1 | _ => 0 end.
Definition b2n (b : bool) : nat := if b then 1 else 0.

Lemma calls_step l s s' : step c on l s s' ->
  (s_calls s + started (s_next s) + b2n (s_nextCh s) <= s_ticks s)%nat ->
  (s_calls s' + started (s_next s') + b2n (s_nextCh s') <= s_ticks s')%nat.
Proof.
  intros H Q. inversion H as [i w w' s0 s1 Hi Hw|s0 s1 Hr|s0 s1 Hn|s0 Hr|s0|s0 l0 Hm]; subst; auto.
  - destruct Hw; cbn; auto.
  - destruct Hr; cbn in *; auto; try (unfold flushed; destruct k; cbn; auto). destruct (s_nextCh s); cbn in *; lia.
  - remember (s_next s) as n eqn:En in Hn. rewrite <- En in Q. destruct Hn; cbn in *; try rewrite H0 in Q; cbn in *; try lia.
Qed.

Lemma C55_once_proof s : reachable c on s -> (s_calls s <= s_ticks s)%nat.
Proof.
  intros (devs & ls & H).
  assert (Q : (s_calls s + started (s_next s) + b2n (s_nextCh s) <= s_ticks s)%nat); [|lia].
  assert (Q0 : (s_calls (start c devs) + started (s_next (start c devs)) + b2n (s_nextCh (start c devs)) <= s_ticks (start c devs))%nat) by (cbn; lia).
  revert Q0. induction H as [|l ls s1 s2 s3 H1 H2 IH]; intros Q0; auto. apply IH. eapply calls_step; eauto.
Qed.

Definition called_again (c0 : nat) s : Prop := s_closed s = true \/ (c0 < s_calls s)%nat.

Lemma C55_last_proof s n : on = true -> reachable c on s -> s_closed s = false -> s_run s = RNotify ->
  inevitable c on (called_again (s_calls s)) n (notified s).
Proof.
  intros Hon Hr Hc Er. set (c0 := s_calls s).
  apply (iv_intro (fun x => open_inv c x /\ s_calls x = c0 /\ (s_next x = NGot \/ s_nextCh x = true)) (called_again c0) meas).
  2:{ split; [|cbn; auto]. eapply open_inv_int with (on := on); [exact HC|eapply reachable_inv; eauto|]. apply st_run. rewrite Er. apply rn_notify. }
  clearbody c0. clear s Hr Hc Er. intros s (I & Ec & Hn). right. pose proof (oi_open _ _ I) as Hc. pose proof (oi_next _ _ I) as Nx. split.
  - assert (G : forall s', next on s (s_next s) s' -> exists s', step c on LInt s s') by (intros s' H; exists s'; now apply st_next).
    destruct (s_next s) eqn:En; try contradiction.
    + destruct Hn as [Hn|Hn]; [discriminate|]. eapply G, nx_recv, Hn.
    + eapply G. now apply nx_call.
    + eapply G, nx_return.
  - split.
    + intros l s' H. destruct (step_open l s s' I H) as [I'|Hc']; [|right; now left].
      inversion H as [i w w' s0 s1 Hi Hw|s0 s1 Hr|s0 s1 Hn'|s0 Hr|s0|s0 l0 Hm]; subst.
      * left. destruct Hw; cbn; auto.
      * left. destruct Hr; cbn; auto; unfold flushed; destruct k; cbn; auto.
      * remember (s_next s) as x eqn:En in Hn'. rewrite <- En in Hn.
        destruct Hn'; try congruence; cbn.
        -- left. auto.
        -- right. right. cbn. lia.
        -- left. destruct Hn as [Hn|Hn]; [discriminate|auto].
        -- left. destruct Hn as [Hn|Hn]; [discriminate|auto].
      * left. cbn. auto.
      * left. cbn. auto.
      * left. cbn. auto.
    + intros s' H. eapply open_meas; eauto.
Qed.
End L.
