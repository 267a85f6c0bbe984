(** C54: after Close. *)
From Coq Require Import Lia Permutation.
From Verif.Model Require Import Base Generator GenConc.
From Verif.Spec Require Import GenSpec GenConcSpec.
From Verif.Proofs Require Import BaseLemmas GenProofs GenConcProofs GenLive.

Section X.
Context {D : Type} (c : genConf) (on : bool) (HC : conf_ok c).
Implicit Types s : state D.
Notation W := (c_workers c).

(** ** the wait group *)

Definition unfinished (w : wpc D) : nat := match w with WExitSend | WGone => 0 | _ => 1 end.
Definition run_unfinished (r : rpc) : nat := match r with RGone => 0 | _ => 1 end.
Definition next_unfinished (n : npc) : nat := match n with NGone => 0 | _ => 1 end.
Definition wg_inv s : Prop :=
  s_wg s = (cnt unfinished (s_workers s) + run_unfinished (s_run s) + next_unfinished (s_next s))%nat.

Lemma wg_step l s s' : step c on l s s' -> wg_inv s -> wg_inv s'.
Proof.
  unfold wg_inv. intros H Q. inversion H as [i w w' s0 s1 Hi Hw|s0 s1 Hr|s0 s1 Hn|s0 Hr|s0|s0 l0 Hm]; subst; auto.
  - pose proof (cnt_set unfinished (s_workers s) w w' i Hi) as K. destruct Hw; cbn in *; lia.
  - remember (s_run s) as r eqn:Er in Hr. rewrite <- Er in Q.
    destruct Hr; cbn in *; try lia; destruct k; cbn; exact Q.
  - remember (s_next s) as n eqn:En in Hn. rewrite <- En in Q. destruct Hn; cbn in *; lia.
  - cbn. rewrite Hr in Q. exact Q.
Qed.

Lemma wg_reachable s : reachable c on s -> wg_inv s.
Proof.
  intros (devs & ls & H). assert (Q : wg_inv (start c devs)) by (unfold wg_inv; cbn; rewrite cnt_repeat; cbn; lia).
  revert Q. induction H as [|l ls s1 s2 s3 H1 H2 IH]; intros Q; auto. apply IH. eapply wg_step; eauto.
Qed.

(** ** closed, with at most one slice in a tick *)

Definition gone (w : wpc D) : nat := match w with WGone => 1 | _ => 0 end.
Definition slack (r : rpc) : nat := match r with RFill _ | RFlush _ | RSend1 _ => 0 | _ => 1 end.
Definition small_run s : Prop :=
  match s_run s with
  | RFill i => s_index s = i /\ (i <= List.length (s_devs s))%nat /\ one_flush c (List.length (s_devs s))
  | RFlush Final => one_slice c (s_index s) = true
  | RSend1 Final | RChk1 Final | RRecv1 Final => True
  | RReset | RNotify | RSelect | RChk | RExit | RGone => True
  | _ => False
  end.
Record closed_inv s : Prop := {
  ci_closed : s_closed s = true;
  ci_len : List.length (s_workers s) = W;
  ci_run : small_run s;
  ci_count : (List.length (s_sliceCh s) + cnt busyw (s_workers s) + s_waitCh s <= slack (s_run s) + cnt gone (s_workers s))%nat;
  ci_slice : (List.length (s_sliceCh s) <= slack (s_run s))%nat;
  ci_wait : (exists k, s_run s = RRecv1 k) -> (cnt gone (s_workers s) <= s_waitCh s)%nat;
  ci_wg : wg_inv s }.

Lemma small_flush s : (exists i, s_run s = RFill i) -> small_run s -> one_flush c (List.length (s_devs s)).
Proof. intros (i & E) H. unfold small_run in H. rewrite E in H. tauto. Qed.

Lemma small_run_step s s' : small_run s -> run c s (s_run s) s' ->
  (s_run s = RChk -> s_closed s = false -> one_flush c (List.length (s_devs s))) -> small_run s'.
Proof.
  intros H Hr Hd. unfold small_run in H. remember (s_run s) as r eqn:Er in Hr. rewrite <- Er in H, Hd.
  destruct Hr; cbn; auto; try contradiction;
    try (destruct k; try contradiction; exact I).
  - unfold small_run. cbn. split; [reflexivity|]. split; [lia|]. now apply Hd.
  - destruct H as (E & L & F). assert (i < List.length (s_devs s))%nat by (apply nth_error_Some; congruence). unfold small_run. cbn. split; [lia|]. split; [lia|exact F].
  - destruct H as (E & L & F). assert (i < List.length (s_devs s))%nat by (apply nth_error_Some; congruence).
    apply Nat.eqb_eq in H1. unfold one_flush in F. lia.
  - destruct H as (E & L & F). unfold small_run. cbn. unfold one_slice. apply Nat.leb_le. unfold one_flush in F. lia.
  - destruct k; [contradiction|]. congruence.
Qed.

Lemma closed_step l s s' : closed_inv s -> step c on l s s' -> closed_inv s'.
Proof.
  intros [I1 I2 I3 I4 I5 I6 I7] H. pose proof (wg_step _ _ _ H I7) as I7'. pose proof (closed_stays c on _ _ _ H I1) as I1'.
  inversion H as [i w w' s0 s1 Hi Hw|s0 s1 Hr|s0 s1 Hn|s0 Hr|s0|s0 l0 Hm]; subst.
  - pose proof (cnt_set busyw (s_workers s) w w' i Hi) as K. pose proof (cnt_set gone (s_workers s) w w' i Hi) as K'.
    assert (J : s_run s1 = s_run s /\ s_index s1 = s_index s /\ s_devs s1 = s_devs s /\ s_workers s1 = s_workers s) by (destruct Hw; auto).
    destruct J as (J1 & J2 & J3 & J4).
    constructor; auto.
    + cbn. rewrite set_nth_length, J4. exact I2.
    + unfold small_run in *. cbn. rewrite J1, J2, J3. exact I3.
    + cbn. rewrite J1. destruct Hw; try congruence; cbn in *; try lia. rewrite H0 in I4. cbn in I4. lia.
    + cbn. rewrite J1. destruct Hw; cbn in *; try lia. rewrite H0 in I5. cbn in I5. lia.
    + cbn. rewrite J1. intros E. specialize (I6 E). destruct Hw; cbn in *; lia.
  - pose proof (small_run_step s s' I3 Hr) as I3'.
    constructor; auto.
    + destruct Hr; cbn; auto; destruct k; auto.
    + apply I3'. intros _ Q. congruence.
    + unfold small_run in I3. remember (s_run s) as r eqn:Er in Hr. rewrite <- Er in I3, I4, I5.
      destruct Hr; try congruence; try contradiction; try (cbn in *; lia);
        try (destruct k; try contradiction); cbn in *; rewrite ?app_length; cbn; lia.
    + unfold small_run in I3. remember (s_run s) as r eqn:Er in Hr. rewrite <- Er in I3, I4, I5.
      destruct Hr; try congruence; try contradiction; try (cbn in *; lia);
        try (destruct k; try contradiction); cbn in *; rewrite ?app_length; cbn; lia.
    + intros (k0 & E). remember (s_run s) as r eqn:Er in Hr.
      destruct Hr; try congruence; cbn in E; try discriminate; destruct k; discriminate.
  - assert (J : s_run s' = s_run s /\ s_index s' = s_index s /\ s_devs s' = s_devs s /\ s_workers s' = s_workers s /\
        s_sliceCh s' = s_sliceCh s /\ s_waitCh s' = s_waitCh s) by (destruct Hn; repeat split).
    destruct J as (J1 & J2 & J3 & J4 & J5 & J6). constructor; unfold small_run in *; rewrite ?J1, ?J2, ?J3, ?J4, ?J5, ?J6; auto.
  - constructor; auto; cbn; rewrite ?Hr in *; auto; try lia. intros (k & E). discriminate.
  - constructor; auto.
  - constructor; auto. unfold small_run in *. cbn. destruct (s_run s); auto. discriminate.
Qed.

Lemma unfinished_all (l : list (wpc D)) : cnt unfinished l = 0%nat -> forall w, In w l -> w = WExitSend \/ w = WGone.
Proof. intros H w Hw. pose proof (cnt_zero unfinished l H w Hw) as E. destruct w; try discriminate; auto. Qed.

Lemma closed_progress s : closed_inv s -> ~ run_returned s -> exists s', step c on LInt s s'.
Proof.
  intros [I1 I2 I3 I4 I5 I6 I7] NR. unfold run_returned in NR. unfold wg_inv in I7. destruct HC as (HW & HP).
  assert (GN : forall s', next on s (s_next s) s' -> exists s', step c on LInt s s') by (intros s' H; exists s'; now apply st_next).
  assert (GR : forall s', run c s (s_run s) s' -> exists s', step c on LInt s s') by (intros s' H; exists s'; now apply st_run).
  destruct (next_unfinished (s_next s)) as [|n] eqn:En.
  2:{ destruct (s_next s); try discriminate; eapply GN; [apply nx_done|apply nx_closed|apply nx_return|apply nx_exit]; auto. }
  destruct (cnt unfinished (s_workers s)) as [|u] eqn:Eu.
  2:{ destruct (cnt_pos unfinished (s_workers s)) as (w & Hw & Hu); [lia|].
      apply (worker_moves c on s w Hw). destruct w; cbn in Hu; try lia; eexists _, _.
      - now apply wk_done.
      - now apply wk_closed.
      - apply wk_marshal.
      - apply wk_call.
      - now apply wk_chk_closed.
      - apply wk_ack. pose proof (cnt_In busyw _ _ Hw) as B. cbn in B.
        assert (cnt gone (s_workers s) < W)%nat.
        { apply In_nth_error in Hw as (i & Hi). pose proof (cnt_set gone (s_workers s) WAck WGone i Hi) as K. cbn in K.
          assert (cnt gone (set_nth i WGone (s_workers s)) <= List.length (set_nth i WGone (s_workers s)))%nat.
          { apply cnt_length. intros w _. destruct w; cbn; lia. }
          rewrite set_nth_length in *. lia. }
        assert (slack (s_run s) <= 1)%nat by (destruct (s_run s); cbn; lia). lia.
      - apply wk_exit. }
  unfold small_run in I3. destruct (s_run s) eqn:Er; try contradiction.
  - eapply GR, rn_done, I1.
  - eapply GR, rn_chk_closed, I1.
  - destruct (nth_error (s_devs s) i) eqn:E; [|eapply GR, rn_stored, E].
    destruct (s_index s + 1 =? c_packet c)%nat eqn:F; eapply GR; [eapply rn_store_full|eapply rn_store]; eauto.
  - destruct k; [contradiction|]. eapply GR, rn_one, I3.
  - eapply GR, rn_send1. cbn in I5. lia.
  - eapply GR, rn_chk1_closed, I1.
  - destruct (s_waitCh s) as [|n] eqn:Ew; [|eapply GR, rn_recv1, Ew].
    assert (cnt gone (s_workers s) = 0)%nat by (specialize (I6 (ex_intro _ k eq_refl)); lia).
    destruct (s_workers s) as [|w l] eqn:El; [cbn in I2; lia|].
    assert (Hin : In w (s_workers s)) by (rewrite El; now left).
    rewrite El in Hin. destruct (unfinished_all _ Eu w Hin) as [Ew1 | Ew1]; rewrite Ew1 in *.
    + apply (worker_moves c on s WExitSend); [rewrite El; exact Hin|]. eexists _, _. apply wk_exit_send. lia.
    + pose proof (cnt_In gone _ _ Hin) as B. cbn in B. cbn in H. lia.
  - eapply GR, rn_reset.
  - eapply GR, rn_notify.
  - eapply GR, rn_exit.
Qed.

Lemma closed_returns s n : closed_inv s -> inevitable c on run_returned n s.
Proof.
  apply (iv_intro c on closed_inv run_returned (meas c)). clear s n. intros s I.
  destruct (Nat.eq_dec (s_wg s) 0) as [E|E]; [now left|right].
  split; [now apply closed_progress|]. split; [intros l s' H; left; eapply closed_step; eauto|].
  intros s' H. eapply meas_int; [|exact H]. pose proof (ci_run _ I) as Q. unfold small_run in Q. destruct (s_run s); auto; contradiction.
Qed.

Lemma close_inv s : reachable c on s -> s_closed s = false -> small_run s -> closed_inv (set_closed s).
Proof.
  intros Hr Hc Hs. pose proof (reachable_inv c on HC s Hr Hc) as I. pose proof (wg_reachable s Hr) as Wg.
  pose proof (oi_count _ _ I) as Q. pose proof (oi_live _ _ I) as Al.
  assert (G : cnt gone (s_workers s) = 0%nat).
  { destruct (cnt gone (s_workers s)) eqn:E; [reflexivity|]. destruct (cnt_pos gone (s_workers s)) as (w & Hw & Hg); [lia|].
    apply Al in Hw. destruct w; cbn in *; try lia. }
  constructor; cbn; auto.
  - exact (oi_len _ _ I).
  - rewrite G. unfold small_run in Hs. destruct (s_run s); cbn in *; try contradiction; lia.
  - unfold small_run in Hs. destruct (s_run s); cbn in *; try contradiction; lia.
  - intros _. lia.
Qed.

Lemma C54_idle_proof s n : reachable c on s -> s_closed s = false -> s_run s = RSelect ->
  inevitable c on run_returned n (set_closed s).
Proof. intros Hr Hc Er. apply closed_returns, close_inv; auto. unfold small_run. now rewrite Er. Qed.

Lemma upto_reachable n s : reachable_upto c on n s -> reachable c on s.
Proof.
  induction 1 as [devs H|l s s' H IH Hs _].
  - exists devs, []. constructor.
  - eapply reachable_step; eauto.
Qed.

Lemma upto_inv n s : one_flush c n -> reachable_upto c on n s -> (List.length (s_devs s) <= n)%nat /\
  if s_closed s then closed_inv s else small_run s.
Proof.
  intros Hn H. induction H as [devs H|l s s' H (IH1 & IH2) Hs Hd]; [split; [exact H|exact I]|]. split; [exact Hd|].
  destruct (s_closed s) eqn:Ec.
  { pose proof (closed_step _ _ _ IH2 Hs) as I. now rewrite (ci_closed _ I). }
  destruct (s_closed s') eqn:Ec'.
  { assert (Hl : l = LClose \/ l <> LClose) by (destruct l; auto; right; discriminate).
    destruct Hl as [Hl|Hl]; [subst l|rewrite (not_close_open c on _ _ _ Hl Hs Ec) in Ec'; discriminate].
    inversion Hs; subst. apply close_inv; auto. eapply upto_reachable; eauto. }
  assert (F : one_flush c (List.length (s_devs s))) by (unfold one_flush in *; lia).
  inversion Hs as [i w w' s0 s1 Hi Hw|s0 s1 Hr|s0 s1 Hn'|s0 Hr|s0|s0 l0 Hm]; subst.
  - destruct Hw; exact IH2.
  - eapply small_run_step; eauto.
  - destruct Hn'; exact IH2.
  - exact I.
  - discriminate.
  - unfold small_run in *. cbn. destruct (s_run s); auto. discriminate.
Qed.

Lemma C54_small_proof n s m : one_flush c n -> reachable_upto c on n s -> s_closed s = true ->
  inevitable c on run_returned m s.
Proof. intros Hn H Hc. destruct (upto_inv n s Hn H) as (_ & Q). rewrite Hc in Q. now apply closed_returns. Qed.
End X.
