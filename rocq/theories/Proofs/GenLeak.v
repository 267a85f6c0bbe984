(** C88: the goroutines that are left after Close. *)
From Coq Require Import Lia.
From Verif.Model Require Import Base Generator GenConc.
From Verif.Spec Require Import GenSpec GenConcSpec LeakSpec.
From Verif.Proofs Require Import BaseLemmas GenProofs GenConcProofs GenLive GenClose GenStuck.

Section X.
Context {D : Type} (c : genConf) (on : bool) (HC : conf_ok c).
Implicit Types s : state D.
Notation W := (c_workers c).

Lemma goroutines_cnt s : (goroutines s + cnt gone (s_workers s) =
  run_unfinished (s_run s) + next_unfinished (s_next s) + List.length (s_workers s))%nat.
Proof.
  unfold goroutines, run_unfinished, next_unfinished.
  assert (Q : forall l : list (wpc D), (List.length (filter (fun w => match w with WGone => false | _ => true end) l) +
     cnt gone l = List.length l)%nat).
  { induction l as [|w l IH]; [reflexivity|]. destruct w; cbn in *; lia. }
  specialize (Q (s_workers s)). destruct (s_run s), (s_next s); lia.
Qed.

Lemma gone_or (l : list (wpc D)) : (forall w, In w l -> w = WExitSend \/ w = WGone) ->
  (cnt gone l < List.length l)%nat -> In WExitSend l.
Proof.
  induction l as [|w l IH]; cbn; [lia|]. intros H L. destruct (H w (or_introl eq_refl)) as [->| ->]; [now left|].
  right. cbn in L. apply IH; [|lia]. intros w Hw. apply H. now right.
Qed.

(** *** Run has returned *)
Lemma returned_parts s : wg_inv s -> run_returned s ->
  cnt unfinished (s_workers s) = 0%nat /\ run_unfinished (s_run s) = 0%nat /\ next_unfinished (s_next s) = 0%nat.
Proof. unfold wg_inv, run_returned. intros H R. repeat split; lia. Qed.

Lemma send_moves s : cnt unfinished (s_workers s) = 0%nat -> (cnt gone (s_workers s) < List.length (s_workers s))%nat ->
  (s_waitCh s < W)%nat -> exists s', step c on LInt s s'.
Proof.
  intros U L Hw. apply (worker_moves c on s WExitSend).
  - apply gone_or; [exact (unfinished_all _ U)|exact L].
  - eexists _, _. apply wk_exit_send, Hw.
Qed.

(** *** few devices: one at most *)
Lemma few_left s : closed_inv c s -> (run_returned s /\ goroutines s <= 1)%nat \/ exists s', step c on LInt s s'.
Proof.
  intros I. destruct (Nat.eq_dec (s_wg s) 0) as [E|E].
  2:{ right. apply (closed_progress c on HC); [exact I|exact E]. }
  pose proof (ci_count _ _ I) as Q. pose proof (ci_len _ _ I) as L. pose proof (goroutines_cnt s) as G.
  destruct (returned_parts s (ci_wg _ _ I) E) as (U & Ur & Un).
  assert (Sl : (slack (s_run s) <= 1)%nat) by (destruct (s_run s); cbn; lia).
  destruct (Nat.leb_spec (goroutines s) 1) as [Hg|Hg]; [left; split; [exact E|exact Hg]|right].
  apply send_moves; [exact U| |]; lia.
Qed.

Lemma few_left_inv s n : closed_inv c s -> inevitable c on (fun s => run_returned s /\ goroutines s <= 1)%nat n s.
Proof.
  apply (iv_intro c on (closed_inv c) _ (meas c)). clear s n. intros s I.
  destruct (few_left s I) as [H|H]; [now left|right].
  split; [exact H|]. split; [intros l s' Hs; left; eapply closed_step; eauto|].
  intros s' Hs. eapply meas_int; [|exact Hs]. pose proof (ci_run _ _ I) as Q. unfold small_run in Q. destruct (s_run s); auto; contradiction.
Qed.

Lemma few_left_proof n s m : one_flush c n -> reachable_upto c on n s -> s_closed s = true ->
  inevitable c on (fun s => run_returned s /\ goroutines s <= 1)%nat m s.
Proof. intros Hn H Hc. destruct (upto_inv c on HC n s Hn H) as (_ & Q). rewrite Hc in Q. now apply few_left_inv. Qed.

(** *** between two ticks: none *)
Definition quiet_run (r : rpc) : Prop := match r with RSelect | RChk | RExit | RGone => True | _ => False end.
Record quiet s : Prop := {
  qi_closed : closed_inv c s;
  qi_run : quiet_run (s_run s);
  qi_slice : s_sliceCh s = [];
  qi_busy : cnt busyw (s_workers s) = 0%nat;
  qi_wait : s_waitCh s = cnt gone (s_workers s) }.

Lemma quiet_step l s s' : quiet s -> step c on l s s' -> quiet s'.
Proof.
  intros [I1 I2 I3 I4 I5] H. pose proof (closed_step c on _ _ _ I1 H) as I1'. pose proof (ci_closed _ _ I1) as Hc.
  inversion H as [i w w' s0 s1 Hi Hw|s0 s1 Hr|s0 s1 Hn|s0 Hr|s0|s0 l0 Hm]; subst.
  - pose proof (cnt_set busyw (s_workers s) w w' i Hi) as K. pose proof (cnt_set gone (s_workers s) w w' i Hi) as K'.
    constructor; auto.
    + destruct Hw; exact I2.
    + destruct Hw; cbn; auto. congruence.
    + destruct Hw; cbn in *; try congruence; lia.
    + destruct Hw; cbn in *; try congruence; lia.
  - remember (s_run s) as r eqn:Er in Hr. rewrite <- Er in I2. destruct Hr; try contradiction; try congruence; constructor; cbn; auto.
  - constructor; auto; destruct Hn; auto.
  - constructor; cbn; auto.
  - constructor; auto.
  - constructor; auto.
Qed.

Lemma quiet_left s : quiet s -> (run_returned s /\ goroutines s = 0)%nat \/ exists s', step c on LInt s s'.
Proof.
  intros Q. pose proof (qi_closed _ Q) as I. destruct (Nat.eq_dec (s_wg s) 0) as [E|E].
  2:{ right. apply (closed_progress c on HC); [exact I|exact E]. }
  pose proof (ci_len _ _ I) as L. pose proof (goroutines_cnt s) as G. pose proof (qi_wait _ Q) as Qw.
  destruct (returned_parts s (ci_wg _ _ I) E) as (U & Ur & Un).
  destruct (Nat.eq_dec (goroutines s) 0) as [Hg|Hg]; [left; split; [exact E|exact Hg]|right].
  apply send_moves; [exact U| |]; lia.
Qed.

Lemma quiet_inv s n : quiet s -> inevitable c on (fun s => run_returned s /\ goroutines s = 0)%nat n s.
Proof.
  apply (iv_intro c on quiet _ (meas c)). clear s n. intros s I.
  destruct (quiet_left s I) as [H|H]; [now left|right].
  split; [exact H|]. split; [intros l s' Hs; left; eapply quiet_step; eauto|].
  intros s' Hs. eapply meas_int; [|exact Hs]. pose proof (qi_run _ I) as Q. destruct (s_run s); auto; contradiction.
Qed.

Lemma idle_quiet s : reachable c on s -> s_closed s = false -> s_run s = RSelect -> quiet (set_closed s).
Proof.
  intros Hr Hc Er. pose proof (reachable_inv c on HC s Hr Hc) as I.
  destruct (idle c s I) as (J1 & J2 & J3); [now rewrite Er|].
  assert (K : forall (f : wpc D -> nat) (l : list (wpc D)), f WSelect = 0%nat -> (forall w, In w l -> w = WSelect) -> cnt f l = 0%nat).
  { intros f l Hf. induction l as [|w l IH]; intros H; [reflexivity|]. cbn. rewrite (H w (or_introl eq_refl)), Hf, IH; [reflexivity|].
    intros w0 H0. apply H. now right. }
  constructor.
  - apply (close_inv c on HC); auto. unfold small_run. now rewrite Er.
  - cbn. rewrite Er. exact Logic.I.
  - exact J1.
  - cbn. apply K; [reflexivity|exact J3].
  - cbn. rewrite J2. symmetry. apply K; [reflexivity|exact J3].
Qed.

Lemma idle_left_proof s n : reachable c on s -> s_closed s = false -> s_run s = RSelect ->
  inevitable c on (fun s => run_returned s /\ goroutines s = 0)%nat n (set_closed s).
Proof. intros Hr Hc Er. now apply quiet_inv, idle_quiet. Qed.

(** *** before Close: all of them *)
Lemma open_all_proof s : reachable c on s -> s_closed s = false -> goroutines s = (W + 2)%nat.
Proof.
  intros Hr Hc. pose proof (reachable_inv c on HC s Hr Hc) as I. pose proof (goroutines_cnt s) as G.
  pose proof (oi_len _ _ I) as L. pose proof (oi_live _ _ I) as A. pose proof (oi_next _ _ I) as N. pose proof (oi_bounds _ _ I) as B.
  assert (Z : cnt gone (s_workers s) = 0%nat).
  { destruct (cnt gone (s_workers s)) eqn:E; [reflexivity|]. destruct (cnt_pos gone (s_workers s)) as (w & Hw & Hg); [lia|].
    apply A in Hw. destruct w; cbn in *; try lia. }
  assert (run_unfinished (s_run s) = 1%nat) by (destruct (s_run s); cbn in *; try contradiction; reflexivity).
  assert (next_unfinished (s_next s) = 1%nat) by (destruct (s_next s); cbn in *; try contradiction; reflexivity). lia.
Qed.

(** *** after a tick: one *)
Ltac go H := destruct H as (p & nx & out & tk & ca & H).
Ltac done5 := do 5 eexists.
Ltac rstep H k := go H; done5; eapply from_step; [exact H|apply st_run; cbn; k].
Notation R := (@GenStuck.R D c on).

Lemma R_send1_open devs idx k wk n ch wait wg : (List.length ch < W)%nat ->
  R false devs idx (RSend1 k) wk n ch wait wg -> R false devs idx (RChk1 k) wk n (ch ++ [(0, idx)%nat]) wait wg.
Proof. intros L H. rstep H ltac:(apply rn_send1; exact L). Qed.

Lemma R_handle_zero devs idx r post n x ch wait wg : is_zero x = true ->
  R false devs idx r (WSelect :: post) n (x :: ch) wait wg -> R false devs idx r (WAck :: post) n ch wait wg.
Proof.
  intros Hx H.
  assert (H1 : R false devs idx r (WGot x :: post) n ch wait wg).
  { go H. done5. eapply from_step in H; [|eapply (st_work c on 0); [reflexivity|eapply wk_recv; reflexivity]]. exact H. }
  go H1. done5. eapply from_step in H1; [|eapply (st_work c on 0); [reflexivity|eapply wk_zero; [reflexivity|exact Hx]]]. exact H1.
Qed.

Lemma R_run_leave1 devs idx wk n ch wait wg :
  R true devs idx (RChk1 Final) wk n ch wait (S wg) -> R true devs idx RGone wk n ch wait wg.
Proof.
  intros H.
  assert (H1 : R true devs idx RReset wk n ch wait (S wg)) by
    rstep H ltac:(exact (rn_chk1_closed c (mkState _ _ _ _ _ _ _ _ _ _ _ _ _ _) Final eq_refl)).
  assert (H2 : R true devs idx RNotify wk n ch wait (S wg)) by rstep H1 ltac:(apply rn_reset).
  assert (H3 : R true devs idx RSelect wk n ch wait (S wg)) by rstep H2 ltac:(apply rn_notify).
  assert (H4 : R true devs idx RExit wk n ch wait (S wg)) by rstep H3 ltac:(apply rn_done; reflexivity).
  clear - H4. go H4. done5. eapply from_step in H4; [|apply st_run; cbn; apply rn_exit]. cbn in H4. rewrite Nat.sub_0_r in H4. exact H4.
Qed.

Lemma R_first_exits devs idx r post n ch wait wg :
  R true devs idx r (WSelect :: post) n ch wait (S wg) -> R true devs idx r (WExitSend :: post) n ch wait wg.
Proof.
  intros H. assert (H1 : R true devs idx r (WExit :: post) n ch wait (S wg)).
  { go H. done5. eapply from_step in H; [|eapply (st_work c on 0); [reflexivity|apply wk_done; reflexivity]]. exact H. }
  go H1. done5. eapply from_step in H1; [|eapply (st_work c on 0); [reflexivity|apply wk_exit]].
  cbn in H1. rewrite Nat.sub_0_r in H1. exact H1.
Qed.

Definition left_one s : Prop := s_run s = RGone /\ s_workers s = WExitSend :: repeat WGone (W - 1) /\ s_next s = NGone /\
  s_waitCh s = W /\ s_wg s = 0%nat.

Lemma left_one_step l s s' : left_one s -> step c on l s s' -> left_one s'.
Proof.
  intros (H1 & H2 & H3 & H4 & H5) H. inversion H as [i w w' s0 s1 Hi Hw|s0 s1 Hr|s0 s1 Hn|s0 Hr|s0|s0 l0 Hm]; subst.
  - rewrite H2 in Hi. apply nth_error_In in Hi as [Hi|Hi].
    + subst w. inversion Hw. lia.
    + apply repeat_spec in Hi. subst w. inversion Hw.
  - rewrite H1 in Hr. inversion Hr.
  - rewrite H3 in Hn. inversion Hn.
  - congruence.
  - repeat split; auto.
  - repeat split; auto.
Qed.

Lemma left_one_goroutines s : left_one s -> goroutines s = 1%nat.
Proof.
  intros (H1 & H2 & H3 & _). pose proof (goroutines_cnt s) as G. rewrite H1, H2, H3 in G. cbn in G.
  rewrite cnt_repeat, repeat_length in G. cbn in G. lia.
Qed.

Lemma left_one_reached (devs : list D) : one_flush c (List.length devs) ->
  exists s, from c on devs s /\ s_closed s = true /\ left_one s.
Proof.
  destruct HC as (HW & HP). intros (F1 & F2).
  pose proof (R_start c on devs) as H. apply R_clock, R_begin in H.
  apply (R_fill c on _ _ (List.length devs)) in H; [|lia|lia]. cbn [Nat.add] in H.
  apply R_filled in H; [|lia]. apply R_one in H; [|apply Nat.leb_le; lia].
  apply R_send1_open in H; [|cbn; lia]. cbn [app] in H.
  destruct (c_workers c) as [|w] eqn:EW; [lia|]. cbn [repeat] in H.
  assert (A : R false devs (List.length devs) (RChk1 Final) (WAck :: repeat WSelect w) NSelect [] 0 (S w + 2)).
  { destruct (is_zero (0, List.length devs)%nat) eqn:Z; [eapply R_handle_zero|eapply R_handle]; eassumption. }
  clear H. apply R_ack in A; [|lia]. apply R_close in A.
  change (WSelect :: repeat WSelect w) with ([WSelect] ++ repeat (@WSelect D) w) in A.
  replace (S w + 2)%nat with (w + 3)%nat in A by lia.
  apply (R_leave_all c on _ _ _ _ _ w [WSelect] 1 3) in A; [|lia].
  apply R_run_leave1, R_next_leave in A. cbn [app] in A. apply R_first_exits in A.
  go A. eexists. split; [exact A|]. split; [reflexivity|].
  unfold left_one. rewrite EW. cbn [s_run s_workers s_next s_waitCh s_wg]. replace (S w - 1)%nat with w by lia. repeat split; auto.
Qed.

Lemma left_one_proof (devs : list D) : one_flush c (List.length devs) ->
  exists ls s, steps c on ls (start c devs) s /\ s_closed s = true /\ run_returned s /\
    forall ls' s', steps c on ls' s s' -> goroutines s' = 1%nat.
Proof.
  intros HL. destruct (left_one_reached devs HL) as (s & (ls & H) & Hc & K). exists ls, s. split; [exact H|]. split; [exact Hc|].
  split; [exact (proj2 (proj2 (proj2 (proj2 K))))|].
  clear - K. intros ls' s' H. apply left_one_goroutines.
  induction H as [|l ls s1 s2 s3 H1 H2 IH]; auto. apply IH. eapply left_one_step; eauto.
Qed.
End X.
