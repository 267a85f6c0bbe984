(** C54: for every configuration there is a schedule in which Run never returns after Close. *)
From Coq Require Import Lia.
From Verif.Model Require Import Base Generator GenConc.
From Verif.Spec Require Import GenSpec GenConcSpec.
From Verif.Proofs Require Import BaseLemmas GenProofs GenConcProofs.

Section K.
Context {D : Type} (c : genConf) (on : bool) (HC : conf_ok c).
Implicit Types s : state D.
Notation W := (c_workers c).
Notation P := (c_packet c).

Definition from (devs : list D) s : Prop := exists ls, steps c on ls (start c devs) s.

Lemma from_step devs l s s' : from devs s -> step c on l s s' -> from devs s'.
Proof.
  intros (ls & H) Hs. exists (ls ++ [l]). revert H. generalize (start c devs) as s0.
  induction ls as [|l0 ls IH]; intros s0 H; inversion H; subst; cbn.
  - econstructor; [exact Hs|constructor].
  - econstructor; [eassumption|]. now apply IH.
Qed.

(** reachable, the parts that do not matter left open *)
Definition R cl (devs : list D) idx r wk n ch wait wg : Prop :=
  exists p nx out tk ca, from devs (mkState cl devs p idx r wk n ch wait nx wg out tk ca).

Ltac go H := destruct H as (p & nx & out & tk & ca & H).
Ltac done5 := do 5 eexists.
Ltac rstep H k := go H; done5; eapply from_step; [exact H|apply st_run; cbn; k].

Lemma R_start devs : R false devs 0 RSelect (repeat WSelect W) NSelect [] 0 (W + 2).
Proof. done5. exists []. constructor. Qed.

Lemma R_clock cl devs idx wk n ch wait wg : R cl devs idx RSelect wk n ch wait wg -> R cl devs idx RChk wk n ch wait wg.
Proof. intros H. go H. done5. eapply from_step; [exact H|]. apply st_clock. reflexivity. Qed.

Lemma R_begin devs idx wk n ch wait wg : R false devs idx RChk wk n ch wait wg -> R false devs 0 (RFill 0) wk n ch wait wg.
Proof. intros H. rstep H ltac:(apply rn_chk_open; reflexivity). Qed.

Lemma R_close cl devs idx r wk n ch wait wg : R cl devs idx r wk n ch wait wg -> R true devs idx r wk n ch wait wg.
Proof. intros H. go H. done5. eapply from_step; [exact H|]. apply st_close. Qed.

Lemma R_fill cl devs k : forall idx i wk n ch wait wg, (i + k <= List.length devs)%nat -> (idx + k < P)%nat ->
  R cl devs idx (RFill i) wk n ch wait wg -> R cl devs (idx + k) (RFill (i + k)) wk n ch wait wg.
Proof.
  induction k as [|k IH]; intros idx i wk n ch wait wg H1 H2 H.
  - now rewrite !Nat.add_0_r.
  - replace (idx + S k)%nat with (S idx + k)%nat by lia. replace (i + S k)%nat with (S i + k)%nat by lia.
    apply IH; [lia|lia|]. destruct (nth_error devs i) as [d|] eqn:E; [|apply nth_error_None in E; lia].
    rstep H ltac:(eapply rn_store; cbn; [exact E|apply Nat.eqb_neq; lia]).
Qed.

Lemma R_full cl devs idx i wk n ch wait wg : (i < List.length devs)%nat -> (idx + 1 = P)%nat ->
  R cl devs idx (RFill i) wk n ch wait wg -> R cl devs idx (RFlush (Mid i)) wk n ch wait wg.
Proof.
  intros H1 H2 H. destruct (nth_error devs i) as [d|] eqn:E; [|apply nth_error_None in E; lia].
  rstep H ltac:(eapply rn_store_full; cbn; [exact E|apply Nat.eqb_eq; lia]).
Qed.

Lemma R_filled cl devs idx i wk n ch wait wg : (List.length devs <= i)%nat ->
  R cl devs idx (RFill i) wk n ch wait wg -> R cl devs idx (RFlush Final) wk n ch wait wg.
Proof. intros H1 H. apply nth_error_None in H1. rstep H ltac:(apply rn_stored; exact H1). Qed.

(** *** a flush of one slice after Close *)
Lemma R_one cl devs idx k wk n ch wait wg : one_slice c idx = true ->
  R cl devs idx (RFlush k) wk n ch wait wg -> R cl devs idx (RSend1 k) wk n ch wait wg.
Proof. intros E H. rstep H ltac:(apply rn_one; exact E). Qed.

Lemma R_send1 devs idx i wk n ch wait wg : (List.length ch < W)%nat ->
  R true devs idx (RSend1 (Mid i)) wk n ch wait wg ->
  R true devs 0 (RFill (S i)) wk n (ch ++ [(0, idx)%nat]) wait wg.
Proof.
  intros L H.
  assert (H1 : R true devs idx (RChk1 (Mid i)) wk n (ch ++ [(0, idx)%nat]) wait wg) by rstep H ltac:(apply rn_send1; exact L).
  clear H. rstep H1 ltac:(exact (rn_chk1_closed c (mkState _ _ _ _ _ _ _ _ _ _ _ _ _ _) (Mid i) eq_refl)).
Qed.

(** *** workers leave *)
Lemma R_leave devs idx r pre post n ch wait wg : (wait < W)%nat ->
  R true devs idx r (pre ++ WSelect :: post) n ch wait (S wg) -> R true devs idx r (pre ++ WGone :: post) n ch (S wait) wg.
Proof.
  intros L H.
  assert (N : forall w, nth_error (pre ++ w :: post) (List.length pre) = Some w) by (intros w; rewrite nth_error_app2, Nat.sub_diag by lia; reflexivity).
  assert (H1 : R true devs idx r (pre ++ WExit :: post) n ch wait (S wg)).
  { go H. done5. eapply from_step in H; [|eapply (st_work c on (List.length pre)); [cbn; apply N|apply wk_done; reflexivity]].
    cbn in H. rewrite set_nth_app in H. exact H. }
  assert (H2 : R true devs idx r (pre ++ WExitSend :: post) n ch wait wg).
  { go H1. done5. eapply from_step in H1; [|eapply (st_work c on (List.length pre)); [cbn; apply N|apply wk_exit]].
    cbn in H1. rewrite set_nth_app, Nat.sub_0_r in H1. exact H1. }
  go H2. done5. eapply from_step in H2; [|eapply (st_work c on (List.length pre)); [cbn; apply N|apply wk_exit_send; exact L]].
  cbn in H2. rewrite set_nth_app in H2. exact H2.
Qed.

Lemma repeat_app_cons {A} (x : A) n l : repeat x n ++ x :: l = repeat x (S n) ++ l.
Proof. induction n; cbn; [reflexivity|]. now rewrite IHn. Qed.

Lemma R_leave_all devs idx r n ch k : forall pre wait wg, (wait + k <= W)%nat ->
  R true devs idx r (pre ++ repeat WSelect k) n ch wait (k + wg) ->
  R true devs idx r (pre ++ repeat WGone k) n ch (wait + k) wg.
Proof.
  induction k as [|k IH]; intros pre wait wg L H; cbn in H.
  - now rewrite Nat.add_0_r.
  - apply R_leave in H; [|lia]. cbn. replace (pre ++ WGone :: repeat WGone k) with ((pre ++ [WGone]) ++ repeat (@WGone D) k) by (rewrite <- app_assoc; reflexivity).
    replace (wait + S k)%nat with (S wait + k)%nat by lia. apply IH; [lia|].
    rewrite <- app_assoc. exact H.
Qed.

Lemma R_next_leave devs idx r wk ch wait wg :
  R true devs idx r wk NSelect ch wait (S wg) -> R true devs idx r wk NGone ch wait wg.
Proof.
  intros H. assert (H1 : R true devs idx r wk NExit ch wait (S wg)).
  { go H. done5. eapply from_step; [exact H|]. apply st_next. cbn. apply nx_done. reflexivity. }
  clear H. go H1. done5. eapply from_step in H1; [|apply st_next; cbn; apply nx_exit]. cbn in H1. rewrite Nat.sub_0_r in H1. exact H1.
Qed.

(** ** (b) only single slices: more than [W] flushes in one tick *)

Lemma R_mids devs wk n wait wg k : forall i ch, (i + k * P <= List.length devs)%nat -> (List.length ch + k <= W)%nat ->
  (forall idx, idx < P -> one_slice c idx = true)%nat ->
  R true devs 0 (RFill i) wk n ch wait wg ->
  exists ch', List.length ch' = (List.length ch + k)%nat /\ R true devs 0 (RFill (i + k * P)) wk n ch' wait wg.
Proof.
  destruct HC as (HW & HP).
  induction k as [|k IH]; intros i ch H1 H2 Hs H.
  - exists ch. split; [lia|]. now rewrite Nat.add_0_r.
  - apply (R_fill _ _ (P - 1)) in H; [|cbn in H1; lia|lia]. cbn [Nat.add] in H.
    apply R_full in H; [|cbn in H1; lia|lia]. apply R_one in H; [|apply Hs; lia]. apply R_send1 in H; [|lia].
    destruct (IH (S (i + (P - 1))) (ch ++ [(0, P - 1)%nat])) as (ch' & L & Q).
    + cbn in H1. lia.
    + rewrite app_length. cbn. lia.
    + exact Hs.
    + exact H.
    + exists ch'. rewrite app_length in L. cbn in L. split; [lia|].
      replace (i + S k * P)%nat with (S (i + (P - 1)) + k * P)%nat by (cbn; lia). exact Q.
Qed.

Definition stuck_b s : Prop := s_run s = RSend1 Final /\ s_workers s = repeat WGone W /\ s_next s = NGone /\
  List.length (s_sliceCh s) = W /\ s_wg s = 1%nat.

Lemma stuck_b_step l s s' : stuck_b s -> step c on l s s' -> stuck_b s'.
Proof.
  intros (H1 & H2 & H3 & H4 & H5) H. inversion H as [i w w' s0 s1 Hi Hw|s0 s1 Hr|s0 s1 Hn|s0 Hr|s0|s0 l0 Hm]; subst.
  - rewrite H2 in Hi. apply nth_error_In, repeat_spec in Hi. subst w. inversion Hw.
  - rewrite H1 in Hr. inversion Hr. lia.
  - rewrite H3 in Hn. inversion Hn.
  - congruence.
  - repeat split; auto.
  - repeat split; auto.
Qed.

(** ** (a) several slices: one worker handles two of them *)

Lemma R_many devs idx k wk n ch wait wg : one_slice c idx = false ->
  R false devs idx (RFlush k) wk n ch wait wg -> R false devs idx (RLoopS k 0) wk n ch wait wg.
Proof. intros E H. rstep H ltac:(apply rn_many; exact E). Qed.

Lemma R_sends devs idx k wk n wait wg m : forall j ch, (List.length ch + m <= W)%nat -> (j + m = W)%nat ->
  R false devs idx (RLoopS k j) wk n ch wait wg ->
  R false devs idx (RLoopS k W) wk n (ch ++ map (slice_no c idx) (seq j m)) wait wg.
Proof.
  induction m as [|m IH]; intros j ch H1 H2 H.
  - cbn. rewrite app_nil_r. replace W with j by lia. exact H.
  - assert (Hj : (j <? W)%nat = true) by (apply Nat.ltb_lt; lia).
    assert (Q : R false devs idx (RSendN k j) wk n ch wait wg) by rstep H ltac:(apply rn_loops_open; [exact Hj|reflexivity]).
    assert (Q1 : R false devs idx (RLoopS k (S j)) wk n (ch ++ [slice_no c idx j]) wait wg) by (clear H; rstep Q ltac:(apply rn_sendn; cbn; lia)).
    apply IH in Q1; [|rewrite app_length; cbn; lia|lia]. rewrite <- app_assoc in Q1. exact Q1.
Qed.

Lemma R_sent devs idx k wk n ch wait wg : R false devs idx (RLoopS k W) wk n ch wait wg -> R false devs idx (RLoopR k 0) wk n ch wait wg.
Proof. intros H. rstep H ltac:(apply rn_loops_end; apply Nat.ltb_ge; lia). Qed.

(** the first worker up to the acknowledgement *)
Lemma R_handle devs idx r post n x ch wait wg : is_zero x = false ->
  R false devs idx r (WSelect :: post) n (x :: ch) wait wg -> R false devs idx r (WAck :: post) n ch wait wg.
Proof.
  intros Hx H.
  assert (H1 : R false devs idx r (WGot x :: post) n ch wait wg).
  { go H. done5. eapply from_step in H; [|eapply (st_work c on 0); [reflexivity|eapply wk_recv; reflexivity]]. exact H. }
  assert (H2 : R false devs idx r (WMarshal x :: post) n ch wait wg).
  { go H1. done5. eapply from_step in H1; [|eapply (st_work c on 0); [reflexivity|eapply wk_open; [reflexivity|exact Hx]]]. exact H1. }
  assert (H3 : exists q, R false devs idx r (WCall q :: post) n ch wait wg).
  { go H2. eexists. done5. eapply from_step in H2; [|eapply (st_work c on 0); [reflexivity|eapply wk_marshal]]. exact H2. }
  destruct H3 as (q & H3).
  assert (H4 : R false devs idx r (WChk :: post) n ch wait wg).
  { go H3. done5. eapply from_step in H3; [|eapply (st_work c on 0); [reflexivity|eapply wk_call]]. exact H3. }
  go H4. done5. eapply from_step in H4; [|eapply (st_work c on 0); [reflexivity|eapply wk_chk_open; reflexivity]]. exact H4.
Qed.

Lemma R_ack devs idx r post n ch wait wg : (wait < W)%nat ->
  R false devs idx r (WAck :: post) n ch wait wg -> R false devs idx r (WSelect :: post) n ch (S wait) wg.
Proof.
  intros L H. go H. done5. eapply from_step in H; [|eapply (st_work c on 0); [reflexivity|eapply wk_ack; exact L]]. exact H.
Qed.

(** the run loop leaves *)
Lemma R_run_leave devs idx wk n ch wait wg :
  R true devs idx (RLoopR Final 0) wk n ch wait (S wg) -> R true devs idx RGone wk n ch wait wg.
Proof.
  intros H. destruct HC as (HW & _). assert (H0 : (0 <? W)%nat = true) by (apply Nat.ltb_lt; lia).
  assert (H1 : R true devs idx RReset wk n ch wait (S wg)) by
    rstep H ltac:(exact (rn_loopr_closed c (mkState _ _ _ _ _ _ _ _ _ _ _ _ _ _) Final 0 H0 eq_refl)).
  assert (H2 : R true devs idx RNotify wk n ch wait (S wg)) by rstep H1 ltac:(apply rn_reset).
  assert (H3 : R true devs idx RSelect wk n ch wait (S wg)) by rstep H2 ltac:(apply rn_notify).
  assert (H4 : R true devs idx RExit wk n ch wait (S wg)) by rstep H3 ltac:(apply rn_done; reflexivity).
  clear - H4. go H4. done5. eapply from_step in H4; [|apply st_run; cbn; apply rn_exit]. cbn in H4. rewrite Nat.sub_0_r in H4. exact H4.
Qed.

Definition stuck_a s : Prop := s_run s = RGone /\ s_workers s = WAck :: repeat WGone (W - 1) /\ s_next s = NGone /\
  s_waitCh s = W /\ s_wg s = 1%nat.

Lemma stuck_a_step l s s' : stuck_a s -> step c on l s s' -> stuck_a s'.
Proof.
  intros (H1 & H2 & H3 & H4 & H5) H. inversion H as [i w w' s0 s1 Hi Hw|s0 s1 Hr|s0 s1 Hn|s0 Hr|s0|s0 l0 Hm]; subst.
  - rewrite H2 in Hi. apply nth_error_In in Hi as [Hi|Hi].
    + subst w. inversion Hw. lia.
    + apply repeat_spec in Hi. subst w. inversion Hw.
  - rewrite H1 in Hr. inversion Hr.
  - rewrite H3 in Hn. inversion Hn.
  - congruence.
  - repeat split; auto.
  - repeat split; auto.
Qed.

(** how many devices it takes *)
Definition enough : nat := if (P - 1 <=? W + c_workerSize c)%nat then W * P else W + c_workerSize c + 1.

Lemma stuck_reached (devs : list D) : c_workerSize c = (P / W)%nat -> List.length devs = enough ->
  exists s, from devs s /\ s_closed s = true /\ (stuck_a s \/ stuck_b s).
Proof.
  destruct HC as (HW & HP). intros HS HL. unfold enough in HL. destruct (Nat.leb_spec (P - 1) (W + c_workerSize c)) as [Hb|Ha].
  - pose proof (R_start devs) as H. apply R_clock, R_begin, R_close in H.
    apply (R_leave_all _ _ _ _ _ W [] 0 2) in H; [|lia]. cbn [app Nat.add] in H.
    apply R_next_leave in H.
    assert (One : forall idx, (idx < P)%nat -> one_slice c idx = true) by (intros idx L; apply Nat.leb_le; lia).
    destruct (R_mids devs _ _ _ _ W 0 [] ltac:(lia) ltac:(cbn; lia) One H) as (ch & L & Q).
    apply R_filled in Q; [|lia]. apply R_one in Q; [|reflexivity].
    go Q. eexists. split; [exact Q|]. split; [reflexivity|]. right. repeat split; auto.
  - assert (W2 : (2 <= W)%nat).
    { destruct (Nat.ltb_spec 1 W); [lia|exfalso]. assert (EW : W = 1%nat) by lia. rewrite EW, Nat.div_1_r in HS. lia. }
    pose proof (R_start devs) as H. apply R_clock, R_begin in H.
    apply (R_fill _ _ (W + c_workerSize c + 1)) in H; [|lia|lia]. cbn [Nat.add] in H.
    set (idx := (W + c_workerSize c + 1)%nat) in *.
    apply R_filled in H; [|lia]. apply R_many in H; [|apply Nat.leb_gt; lia].
    apply (R_sends _ _ _ _ _ _ _ W 0) in H; [|cbn; lia|lia]. apply R_sent in H. cbn [app] in H.
    assert (St : (1 <= idx / W)%nat) by (apply Nat.div_le_lower_bound; lia).
    assert (Nz : forall j, is_zero (slice_no c idx j) = false).
    { intros j. unfold is_zero, slice_no. cbn [fst snd]. apply andb_false_iff. right. apply Nat.eqb_neq. lia. }
    destruct (c_workers c) as [|[|w]] eqn:EW; [lia|lia|]. cbn [seq map repeat] in H.
    apply R_handle in H; [|apply Nz]. apply R_ack in H; [|lia]. apply R_handle in H; [|apply Nz].
    apply R_close in H.
    change (WAck :: WSelect :: repeat WSelect w) with ([WAck] ++ repeat (@WSelect D) (S w)) in H.
    replace (S (S w) + 2)%nat with (S w + 3)%nat in H by lia.
    apply (R_leave_all _ _ _ _ _ (S w) [WAck] 1 3) in H; [|lia].
    apply R_run_leave, R_next_leave in H. go H. eexists. split; [exact H|]. split; [reflexivity|]. left.
    unfold stuck_a. rewrite EW. repeat split; auto.
Qed.

Lemma C54_refuted_proof (devs : list D) : c_workerSize c = (P / W)%nat -> List.length devs = enough ->
  exists ls s, steps c on ls (start c devs) s /\ s_closed s = true /\
    forall ls' s', steps c on ls' s s' -> ~ run_returned s'.
Proof.
  intros HS HL. destruct (stuck_reached devs HS HL) as (s & (ls & H) & Hc & K). exists ls, s. split; [exact H|]. split; [exact Hc|].
  clear - K. intros ls' s' H.
  assert (K' : stuck_a s' \/ stuck_b s').
  { induction H as [|l ls s1 s2 s3 H1 H2 IH]; auto. apply IH. destruct K as [K|K]; [left; eapply stuck_a_step; eauto|right; eapply stuck_b_step; eauto]. }
  unfold run_returned. destruct K' as [K'|K']; destruct K' as (_ & _ & _ & _ & E); rewrite E; discriminate.
Qed.
End K.
