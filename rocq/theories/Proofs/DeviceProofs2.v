(** C42-C46 and the navigator calls behind a device history. *)
From Coq Require Import Lia.
From Verif.Model Require Import Base Num Geo Curve PropMap Types Pb TypesSnap Track Route Navigator Device.
From Verif.Spec Require Import ListSpec TrackSpec RouteSpec NavSpec NumLaws TypesSpec DeviceSpec.
From Verif.Proofs Require Import BaseLemmas NavLemmas NavSteps NavProofs NavProofs2 NavProofs3 NavReal6 DeviceLemmas DeviceProofs.
Open Scope num_scope.

Section D.
Context {T : Type} {N : Num T} {J : JsonLib T} {U : UtmLib T}.
Implicit Types (d : device T) (n : navigator T).

Lemma C42_proof d tick x : n_routes (d_nav d) = [] -> Next d true tick x = Ret (false, d).
Proof. intros H. unfold Next, Next_locked. now rewrite H. Qed.

(** ** time *)

Lemma updateRoutes_inv d d' : updateRoutes d = Ret d' ->
  d_status d' = d_status d /\ d_speed d' = d_speed d /\ d_battery d' = d_battery d /\ d_sensors d' = d_sensors d /\
  d_tick d' = d_tick d /\
  d_state d' = st_routes (d_state d) (Some (mkPbDRoutes (map droute_of (n_routes (d_nav d))))) /\
  d_nav d' = set_routes (d_nav d) (map touch_props (n_routes (d_nav d))) /\
  d_ns d' = nav_Sum (d_nav d') /\
  d_avgT d' = n_dist (d_nav d) / ((sp_min (d_speed d) + sp_max (d_speed d)) / fofZ 2).
Proof.
  unfold updateRoutes. destruct (pde_routes (d_state d)); [|discriminate]. cbn [deref bind].
  intros [= <-]. repeat split.
Qed.

Lemma Next_time d tick x b d' : n_routes (d_nav d) <> [] -> Next d true tick x = Ret (b, d') ->
  owed d' = 0%Z /\ last_tick d' = amount d tick /\ pde_speed (d_state d') = speed_Value (d_speed d') /\
  ((~ completes_journey d tick x (pde_speed (d_state d')) /\ duration d' = duration d + amount d tick) \/
   (completes_journey d tick x (pde_speed (d_state d')) /\ b = false /\ duration d' = f0)).
Proof.
  intros Hne E. unfold Next in E. apply Next_locked_inv in E; [|exact Hne]. destruct E as (d3 & t & NB & St).
  destruct NB as [B1 B2 B3 B4 B5 B6 B7].
  assert (Esp : pde_speed (d_state d3) = speed_Value (d_speed d3)) by (rewrite B7; reflexivity).
  assert (E1 : pde_tick (d_state d3) = amount d tick) by (rewrite B7; reflexivity).
  assert (E2 : pde_duration (d_state d3) = duration d + amount d tick) by (rewrite B7; reflexivity).
  inversion St as [n2 n3 S1 S2 Eb Ed|n2 n3 n4 d4 d5 S1 S2 S3 S4 S5 S6 S7 S8 S9 Eb Ed|n2 n3 ss d4 d5 d6 S1 S2 S3 S4 S5 S6 Eb Ed]; subst.
  - cbn. repeat split; auto. left. split; [|exact E2].
    intros (m1 & m2 & M1 & M2 & M3). unfold nav_asked, drains, amount, owed in M1.
    rewrite M1 in B4. injection B4 as ->. unfold amount, owed in M2. rewrite Esp, S1 in M2. injection M2 as <-.
    rewrite S2 in M3. discriminate.
  - apply updateState_inv in S9. pose proof (rf_same _ _ S9) as Q. pose proof (rf_ident _ _ S9) as I. unfold ident in I.
    injection I as _ _ I1 I2 _ I3 _ _ _. rewrite S8 in I1, I2, I3. cbn in I1, I2, I3.
    injection S7 as _ _ _ S7 _.
    assert (Hv : speed_Value (d_speed d') = speed_Value (d_speed d3)).
    { rewrite Q. cbn. rewrite S6. reflexivity. }
    unfold owed, last_tick, duration. rewrite I1, I2, I3, Hv. split; [rewrite Q; cbn; congruence|].
    split; [exact E1|]. split; [exact Esp|]. right. split; [|auto].
    exists (d_nav d3), n2. rewrite Esp. split; [exact B4|]. split; [exact S1|]. now rewrite S2.
  - apply updateState_inv in S6. pose proof (rf_same _ _ S6) as Q. pose proof (rf_ident _ _ S6) as I. unfold ident in I.
    injection I as _ _ I1 I2 _ I3 _ _ _.
    assert (D5 : d_tick d5 = d_tick d3 /\ d_speed d5 = d_speed d3 /\ pde_tick (d_state d5) = pde_tick (d_state d3) /\
      pde_duration (d_state d5) = pde_duration (d_state d3) /\ pde_speed (d_state d5) = pde_speed (d_state d3)).
    { destruct S5 as [[-> _]|[_ S5]]; [repeat split|]. apply updateRoutes_inv in S5.
      destruct S5 as (_ & R1 & _ & _ & R2 & R3 & _). rewrite R1, R2, R3. repeat split. }
    destruct D5 as (D1 & D2 & D3 & D4 & D5).
    assert (Hv : speed_Value (d_speed d') = speed_Value (d_speed d3)).
    { rewrite Q. cbn. now rewrite D2. }
    unfold owed, last_tick, duration. rewrite I1, I2, I3, D3, D4, D5, Hv. split; [rewrite Q; cbn; congruence|].
    split; [exact E1|]. split; [exact Esp|]. left. split; [|exact E2].
    intros (m1 & m2 & M1 & M2 & M3). unfold nav_asked, drains, amount, owed in M1.
    rewrite M1 in B4. injection B4 as ->. unfold amount, owed in M2. rewrite Esp, S1 in M2. discriminate.
Qed.

Lemma other_time d o d' : not_next o -> run_dev d o = Ret d' ->
  duration d' = duration d /\ last_tick d' = last_tick d /\ owed d' = owed d /\
  pde_speed (d_state d') = pde_speed (d_state d) /\ d_speed d' = d_speed d /\ d_battery d' = d_battery d.
Proof.
  assert (UR : forall d d', updateRoutes d = Ret d' ->
    duration d' = duration d /\ last_tick d' = last_tick d /\ owed d' = owed d /\
    pde_speed (d_state d') = pde_speed (d_state d) /\ d_speed d' = d_speed d /\ d_battery d' = d_battery d).
  { intros e e' H. apply updateRoutes_inv in H. destruct H as (_ & H1 & H2 & _ & H3 & H4 & _).
    unfold duration, last_tick, owed. rewrite H1, H2, H3, H4. repeat split. }
  intros Hn E. destruct o; cbn [run_dev not_next] in *; try contradiction;
    try (injection E as <-; unfold duration, last_tick, owed; repeat split; fail).
  - injection E as <-. unfold SetModel. destruct (NewModel m); repeat split.
  - injection E as <-. unfold SetColor. destruct hex; repeat split.
  - injection E as <-. unfold AddSensor. destruct (add_sensors _ _ _) as [l' ok]. destruct (0 <? ok)%Z; repeat split.
  - injection E as <-. unfold RemoveSensor. destruct (_ =? _)%Z; [repeat split|]. destruct (find_index _ _); repeat split.
  - destruct (nth_error _ _); [|injection E as <-; repeat split].
    destruct (run_sensor1 _ _); try discriminate. injection E as <-. repeat split.
  - unfold AddRoute in E. destruct (nav_AddRoute _ _) as [[e|] n].
    + injection E as <-. repeat split.
    + destruct (updateRoutes _) as [d1| |] eqn:F; cbn in E; try discriminate. injection E as <-. apply UR in F. exact F.
  - unfold RemoveRoute in E. destruct (nav_RemoveRoute _ _) as [[] n].
    + destruct (updateRoutes _) as [d1| |] eqn:F; cbn in E; try discriminate. injection E as <-. apply UR in F. exact F.
    + injection E as <-. repeat split.
  - unfold RemoveTrack in E. destruct (nav_RemoveTrack _ _ _) as [[] n].
    + destruct (updateRoutes _) as [d1| |] eqn:F; cbn in E; try discriminate. injection E as <-. apply UR in F. exact F.
    + injection E as <-. repeat split.
  - unfold ResetRoutes in E. destruct (nav_ResetRoutes _) as [[] n].
    + destruct (updateRoutes _) as [d1| |] eqn:F; cbn in E; try discriminate. injection E as <-. apply UR in F. exact F.
    + injection E as <-. repeat split.
  - injection E as <-. unfold device_move. destruct (NextRoute _); repeat split.
  - injection E as <-. unfold device_move. destruct (PrevRoute _); repeat split.
  - injection E as <-. unfold device_move. destruct (MoveToRouteByID _ _); repeat split.
  - injection E as <-. unfold device_move. destruct (MoveToTrackByID _ _ _); repeat split.
  - injection E as <-. unfold device_move. destruct (MoveToRoute _ _); repeat split.
  - injection E as <-. unfold device_move. destruct (MoveToTrack _ _ _); repeat split.
  - injection E as <-. unfold device_move. destruct (MoveToSegment _ _ _ _); repeat split.
  - injection E as <-. unfold device_move. destruct (DestinationTo _ _); repeat split.
  - unfold device_ToOffline in E. destruct (ToOffline _ _); try discriminate. injection E as <-. repeat split.
  - injection E as <-. unfold device_IsFinish. destruct (IsFinish _); repeat split.
  - unfold device_Update in E. destruct (updateState d) as [d1| |] eqn:F; cbn [bind] in E; try discriminate.
    destruct (updateRoutes d1) as [d2| |] eqn:G; cbn [bind] in E; try discriminate. injection E as <-.
    apply UR in G. apply updateState_inv in F. pose proof (rf_same _ _ F) as Q. pose proof (rf_ident _ _ F) as I.
    unfold ident in I. injection I as _ _ I1 I2 _ I3 _ _ _.
    destruct G as (G1 & G2 & G3 & G4 & G5 & G6). unfold duration, last_tick, owed in *. cbn.
    rewrite G1, G2, G3, G4, G5, G6, I1, I2, I3, Q. repeat split.
  - injection E as <-. unfold mount. destruct (_ =? _)%Z; repeat split.
  - injection E as <-. unfold unmount. destruct (_ =? _)%Z; repeat split.
  - destruct (run_nav _ _) as [q| |]; cbn [bind] in E; try discriminate.
    destruct (device_Snapshot d) as [q'| |]; cbn [bind] in E; try discriminate. injection E as <-. repeat split.
Qed.

Lemma run_devs_app ops1 : forall ops2 d, run_devs d (ops1 ++ ops2) = let* d1 := run_devs d ops1 in run_devs d1 ops2.
Proof.
  induction ops1 as [|o ops1 IH]; intros ops2 d; cbn; [reflexivity|].
  destruct (run_dev d o); cbn; auto.
Qed.

Lemma C43_proof d0 ops d : duration d0 = f0 -> owed d0 = 0%Z -> run_devs d0 ops = Ret d ->
  exists l k, since_completion d0 ops l k d /\ duration d = fold_left (fun a s => a + s) l f0 /\ owed d = k.
Proof.
  intros H0 H1. revert d. induction ops as [|o ops IH] using rev_ind; intros d E.
  - injection E as <-. exists [], 0%Z. split; [constructor|]. auto.
  - rewrite run_devs_app in E. destruct (run_devs d0 ops) as [d1| |] eqn:F; cbn in E; try discriminate.
    destruct (run_dev d1 o) as [d2| |] eqn:G; cbn in E; try discriminate. injection E as <-.
    destruct (IH d1 eq_refl) as (l & k & S1 & S2 & S3).
    assert (Dec : not_next o \/ exists free s x, o = DNext free s x) by (destruct o; cbn; eauto).
    destruct Dec as [Hn|(free & s & x & ->)].
    + destruct (other_time _ _ _ Hn G) as (A1 & A2 & A3 & _). exists l, k.
      split; [econstructor 2; eauto|]. now rewrite A1, A3.
    + destruct free.
      * assert (Dr : n_routes (d_nav d1) = [] \/ n_routes (d_nav d1) <> []) by (destruct (n_routes (d_nav d1)); [left|right]; congruence).
        destruct Dr as [Dr|Dr].
        { pose proof G as G'. cbn [run_dev] in G'. rewrite C42_proof in G' by assumption. cbn in G'. injection G' as <-.
          exists l, k. split; [econstructor 4; eauto|]. auto. }
        { pose proof G as G'. cbn [run_dev] in G'. destruct (Next d1 true s x) as [[b d']| |] eqn:K; cbn in G'; try discriminate.
          injection G' as ->. destruct (Next_time _ _ _ _ _ Dr K) as (T1 & T2 & _ & [[T3 T4]|(T3 & T4 & T5)]).
          - exists (l ++ [fofZ k + s]), 0%Z. split; [econstructor 5; eauto|]. split; [|exact T1].
            rewrite fold_left_app. cbn. rewrite <- S2, T4. unfold amount. now rewrite S3.
          - exists [], 0%Z. split; [econstructor 6; eauto|]. split; [exact T5|exact T1]. }
      * pose proof G as G'. cbn in G'. injection G' as <-. exists l, ((k + 1) mod 2 ^ 32)%Z.
        split; [econstructor 3; eauto|]. split; [exact S2|]. unfold owed in *. cbn [Next_contended dset_tick d_tick]. now rewrite S3.
Qed.

Lemma built_time opts x d : built opts x d -> duration d = f0 /\ owed d = 0%Z.
Proof.
  intros H. apply built_inv in H. destruct H as (o & nav & sp & b & st & o' & -> & _ & _ & _ & _ & E).
  unfold duration, owed. cbn. split; [|reflexivity]. unfold applyFor in E.
  destruct (if (0 <? slen (do_model o))%Z then NewModel _ else _) as [m|]; [|discriminate].
  match type of E with context [match ?q with GErr _ => _ | GOk _ => _ end] => destruct q as [c|]; [|discriminate] end.
  injection E as <- _. reflexivity.
Qed.

(** ** navigator calls *)

Lemma quiet_calls o los : Forall quiet los -> Forall (calls o) los.
Proof. apply Forall_impl. intros lo H. now left. Qed.

Lemma one_call d o lo n' : run_nav (d_nav d) lo = Ret n' -> calls o lo ->
  exists los, Forall (calls o) los /\ run_navs (d_nav d) los = Ret n'.
Proof. intros E H. exists [lo]. split; [constructor; auto|]. cbn. rewrite E. reflexivity. Qed.

Lemma then_routes d n o lo d' : run_nav (d_nav d) lo = Ret n -> calls o lo -> updateRoutes (dset_nav d n) = Ret d' ->
  exists los, Forall (calls o) los /\ run_navs (d_nav d) los = Ret (d_nav d').
Proof.
  intros E H F. apply updateRoutes_nav in F. destruct F as (los & L1 & L2). cbn [d_nav dset_nav] in L2.
  exists (lo :: los). split; [constructor; [exact H|now apply quiet_calls]|]. cbn. rewrite E. exact L2.
Qed.

Lemma IsFinish_call n b n' : IsFinish n = (b, n') -> run_nav n NIsFinish = Ret n'.
Proof. intros E. cbn. now rewrite E. Qed.

Lemma next_trace d tick x b d' : Next_locked d tick x = Ret (b, d') ->
  exists los, Forall (calls (DNext true tick x)) los /\ run_navs (d_nav d) los = Ret (d_nav d').
Proof.
  intros E. destruct (n_routes (d_nav d)) eqn:Er.
  { unfold Next_locked in E. rewrite Er in E. injection E as <- <-. exists []. split; [constructor|reflexivity]. }
  apply Next_locked_inv in E; [|congruence]. clear Er. destruct E as (d3 & t & NB & St).
  assert (P : exists los, Forall (calls (DNext true tick x)) los /\ run_navs (d_nav d) los = Ret (d_nav d3)).
  { pose proof (nb_nav _ _ _ _ _ NB) as E. destruct (battery_IsLow _).
    - apply (one_call d _ (NToOffline (xd_low x))); [exact E|right; cbn; auto].
    - injection E as ->. exists []. split; [constructor|reflexivity]. }
  destruct P as (l1 & A1 & A2).
  assert (G : exists los, Forall (calls (DNext true tick x)) los /\ run_navs (d_nav d3) los = Ret (d_nav d')).
  { inversion St as [n2 n3 S1 S2 Eb Ed|n2 n3 n4 d4 d5 S1 S2 S3 S4 S5 S6 S7 S8 S9 Eb Ed|n2 n3 ss d4 d5 d6 S1 S2 S3 S4 S5 S6 Eb Ed]; subst.
    - eexists [NNextLocation _ _ _; NIsFinish]. split.
      + constructor; [right; right; right; right; right; eauto|]. constructor; [right; right; left; auto|constructor].
      + cbn [run_navs run_nav]. rewrite S1. cbn [bind]. rewrite S2. reflexivity.
    - eexists [NNextLocation _ _ _; NIsFinish; NShuffleElevation _]. split.
      + constructor; [right; right; right; right; right; eauto|]. constructor; [right; right; left; auto|].
        constructor; [|constructor]. right. right. right. left. reflexivity.
      + cbn [run_navs run_nav]. rewrite S1. cbn [bind]. rewrite S2. cbn [bind snd]. rewrite S3. cbn [bind].
        f_equal. apply updateState_inv in S9. rewrite (rf_same _ _ S9). reflexivity.
    - apply updateState_inv in S6.
      assert (Q : exists los, Forall (calls (DNext true tick x)) los /\ run_navs n3 los = Ret (d_nav d5)).
      { destruct S5 as [[-> _]|[_ S5]].
        - exists []. split; [constructor|reflexivity].
        - apply updateRoutes_nav in S5. destruct S5 as (los & L1 & L2). exists los. split; [now apply quiet_calls|exact L2]. }
      destruct Q as (los & L1 & L2).
      eexists (NNextLocation _ _ _ :: NNextElevation t :: los). split.
      + constructor; [right; right; right; right; right; eauto|]. constructor; [right; right; right; right; left; eauto|exact L1].
      + cbn [run_navs run_nav]. rewrite S1. cbn [bind]. rewrite S2. cbn [bind]. rewrite L2.
        now rewrite (rf_same _ _ S6). }
  destruct G as (l2 & B1 & B2). exists (l1 ++ l2). split; [now apply Forall_app|].
  eapply run_navs_cat; eauto.
Qed.

Lemma trace d o d' : run_dev d o = Ret d' ->
  exists los, Forall (calls o) los /\ run_navs (d_nav d) los = Ret (d_nav d').
Proof.
  intros E.
  assert (Q : d_nav d' = d_nav d -> exists los, Forall (calls o) los /\ run_navs (d_nav d) los = Ret (d_nav d')).
  { intros ->. exists []. split; [constructor|reflexivity]. }
  destruct o; cbn [run_dev] in E;
    try (injection E as <-; apply Q; reflexivity).
  - injection E as <-. apply Q. unfold SetModel. destruct (NewModel m); reflexivity.
  - injection E as <-. apply Q. unfold SetColor. destruct hex; reflexivity.
  - injection E as <-. apply Q. unfold AddSensor. destruct (add_sensors _ _ _) as [l' ok]. destruct (0 <? ok)%Z; reflexivity.
  - injection E as <-. apply Q. unfold RemoveSensor. destruct (_ =? _)%Z; [reflexivity|]. destruct (find_index _ _); reflexivity.
  - apply Q. destruct (nth_error _ _); [|now injection E as <-].
    destruct (run_sensor1 _ _); try discriminate. now injection E as <-.
  - unfold AddRoute in E. destruct (nav_AddRoute _ _) as [[e|] n] eqn:A.
    + injection E as <-. eapply one_call with (lo := NAddRoute rs); [cbn; now rewrite A|right; reflexivity].
    + destruct (updateRoutes _) as [d1| |] eqn:F; cbn in E; try discriminate. injection E as <-.
      eapply then_routes with (lo := NAddRoute rs); [|right; reflexivity|exact F]. cbn. now rewrite A.
  - unfold RemoveRoute in E. destruct (nav_RemoveRoute _ _) as [[] n] eqn:A.
    + destruct (updateRoutes _) as [d1| |] eqn:F; cbn in E; try discriminate. injection E as <-.
      eapply then_routes with (lo := NRemoveRoute id); [|right; reflexivity|exact F]. cbn. now rewrite A.
    + injection E as <-. eapply one_call with (lo := NRemoveRoute id); [cbn; now rewrite A|right; reflexivity].
  - unfold RemoveTrack in E. destruct (nav_RemoveTrack _ _ _) as [[] n] eqn:A.
    + destruct (updateRoutes _) as [d1| |] eqn:F; cbn in E; try discriminate. injection E as <-.
      eapply then_routes with (lo := NRemoveTrack rid tid); [|right; reflexivity|exact F]. cbn. now rewrite A.
    + injection E as <-. eapply one_call with (lo := NRemoveTrack rid tid); [cbn; now rewrite A|right; reflexivity].
  - unfold ResetRoutes in E. destruct (nav_ResetRoutes _) as [[] n] eqn:A.
    + destruct (updateRoutes _) as [d1| |] eqn:F; cbn in E; try discriminate. injection E as <-.
      eapply then_routes with (lo := NResetRoutes); [|right; reflexivity|exact F]. cbn. now rewrite A.
    + injection E as <-. eapply one_call with (lo := NResetRoutes); [cbn; now rewrite A|right; reflexivity].
  - injection E as <-. eapply one_call with (lo := NRouteOp i o); [reflexivity|right; reflexivity].
  - injection E as <-. eapply one_call with (lo := NNextRoute); [|right; reflexivity].
    unfold device_move. cbn. now destruct (NextRoute _).
  - injection E as <-. eapply one_call with (lo := NPrevRoute); [|right; reflexivity].
    unfold device_move. cbn. now destruct (PrevRoute _).
  - injection E as <-. eapply one_call with (lo := NMoveToRouteByID id); [|right; reflexivity].
    unfold device_move. cbn. now destruct (MoveToRouteByID _ _).
  - injection E as <-. eapply one_call with (lo := NMoveToTrackByID rid tid); [|right; reflexivity].
    unfold device_move. cbn. now destruct (MoveToTrackByID _ _ _).
  - injection E as <-. eapply one_call with (lo := NMoveToRoute r); [|right; reflexivity].
    unfold device_move. cbn. now destruct (MoveToRoute _ _).
  - injection E as <-. eapply one_call with (lo := NMoveToTrack r t); [|right; reflexivity].
    unfold device_move. cbn. now destruct (MoveToTrack _ _ _).
  - injection E as <-. eapply one_call with (lo := NMoveToSegment r t s); [|right; reflexivity].
    unfold device_move. cbn. now destruct (MoveToSegment _ _ _ _).
  - injection E as <-. eapply one_call with (lo := NDestinationTo meters); [|right; reflexivity].
    unfold device_move. cbn. now destruct (DestinationTo _ _).
  - unfold device_ToOffline in E. destruct (ToOffline _ _) as [n| |] eqn:A; try discriminate. injection E as <-.
    eapply one_call with (lo := NToOffline draw); [exact A|right; reflexivity].
  - injection E as <-. eapply one_call with (lo := NReset); [reflexivity|right; reflexivity].
  - injection E as <-. eapply one_call with (lo := NIsFinish); [|right; reflexivity].
    unfold device_IsFinish. cbn. now destruct (IsFinish _).
  - unfold device_Update in E. destruct (updateState d) as [d1| |] eqn:F; cbn [bind] in E; try discriminate.
    destruct (updateRoutes d1) as [d2| |] eqn:G; cbn [bind] in E; try discriminate. injection E as <-.
    apply updateRoutes_nav in G. destruct G as (los & L1 & L2). apply updateState_inv in F.
    rewrite (rf_same _ _ F) in L2. exists los. split; [now apply quiet_calls|exact L2].
  - unfold Next in E. destruct free.
    + destruct (Next_locked d tick x) as [[b d1]| |] eqn:F; cbn in E; try discriminate. injection E as <-.
      eapply next_trace; eauto.
    + injection E as <-. now apply Q.
  - injection E as <-. apply Q. unfold mount. destruct (_ =? _)%Z; reflexivity.
  - injection E as <-. apply Q. unfold unmount. destruct (_ =? _)%Z; reflexivity.
  - destruct (run_nav _ _) as [q| |]; cbn [bind] in E; try discriminate.
    destruct (device_Snapshot d) as [q'| |]; cbn [bind] in E; try discriminate. injection E as <-. now apply Q.
Qed.

End D.
