(** Devices over the reals: battery charge and ranges. *)
From Coq Require Import Reals Lra Lia.
From Flocq Require Import Core.Raux.
From Verif.Model Require Import Base Num NumR Geo Curve PropMap Types Pb TypesSnap Track Route Navigator Device.
From Verif.Spec Require Import ListSpec TrackSpec RouteSpec NavSpec NumLaws RealSpec TypesSpec DeviceSpec DeviceRealSpec.
From Verif.Proofs Require Import BaseLemmas NavLemmas NavSteps NavProofs NavProofs2 NavProofs3 CurveLemmas TypesProofs
  DeviceLemmas DeviceProofs DeviceProofs2 DeviceProofs3.
Open Scope R_scope.

Section D.
Context {J : JsonLib R} {U : UtmLib R}.
Implicit Types (d : device R) (n : navigator R).

(** ** battery *)

Lemma battery_const d o d' : run_dev d o = Ret d' ->
  b_min (d_battery d') = b_min (d_battery d) /\ b_chargeTime (d_battery d') = b_chargeTime (d_battery d).
Proof.
  intros E.
  assert (Dec : not_next o \/ exists free s x, o = DNext free s x) by (destruct o; cbn; eauto).
  destruct Dec as [Hn|(free & s & x & ->)].
  - destruct (other_time _ _ _ Hn E) as (_ & _ & _ & _ & _ & A). now rewrite A.
  - cbn [run_dev] in E. destruct free.
    + assert (Dr : n_routes (d_nav d) = [] \/ n_routes (d_nav d) <> []) by (destruct (n_routes (d_nav d)); [left|right]; congruence).
      destruct Dr as [Dr|Dr]; [rewrite C42_proof in E by assumption; cbn in E; injection E as <-; auto|].
      destruct (Next d true s x) as [[b e1]| |] eqn:K; cbn in E; try discriminate. injection E as <-.
      apply Next_battery in K; [|exact Dr]. rewrite K. destruct (drains d s); auto.
    + cbn in E. injection E as <-. auto.
Qed.

Lemma C46_charge_proof opts x0 d0 ops d : built opts x0 d0 -> run_devs d0 ops = Ret d ->
  let o := options_of opts in
  do_batCharge o <> 0%Z -> Rmin (do_batMin o) (do_batMax o) < 100 ->
  Rmin (do_batMin o) (do_batMax o) < battery_Value (d_battery d).
Proof.
  intros Hb Hd o Hc Hm. pose proof (C46_never_low_proof _ _ _ _ _ Hb Hd) as V.
  assert (K : b_min (d_battery d) = Rmin (do_batMin o) (do_batMax o) /\ b_chargeTime (d_battery d) = charge_time (do_batCharge o)).
  { revert Hd. apply (run_devs_inv (fun d => b_min (d_battery d) = Rmin (do_batMin o) (do_batMax o) /\ b_chargeTime (d_battery d) = charge_time (do_batCharge o))).
    - intros e op e' H E. destruct (battery_const _ _ _ E) as [-> ->]. exact H.
    - apply built_inv in Hb. destruct Hb as (o1 & nav & sp & b & st & o' & -> & -> & _ & _ & E & _).
      fold (options_of opts) in E. fold o in E.
      destruct (NewBattery_spec (do_batMin o) (do_batMax o) (do_batCharge o)) as [[F _]|[[F _]|(_ & _ & F)]];
        rewrite F in E; try discriminate. injection E as <-. split; reflexivity. }
  destruct K as [K1 K2]. rewrite battery_Value_spec, K1, K2.
  pose proof (charge_time_pos _ Hc) as Hp.
  destruct V as [V|V].
  - change (@f0 R RNum) with 0 in V. rewrite V.
    replace (100 * (1 - 0 / seconds (charge_time (do_batCharge o)))) with 100 by (field; lra).
    rewrite Rmax_right; lra.
  - assert (V' : ~ 100 * (1 - b_val (d_battery d) / seconds (b_chargeTime (d_battery d))) <= b_min (d_battery d)).
    { intros H. apply battery_IsLow_spec in H. congruence. }
    rewrite K1, K2 in V'. rewrite Rmax_right; lra.
Qed.

(** ** ranges *)

Definition sens_good (s : sensor R) : Prop :=
  s_min s <= s_max s /\ exists mode k draws, unit_draws draws /\ generated (s_min s) (s_max s) mode k draws (s_gen s).

Lemma sens_Next s t s' : sens_good s -> sensor_Next s t = Ret s' ->
  sens_good s' /\ s_min s' = s_min s /\ s_max s' = s_max s /\ (0 <= t <= 1 -> s_min s <= s_valY s' <= s_max s).
Proof.
  intros (H & mode & k & dr & Hd & G). unfold sensor_Next.
  destruct (Point_generated _ _ _ _ _ _ t G) as (p & c' & E & G' & _). rewrite E. cbn [bind]. intros [= <-]. cbn.
  split; [|repeat split; auto].
  - split; [exact H|]. exists mode, k, dr. auto.
  - destruct (generated_range _ _ _ _ _ _ t G H Hd ltac:(assumption)) as (p' & c'' & E' & _ & HY & _). rewrite E in E'. injection E' as <- <-. lra.
  - destruct (generated_range _ _ _ _ _ _ t G H Hd ltac:(assumption)) as (p' & c'' & E' & _ & HY & _). rewrite E in E'. injection E' as <- <-. lra.
Qed.
Lemma sens_Shuffle s dr : sens_good s -> unit_draws dr -> sens_good (sensor_Shuffle s dr).
Proof.
  intros (H & mode & k & dr0 & Hd & G) Hu. split; [exact H|]. exists mode, k, dr. split; [exact Hu|]. cbn.
  eapply Shuffle_generated; eauto.
Qed.
Lemma sens_New name min max amp mode uuid draws s : NewSensor name min max amp mode uuid draws = GOk s ->
  min <= max -> unit_draws draws -> sens_good s /\ s_min s = min /\ s_max s = max.
Proof.
  unfold NewSensor. destruct (validateAmplitude amp); [discriminate|]. destruct (_ =? _)%Z; [discriminate|].
  intros [= <-] H Hu. cbn. split; [|auto]. split; [exact H|].
  exists (if validateSensorMode mode then mode else ModeDefault), (Z.to_nat (points_for amp)), draws.
  split; [exact Hu|]. apply New_generated.
Qed.
Lemma sens_run ops : forall s s', sens_good s -> Forall unit_shuffle ops -> run_sensor s ops = Ret s' ->
  sens_good s' /\ s_min s' = s_min s /\ s_max s' = s_max s.
Proof.
  induction ops as [|[dr|t] ops IH]; intros s s' G F E; cbn in E.
  - injection E as <-. auto.
  - inversion F; subst. apply IH in E; [exact E|apply sens_Shuffle; auto|assumption].
  - inversion F; subst. destruct (sensor_Next s t) as [s1| |] eqn:K; try discriminate. cbn in E.
    destruct (sens_Next _ _ _ G K) as (G1 & <- & <- & _). now apply IH in E.
Qed.
Lemma sens_ordered s : ordered_sensor s -> sens_good s.
Proof.
  intros (name & min & max & amp & mode & uuid & dr & s0 & ops & E & H & Hu & F & R0).
  destruct (sens_New _ _ _ _ _ _ _ _ E H Hu) as (G & _). now apply sens_run in R0.
Qed.

(** elevation *)
Lemma nav_elev n o n' : run_nav n o = Ret n' ->
  match o with
  | NNextElevation t => exists e e', n_elev n = Some e /\ sensor_Next e t = Ret e' /\ n_elev n' = Some e'
  | NShuffleElevation dr => exists e, n_elev n = Some e /\ n_elev n' = Some (sensor_Shuffle e dr)
  | _ => n_elev n' = n_elev n
  end.
Proof.
  assert (S0 : stable0 (@n_elev R)) by (repeat constructor).
  intros E. destruct o; try (refine (run_nav_stable0 _ S0 _ _ _ _ _ E); [exact I|right; exact I]); cbn [run_nav] in E.
  - injection E as <-. unfold nav_AddRoute. destruct rs; [reflexivity|].
    destruct (add_routes _ _ _) as [? ok]. destruct (0 <? ok)%Z; reflexivity.
  - injection E as <-. unfold nav_ResetRoutes. now destruct (n_routes n).
  - injection E as <-. unfold nav_RemoveRoute. destruct (_ || _)%bool; [reflexivity|].
    destruct (find_index _ _); reflexivity.
  - injection E as <-. unfold nav_RemoveTrack. destruct (_ || _ || _ || _)%bool; [reflexivity|].
    destruct (find_index _ _); [|reflexivity]. destruct (nth_error _ _); [|reflexivity].
    destruct (route_RemoveTrack _ _) as [[] ?]; reflexivity.
  - injection E as <-. reflexivity.
  - injection E as <-. unfold nav_mutateRoute. destruct (nth_error _ _); reflexivity.
  - unfold NextElevation in E. destruct (n_elev n) as [e|] eqn:Ee; [cbn [deref bind] in E|discriminate E].
    destruct (sensor_Next e tick) as [e'| |] eqn:F; try discriminate. injection E as <-. exists e, e'. auto.
  - unfold ShuffleElevation in E. destruct (n_elev n) as [e|] eqn:Ee; [|discriminate E]. injection E as <-. exists e. auto.
Qed.

Definition elev_good (lim : R * R) n : Prop :=
  exists e, n_elev n = Some e /\ sens_good e /\ (s_min e, s_max e) = lim.

Lemma elev_calls lim o los : fair o -> Forall (calls o) los -> forall n n', elev_good lim n -> run_navs n los = Ret n' -> elev_good lim n'.
Proof.
  intros Hf. induction los as [|lo los IH]; intros F n n' H E; cbn in E; [now injection E as <-|].
  inversion F as [|a b F1 F2]; subst. destruct (run_nav n lo) as [n1| |] eqn:K; try discriminate. cbn in E.
  refine (IH F2 _ _ _ E). apply nav_elev in K. destruct H as (e & H1 & H2 & H3).
  assert (Hsh : forall dr, lo = NShuffleElevation dr -> unit_draws dr).
  { intros dr ->. destruct F1 as [[]|F1]. destruct o; try destruct free; try discriminate; try contradiction.
    destruct F1 as [F1|[F1|[F1|[(t & F1)|(k & v & F1)]]]]; try discriminate. injection F1 as ->. apply Hf. }
  destruct lo; try (exists e; rewrite K; auto; fail).
  - destruct K as (e1 & e2 & K1 & K2 & K3). rewrite H1 in K1. injection K1 as <-.
    destruct (sens_Next _ _ _ H2 K2) as (G1 & G2 & G3 & _). exists e2. rewrite G2, G3. auto.
  - destruct K as (e1 & K1 & K2). rewrite H1 in K1. injection K1 as <-.
    exists (sensor_Shuffle e draws). split; [exact K2|]. split; [|exact H3]. apply sens_Shuffle; auto.
Qed.

Lemma elev_step lim d o d' : fair o -> elev_good lim (d_nav d) -> run_dev d o = Ret d' -> elev_good lim (d_nav d').
Proof. intros Hf H E. destruct (trace _ _ _ E) as (los & L1 & L2). eapply elev_calls; eauto. Qed.

(** sensors *)
Lemma sens_list_Next t (l l' : list (sensor R)) : Forall sens_good l -> mapM (fun s => sensor_Next s t) l = Ret l' ->
  Forall sens_good l' /\ (0 <= t <= 1 -> Forall (fun s => s_min s <= s_valY s <= s_max s) l').
Proof.
  revert l'; induction l as [|s l IH]; intros l' F; cbn [mapM].
  - intros [= <-]. split; constructor.
  - inversion F as [|a b F1 F2]; subst. destruct (sensor_Next s t) as [s1| |] eqn:K; cbn [bind]; try discriminate.
    destruct (mapM _ l) as [r| |] eqn:L; cbn [bind]; try discriminate. intros [= <-].
    destruct (sens_Next _ _ _ F1 K) as (G1 & G2 & G3 & G4). destruct (IH r F2 eq_refl) as [A B].
    split; [constructor; auto|]. intros Ht. constructor; [rewrite G2, G3; auto|auto].
Qed.
Lemma sens_list_Shuffle dr (l : list (sensor R)) : (forall i, unit_draws (dr i)) -> Forall sens_good l -> forall i, Forall sens_good (shuffle_sensors i l dr).
Proof.
  intros Hd F. induction F as [|s l F1 F2 IH]; intros i; cbn; constructor; [apply sens_Shuffle; auto|auto].
Qed.

Lemma unseen_In (l : list (option (sensor R))) : forall ids s, In s (unseen ids l) -> In (Some s) l.
Proof.
  induction l as [|[a|] l IH]; intros ids s; cbn; [tauto| |].
  - destruct (in_dec _ _ ids); [intros H; right; eauto|]. intros [->|H]; [auto|]. right. eauto.
  - intros H. right. eauto.
Qed.

Lemma updateState_sens d d' : updateState d = Ret d' -> d_sensors d' = d_sensors d /\ d_speed d' = d_speed d.
Proof. intros H. apply updateState_inv in H. rewrite (rf_same _ _ H). auto. Qed.

Lemma Next_sens d tick x b d' : unit_next x -> Forall sens_good (d_sensors d) -> Next_locked d tick x = Ret (b, d') ->
  Forall sens_good (d_sensors d').
Proof.
  intros Hx F E. destruct (n_routes (d_nav d)) eqn:Er.
  { unfold Next_locked in E. rewrite Er in E. injection E as <- <-. auto. }
  apply Next_locked_inv in E; [|congruence]. clear Er. destruct E as (d3 & t & NB & St).
  pose proof (nb_frame _ _ _ _ _ NB) as B1. unfold frame in B1.
  assert (S3 : d_sensors d3 = d_sensors d) by congruence.
  inversion St as [n2 n3 S1 S2 Eb Ed|n2 n3 n4 d4 d5 S1 S2 S4' S4 S5 S6 S7 S8 S9 Eb Ed|n2 n3 ss d4 d5 d6 S1 S2 S4 S4' S5 S6 Eb Ed]; subst.
  - cbn. now rewrite S3.
  - destruct (updateState_sens _ _ S9) as [-> _]. rewrite S5, S3. apply sens_list_Shuffle; [apply Hx|exact F].
  - destruct (updateState_sens _ _ S6) as [-> _].
    assert (A : d_sensors d5 = ss) by (destruct S5 as [[-> _]|[_ S5]]; [reflexivity|apply updateRoutes_sens in S5; destruct S5 as [-> _]; reflexivity]).
    rewrite A. eapply sens_list_Next; eauto.
Qed.

Lemma sens_step d o d' : fair o -> Forall sens_good (d_sensors d) -> run_dev d o = Ret d' -> Forall sens_good (d_sensors d').
Proof.
  intros Hf F E. destruct o; cbn [run_dev] in E; try (injection E as <-; exact F).
  - injection E as <-. unfold SetModel. destruct (NewModel m); exact F.
  - injection E as <-. unfold SetColor. destruct hex; exact F.
  - injection E as <-. rewrite C45_add_proof. apply Forall_app. split; [exact F|]. apply Forall_forall. intros s Hs.
    apply sens_ordered, Hf. eapply unseen_In; eauto.
  - injection E as <-. constructor.
  - injection E as <-. unfold RemoveSensor. destruct (_ =? _)%Z; [exact F|]. destruct (find_index _ _) as [i|]; [|exact F].
    cbn. clear -F. revert i. induction F as [|a l F1 F2 IH]; intros [|i]; cbn; auto.
  - destruct (nth_error _ _) as [s|] eqn:G; [|injection E as <-; exact F].
    destruct (run_sensor1 _ _) as [s'| |] eqn:K; try discriminate. injection E as <-. cbn.
    assert (Gs : sens_good s) by (rewrite Forall_forall in F; apply F; eapply nth_error_In; eauto).
    unfold run_sensor1 in K. apply sens_run in K; [|exact Gs|constructor; [exact Hf|constructor]]. destruct K as [K _].
    clear -F K. revert i. induction F as [|a l F1 F2 IH]; intros [|i]; cbn; auto.
  - unfold AddRoute in E. destruct (nav_AddRoute _ _) as [[e|] n] eqn:A.
    + injection E as <-. exact F.
    + destruct (updateRoutes _) as [d1| |] eqn:G; cbn in E; try discriminate. injection E as <-.
      apply updateRoutes_sens in G. destruct G as [-> _]. exact F.
  - unfold RemoveRoute in E. destruct (nav_RemoveRoute _ _) as [[] n] eqn:A.
    + destruct (updateRoutes _) as [d1| |] eqn:G; cbn in E; try discriminate. injection E as <-.
      apply updateRoutes_sens in G. destruct G as [-> _]. exact F.
    + injection E as <-. exact F.
  - unfold RemoveTrack in E. destruct (nav_RemoveTrack _ _ _) as [[] n] eqn:A.
    + destruct (updateRoutes _) as [d1| |] eqn:G; cbn in E; try discriminate. injection E as <-.
      apply updateRoutes_sens in G. destruct G as [-> _]. exact F.
    + injection E as <-. exact F.
  - unfold ResetRoutes in E. destruct (nav_ResetRoutes _) as [[] n] eqn:A.
    + destruct (updateRoutes _) as [d1| |] eqn:G; cbn in E; try discriminate. injection E as <-.
      apply updateRoutes_sens in G. destruct G as [-> _]. exact F.
    + injection E as <-. exact F.
  - injection E as <-. unfold device_move. destruct (NextRoute _); exact F.
  - injection E as <-. unfold device_move. destruct (PrevRoute _); exact F.
  - injection E as <-. unfold device_move. destruct (MoveToRouteByID _ _); exact F.
  - injection E as <-. unfold device_move. destruct (MoveToTrackByID _ _ _); exact F.
  - injection E as <-. unfold device_move. destruct (MoveToRoute _ _); exact F.
  - injection E as <-. unfold device_move. destruct (MoveToTrack _ _ _); exact F.
  - injection E as <-. unfold device_move. destruct (MoveToSegment _ _ _ _); exact F.
  - injection E as <-. unfold device_move. destruct (DestinationTo _ _); exact F.
  - unfold device_ToOffline in E. destruct (ToOffline _ _) as [n| |] eqn:A; try discriminate. injection E as <-. exact F.
  - injection E as <-. unfold device_IsFinish. destruct (IsFinish _); exact F.
  - unfold device_Update in E. destruct (updateState d) as [d1| |] eqn:G; cbn [bind] in E; try discriminate.
    destruct (updateRoutes d1) as [d2| |] eqn:H; cbn [bind] in E; try discriminate. injection E as <-. cbn.
    apply updateRoutes_sens in H. destruct H as [-> _]. destruct (updateState_sens _ _ G) as [-> _]. exact F.
  - unfold Next in E. destruct free.
    + destruct (Next_locked d tick x) as [[b d1]| |] eqn:G; cbn in E; try discriminate. injection E as <-.
      eapply Next_sens; eauto. apply Hf.
    + injection E as <-. exact F.
  - injection E as <-. unfold mount. destruct (_ =? _)%Z; exact F.
  - injection E as <-. unfold unmount. destruct (_ =? _)%Z; exact F.
  - destruct (run_nav _ _) as [q| |]; cbn [bind] in E; try discriminate.
    destruct (device_Snapshot d) as [q'| |]; cbn [bind] in E; try discriminate. injection E as <-. exact F.
Qed.

(** speed *)
Lemma speed_Next_good lo hi (s : speed R) t s' : lo <= hi -> speed_ok lo hi s -> speed_Next s t = Ret s' ->
  speed_ok lo hi s' /\ (0 <= t <= 1 -> lo <= speed_Value s' <= hi).
Proof.
  intros H (E1 & E2 & k & dr & Hd & G). unfold speed_Next, speed_Value, speed_isStatic. rewrite E1, E2.
  change (@feq R RNum) with Req_bool. destruct (Req_bool_spec lo hi) as [E|E].
  - intros [= <-]. split; [repeat split; eauto|]. intros _. rewrite E1, E2, Req_bool_true by exact E. lra.
  - destruct (Point_generated _ _ _ _ _ _ t G) as (p & c' & Ep & G' & _). rewrite Ep. cbn [bind]. intros [= <-]. cbn.
    split; [repeat split; eauto|]. intros Ht. rewrite Req_bool_false by exact E.
    destruct (generated_range _ _ _ _ _ _ t G H Hd Ht) as (p' & c'' & E' & _ & HY & _). rewrite Ep in E'. injection E' as <- <-. lra.
Qed.
Lemma speed_Shuffle_good lo hi (s : speed R) dr : speed_ok lo hi s -> unit_draws dr -> speed_ok lo hi (speed_Shuffle s dr).
Proof.
  intros (E1 & E2 & k & dr0 & Hd & G) Hu. repeat split; auto. exists k, dr. split; [exact Hu|]. cbn.
  eapply Shuffle_generated; eauto.
Qed.

(** the facts kept along a fair history *)
Record good (slim elim : R * R) d : Prop := {
  gd_dur : 0 <= duration d;
  gd_owed : (0 <= owed d)%Z;
  gd_speed : speed_ok (fst slim) (snd slim) (d_speed d);
  gd_elev : elev_good elim (d_nav d);
  gd_sens : Forall sens_good (d_sensors d) }.

Lemma amount_nonneg slim elim d tick : good slim elim d -> 0 <= tick -> 0 <= amount d tick.
Proof.
  intros G H. unfold amount. change (@fofZ R RNum) with IZR. change (@fadd R RNum) with Rplus.
  pose proof (gd_owed _ _ _ G) as O. apply IZR_le in O. lra.
Qed.

Lemma speed_after slim elim d tick x b d' : fst slim <= snd slim -> good slim elim d -> unit_next x ->
  n_routes (d_nav d) <> [] -> Next d true tick x = Ret (b, d') ->
  speed_ok (fst slim) (snd slim) (d_speed d') /\
  (0 <= tick -> 0 < trip_time d -> within slim (pde_speed (d_state d'))) .
Proof.
  intros Hl G Hx Hr E. destruct (Next_time _ _ _ _ _ Hr E) as (_ & _ & Sp & _). rewrite Sp.
  apply Next_locked_inv in E; [|exact Hr]. destruct E as (d3 & t & NB & St).
  destruct NB as [B1 B2 B3 B4 B5 B6 B7].
  destruct (speed_Next_good _ _ _ _ _ Hl (gd_speed _ _ _ G) B6) as [G3 V3].
  assert (Ht : 0 <= tick -> 0 < trip_time d -> 0 <= t <= 1).
  { intros H1 H2. rewrite B5. change (@fmin R RNum) with Rmin. change (@f1 R RNum) with 1.
    change (@fadd R RNum) with Rplus. change (@fdiv R RNum) with Rdiv.
    pose proof (amount_nonneg _ _ _ _ G H1) as A. unfold amount, owed in A. change (@fadd R RNum) with Rplus in A.
    pose proof (gd_dur _ _ _ G) as D. unfold duration in D. unfold trip_time in H2.
    split; [|apply Rmin_r]. apply Rmin_glb; [|lra]. unfold Rdiv. apply Rmult_le_pos; [lra|].
    left. now apply Rinv_0_lt_compat. }
  inversion St as [n2 n3 S1 S2 Eb Ed|n2 n3 n4 d4 d5 S1 S2 S4' S4 S5 S6 S7 S8 S9 Eb Ed|n2 n3 ss d4 d5 d6 S1 S2 S4 S4' S5 S6 Eb Ed]; subst.
  - split; [exact G3|]. intros H1 H2. apply V3. auto.
  - destruct (updateState_sens _ _ S9) as [_ ->]. rewrite S6. split; [apply speed_Shuffle_good; [exact G3|apply Hx]|].
    intros H1 H2. apply V3. auto.
  - destruct (updateState_sens _ _ S6) as [_ ->].
    assert (A : d_speed d5 = d_speed d3) by (destruct S5 as [[-> _]|[_ S5]]; [reflexivity|apply updateRoutes_inv in S5; destruct S5 as (_ & -> & _); reflexivity]).
    rewrite A. split; [exact G3|]. intros H1 H2. apply V3. auto.
Qed.

Lemma good_step slim elim d o d' : fst slim <= snd slim -> fair o -> good slim elim d -> run_dev d o = Ret d' -> good slim elim d'.
Proof.
  intros Hl Hf G E.
  assert (TS : 0 <= duration d' /\ (0 <= owed d')%Z /\ speed_ok (fst slim) (snd slim) (d_speed d')).
  { assert (Dec : not_next o \/ exists free s x, o = DNext free s x) by (destruct o; cbn; eauto).
    destruct Dec as [Hn|(free & s & x & ->)].
    - destruct (other_time _ _ _ Hn E) as (A1 & _ & A2 & _ & A3 & _). rewrite A1, A2, A3. repeat split; apply G.
    - destruct Hf as [Hs Hx]. cbn [run_dev] in E. destruct free.
      + assert (Dr : n_routes (d_nav d) = [] \/ n_routes (d_nav d) <> []) by (destruct (n_routes (d_nav d)); [left|right]; congruence).
        destruct Dr as [Dr|Dr]; [rewrite C42_proof in E by assumption; cbn in E; injection E as <-; repeat split; apply G|].
        destruct (Next d true s x) as [[b e1]| |] eqn:K; cbn in E; try discriminate. injection E as <-.
        destruct (Next_time _ _ _ _ _ Dr K) as (T1 & _ & _ & T2).
        destruct (speed_after _ _ _ _ _ _ _ Hl G Hx Dr K) as [S1 _]. rewrite T1. split; [|split; [lia|exact S1]].
        destruct T2 as [[_ T2]|(_ & _ & T2)]; rewrite T2; [|change (@f0 R RNum) with 0; lra].
        pose proof (amount_nonneg _ _ _ _ G Hs). pose proof (gd_dur _ _ _ G). change (@fadd R RNum) with Rplus. lra.
      + cbn in E. injection E as <-. repeat split; try apply G. unfold owed. cbn. apply Z.mod_pos_bound. lia. }
  constructor; try apply TS.
  - eapply elev_step; eauto. apply G.
  - eapply sens_step; eauto. apply G.
Qed.

Lemma good_run slim elim ops : fst slim <= snd slim -> Forall fair ops -> forall d d', good slim elim d -> run_devs d ops = Ret d' -> good slim elim d'.
Proof.
  intros Hl F. induction F as [|o ops F1 F2 IH]; intros d d' G E; cbn in E; [now injection E as <-|].
  destruct (run_dev d o) as [d1| |] eqn:K; try discriminate. cbn in E. eapply IH; [|exact E]. eapply good_step; eauto.
Qed.

Lemma NewSpeed_limits min max amp draws (s : speed R) : NewSpeed min max amp draws = GOk s -> unit_draws draws ->
  let lim := speed_limits min max in
  0 <= fst lim /\ fst lim <= snd lim /\ 0 < snd lim /\ speed_ok (fst lim) (snd lim) s.
Proof.
  intros E Hu. destruct (NewSpeed_spec min max amp draws) as [(e & E' & H)|(s0 & E' & H1 & H2 & H3 & H4 & H5 & H6 & H7 & H8)];
    rewrite E in E'; [discriminate|]. injection E' as <-.
  assert (Q : (sp_min s, sp_max s) = speed_limits min max /\ 0 <= sp_min s <= sp_max s /\ 0 < sp_max s).
  { unfold speed_limits. destruct (Rlt_dec 0 max) as [P|P].
    - destruct (H5 P) as [-> ->]. split; [reflexivity|]. lra.
    - destruct (Rlt_dec 0 min) as [Q|Q].
      + destruct (H6 ltac:(lra) Q) as [-> ->]. split; [reflexivity|]. lra.
      + destruct (H7 ltac:(lra) ltac:(lra)) as [-> ->]. split; [reflexivity|]. lra. }
  destruct Q as (Q & Q1 & Q2). cbv zeta. rewrite <- Q. cbn [fst snd]. repeat split; try lra; auto.
  exists (Z.to_nat (points_for amp)), draws. split; [exact Hu|]. rewrite H8. cbn [sp_gen sp_min sp_max]. apply New_generated.
Qed.

Lemma New_elev_limits (o : deviceOptions R) uuid draws n : navigator_New (navOpts o) uuid draws = GOk n -> unit_draws draws ->
  elev_good (elevation_limits (do_elevMin o) (do_elevMax o)) n.
Proof.
  unfold navigator_New. destruct (eff_options (navOpts o) defaultNavOptions) as (_ & H & _). cbv zeta in H.
  set (oo := fold_left _ _ _) in *.
  assert (E : eff_elevation (navOpts o) (o_elevMin defaultNavOptions, o_elevMax (@defaultNavOptions R _), o_elevAmp (@defaultNavOptions R _)) = (do_elevMin o, do_elevMax o, do_elevAmp o)).
  { unfold navOpts. cbn. destruct (do_skipOffline o); reflexivity. }
  rewrite E in H. injection H as H1 H2 H3. rewrite H1, H2. cbv zeta.
  destruct (validateOffline _ _) as [[lo hi]|]; [|discriminate].
  destruct (validateElevation _ _) as [[a b]|] eqn:V; [|discriminate].
  destruct (NewSensor _ _ _ _ _ _ _) as [s|] eqn:S0; [|discriminate]. intros [= <-] Hu.
  assert (Q : (a, b) = elevation_limits (do_elevMin o) (do_elevMax o) /\ a <= b).
  { revert V. unfold validateElevation, elevation_limits. change (@flt R RNum) with Rlt_bool. change (@f0 R RNum) with 0.
    change (@f1 R RNum) with 1. change (@fofZ R RNum) with IZR. change (@feq R RNum) with Req_bool.
    change (@fadd R RNum) with Rplus. change (@fsub R RNum) with Rminus. set (mn := do_elevMin o). set (mx := do_elevMax o).
    destruct (Rlt_bool_spec mn 0); [discriminate|]. destruct (Rlt_bool_spec 50000 mx); [discriminate|]. cbv zeta.
    destruct (Rlt_bool_spec mx mn), (Rlt_dec mx mn); try lra.
    - rewrite (Rlt_bool_false mx (mx - 1)) by lra.
      destruct (Req_bool_spec (mx - 1) 0), (Req_bool_spec mx 0); try lra; cbn [andb]; intros [= <- <-]; (split; [reflexivity|lra]).
    - rewrite (Rlt_bool_false mx mn) by lra.
      destruct (Req_bool_spec mn 0) as [E1|E1], (Req_EM_T mn 0); try lra; cbn [andb].
      + destruct (Req_bool_spec mx 0), (Req_EM_T mx 0); try lra; intros [= <- <-]; (split; [f_equal; lra|lra]).
      + intros [= <- <-]. split; [reflexivity|lra]. }
  destruct Q as [Q1 Q2]. destruct (sens_New _ _ _ _ _ _ _ _ S0 Q2 Hu) as (G & G1 & G2).
  exists s. split; [reflexivity|]. split; [exact G|]. rewrite G1, G2. exact Q1.
Qed.

Lemma built_good opts x d : built opts x d -> unit_new x ->
  let o := options_of opts in
  let slim := speed_limits (do_speedMin o) (do_speedMax o) in
  fst slim <= snd slim /\ good slim (elevation_limits (do_elevMin o) (do_elevMax o)) d.
Proof.
  intros Hb [Hu1 Hu2]. cbv zeta. destruct (built_time _ _ _ Hb) as [T1 T2].
  apply built_inv in Hb. destruct Hb as (o & nav & sp & b & st & o' & -> & Eo & E1 & E2 & E3 & E4).
  fold (options_of opts) in Eo. subst o.
  destruct (NewSpeed_limits _ _ _ _ _ E2 Hu2) as (L1 & L2 & L3 & L4). split; [exact L2|].
  constructor.
  - rewrite T1. change (@f0 R RNum) with 0. lra.
  - rewrite T2. lia.
  - exact L4.
  - eapply New_elev_limits; eauto.
  - constructor.
Qed.

Lemma C47_speed_proof opts x0 d0 ops d tick x b d' : built opts x0 d0 -> unit_new x0 ->
  run_devs d0 ops = Ret d -> Forall fair ops -> n_routes (d_nav d) <> [] ->
  0 <= tick -> unit_next x -> 0 < trip_time d -> Next d true tick x = Ret (b, d') ->
  let o := options_of opts in within (speed_limits (do_speedMin o) (do_speedMax o)) (pde_speed (d_state d')).
Proof.
  intros Hb Hu Hd F Hr Ht Hx Hp E. destruct (built_good _ _ _ Hb Hu) as [Hl G]. cbv zeta.
  pose proof (good_run _ _ _ Hl F _ _ G Hd) as G'. now apply (speed_after _ _ _ _ _ _ _ Hl G' Hx Hr E).
Qed.

Lemma C47_proof opts x0 d0 ops d tick x d' : built opts x0 d0 -> unit_new x0 ->
  run_devs d0 ops = Ret d -> Forall fair ops ->
  0 <= tick -> unit_next x -> 0 < trip_time d -> Next d true tick x = Ret (true, d') ->
  let o := options_of opts in
  (exists l, pde_location (d_state d') = Some l /\
     within (elevation_limits (do_elevMin o) (do_elevMax o)) (pdl_elevation l)) /\
  Forall2 (fun s e => pdn_id e = s_id s /\ within (s_min s, s_max s) (pdn_val_y e)) (d_sensors d') (pde_sensors (d_state d')).
Proof.
  intros Hb Hu Hd F Ht Hx Hp E. destruct (built_good _ _ _ Hb Hu) as [Hl G]. cbv zeta.
  pose proof (good_run _ _ _ Hl F _ _ G Hd) as G'.
  destruct (C45_history_proof _ _ _ _ _ Hb Hd) as [_ M].
  destruct (C44_next_proof _ _ _ _ M E) as (Pn & _ & _ & Ps & _).
  assert (Hr : n_routes (d_nav d) <> []).
  { intros H. rewrite C42_proof in E by exact H. discriminate. }
  apply Next_locked_inv in E; [|exact Hr]. destruct E as (d3 & t & NB & St).
  destruct NB as [B1 B2 B3 B4 B5 B6 B7].
  assert (H01 : 0 <= t <= 1).
  { rewrite B5. change (@fmin R RNum) with Rmin. change (@f1 R RNum) with 1.
    change (@fadd R RNum) with Rplus. change (@fdiv R RNum) with Rdiv.
    pose proof (amount_nonneg _ _ _ _ G' Ht) as A. unfold amount, owed in A. change (@fadd R RNum) with Rplus in A.
    pose proof (gd_dur _ _ _ G') as D. unfold duration in D. unfold trip_time in Hp.
    split; [|apply Rmin_r]. apply Rmin_glb; [|lra]. unfold Rdiv. apply Rmult_le_pos; [lra|].
    left. now apply Rinv_0_lt_compat. }
  inversion St as [|?|n2 n3 ss d4 d5 d6 S1 S2 S4 S4' S5 S6 Eb Ed]; subst.
  assert (A : d_sensors d' = ss /\ n_elev (d_nav d') = n_elev n3).
  { pose proof (updateState_sens _ _ S6) as [-> _]. apply updateState_routes in S6. destruct S6 as (_ & _ & ->).
    destruct S5 as [[-> _]|[_ S5]]; [auto|]. apply updateRoutes_inv in S5. destruct S5 as (_ & _ & _ & -> & _ & _ & -> & _). auto. }
  destruct A as [A1 A2]. split.
  - destruct Pn as (_ & _ & (l & e & L1 & L2 & _ & L3 & _) & _). exists l. split; [exact L1|]. rewrite L3.
    (* the elevation before this step *)
    assert (Gm : elev_good (elevation_limits (do_elevMin (options_of opts)) (do_elevMax (options_of opts))) n2).
    { destruct (gd_elev _ _ _ G') as (e0 & K1 & K2 & K3). exists e0. split; [|auto]. rewrite <- K1.
      assert (S0 : stable0 (@n_elev R)) by (repeat constructor).
      rewrite (NextLocation_stable _ S0 _ _ _ _ _ _ S1).
      destruct (battery_IsLow _); [|injection B4 as ->; reflexivity].
      unfold ToOffline in B4. destruct (n_skip _); [injection B4 as ->; reflexivity|].
      destruct (n_rnd _); [|discriminate]. cbn in B4. injection B4 as <-. reflexivity. }
    destruct Gm as (e0 & K1 & K2 & K3). unfold NextElevation in S2. rewrite K1 in S2. cbn [deref bind] in S2.
    destruct (sensor_Next e0 _) as [e1| |] eqn:Kn; try discriminate. injection S2 as <-. rewrite A2 in L2. cbn in L2. injection L2 as <-.
    destruct (sens_Next _ _ _ K2 Kn) as (_ & _ & _ & V). rewrite <- K3. apply V. exact H01.
  - rewrite Ps, A1. destruct (sens_list_Next _ _ _ (gd_sens _ _ _ G') S4) as [_ V]. specialize (V H01).
    clear -V. induction V; cbn; constructor; auto.
Qed.

(** the trip time is positive as soon as routes of positive total length are published *)
Lemma updateRoutes_trip slim elim d d' : 0 <= fst slim -> 0 < snd slim -> good slim elim d -> updateRoutes d = Ret d' ->
  0 < n_dist (d_nav d) -> 0 < trip_time d'.
Proof.
  intros H1 H2 G E Hp. apply updateRoutes_inv in E. destruct E as (_ & _ & _ & _ & _ & _ & _ & _ & E).
  unfold trip_time. rewrite E. destruct (gd_speed _ _ _ G) as (-> & -> & _).
  change (@fdiv R RNum) with Rdiv. change (@fadd R RNum) with Rplus. change (@fofZ R RNum) with IZR.
  apply Rdiv_lt_0_compat; [exact Hp|]. lra.
Qed.

End D.
