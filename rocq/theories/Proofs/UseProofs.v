(** C76: devices stay usable whatever bytes they were decoded from, if the curves have points. *)
From Coq Require Import Lia.
From Verif.Model Require Import Base Num Utf8 Geo Curve PropMap Types Pb TypesSnap Track Route Navigator Device Wire WireMsgs IO.
From Verif.Spec Require Import ListSpec NumLaws TrackSpec RouteSpec NavSpec TypesSpec DeviceSpec SnapSpec RestoreSpec WireSpec WireMsgSpec DecodeSpec UseSpec.
From Verif.Proofs Require Import BaseLemmas NavLemmas NavSteps DeviceLemmas DeviceProofs DeviceProofs2 WireProofs WireMsgProofs WireTop SnapProofs ViewDev RestoreProofs DecodeProofs.
Open Scope num_scope.

Section Use.
Context {T : Type} {N : Num T} {J : JsonLib T} {U : UtmLib T} {B : Bits64 T}.

Lemma total_ex {A} (P : Prop) (m : res A) : total_iff P m -> P -> exists a, m = Ret a.
Proof. intros [_ H]. apply H. Qed.

Lemma curve_FS_points c (g : curve T) : set_and drawn_curve c -> curve_FromSnapshot c = Ret g -> cv_points g <> [].
Proof.
  unfold curve_FromSnapshot. destruct c as [c|]; [|contradiction]. cbn [set_and deref bind]. unfold drawn_curve. intros H E.
  destruct (mapM _ _) as [l| |] eqn:M; cbn [bind] in E; try discriminate. apply Ret_inj in E. subst g. cbn.
  apply mapM_length in M. destruct (pcv_points c); [contradiction|]. intros ->. discriminate.
Qed.

Lemma sensor_FS_points s (g : sensor T) : set_and drawn_sensor s -> sensor_FromSnapshot s = Ret g -> cv_points (s_gen g) <> [].
Proof.
  unfold sensor_FromSnapshot. destruct s as [s|]; [|contradiction]. cbn [set_and deref bind]. unfold drawn_sensor. intros H E.
  destruct (curve_FromSnapshot _) as [c| |] eqn:M; cbn [bind] in E; try discriminate. apply Ret_inj in E. subst g. cbn.
  eapply curve_FS_points; eauto.
Qed.

Lemma speed_FS_usable s (g : speed T) : set_and drawn_speed s -> speed_FromSnapshot s = Ret g -> speed_usable g.
Proof.
  unfold speed_FromSnapshot. destruct s as [s|]; [|contradiction]. cbn [set_and deref bind]. unfold drawn_speed. intros H E.
  destruct (curve_FromSnapshot _) as [c| |] eqn:M; cbn [bind] in E; try discriminate. apply Ret_inj in E. subst g.
  destruct H as [H|H]; [left; exact H|right]. cbn. eapply curve_FS_points; eauto.
Qed.

Lemma sensors_FS_points l : forall l', Forall drawn_sensor l -> mapM (fun s => sensor_FromSnapshot (Some s)) l = Ret l' ->
  Forall (fun s : sensor T => cv_points (s_gen s) <> []) l'.
Proof.
  induction l as [|s l IH]; intros l' H E; cbn [mapM] in E; [apply Ret_inj in E; subst l'; constructor|]. inversion H; subst.
  destruct (sensor_FromSnapshot (Some s)) as [a| |] eqn:Ea; cbn [bind] in E; try discriminate.
  destruct (mapM _ l) as [b| |] eqn:Eb; cbn [bind] in E; try discriminate. apply Ret_inj in E. subst l'.
  constructor; [eapply sensor_FS_points; [|exact Ea]; assumption|now apply IH].
Qed.

Lemma nav_FS_wf (n : pbNavigator T) nav : complete_nav n -> set_and drawn_sensor (pna_elevation n) ->
  nav_FromSnapshot nav_zero (Some n) = Ret nav -> nav_wf nav.
Proof.
  intros (_ & _ & _ & H) He E. cbn [nav_FromSnapshot] in E.
  destruct (mapM _ _) as [rs| |] eqn:M; cbn [bind] in E; try discriminate.
  destruct (deref (pna_point n)) as [p| |]; cbn [bind] in E; try discriminate.
  destruct (sensor_FromSnapshot _) as [e| |] eqn:Ee; cbn [bind] in E; try discriminate. apply Ret_inj in E. subst nav.
  apply mapM_length in M. constructor.
  - destruct H as [H|H]; [left; cbn; rewrite H in M; now destruct rs|right]. cbn. unfold zlen in *. now rewrite M.
  - intros _. cbn. eauto.
  - exists e. split; [reflexivity|]. eapply sensor_FS_points; eauto.
Qed.

Lemma FromSnapshot_ok (d : device T) s : Forall (fun x => cv_points (s_gen x) <> []) (d_sensors d) ->
  complete_snapshot s -> drawn_snapshot s -> exists d', device_FromSnapshot d s = Ret d' /\ dev_ok d'.
Proof.
  intros Hd Hc (D1 & D2 & D3). destruct (total_ex _ _ (FromSnapshot_total d s eq_refl) Hc) as (d' & E).
  exists d'. split; [exact E|]. destruct Hc as (C1 & _ & _ & _).
  unfold device_FromSnapshot in E. cbv zeta in E.
  destruct (psn_navigator s) as [n|]; [|contradiction].
  destruct (nav_FromSnapshot _ _) as [nav| |] eqn:E1; cbn [bind] in E; try discriminate.
  destruct (speed_FromSnapshot _) as [sp| |] eqn:E2; cbn [bind] in E; try discriminate.
  destruct (battery_FromSnapshot _) as [bt| |]; cbn [bind] in E; try discriminate.
  match type of E with bind ?q _ = _ => destruct q as [l| |] eqn:E3; cbn [bind] in E; try discriminate end.
  match type of E with bind (updateState (updateSensors ?q)) _ = _ => set (D := q) in E end.
  assert (K : dev_ok (updateSensors D)).
  { apply updateSensors_ok; cbn.
    - eapply nav_FS_wf; eauto.
    - repeat split; try discriminate. eexists. split; [reflexivity|]. repeat split; discriminate.
    - eapply speed_FS_usable; eauto.
    - destruct (psn_sensors s) as [|q r]; [apply Ret_inj in E3; now subst l|]. eapply sensors_FS_points; eauto. }
  destruct (DeviceProofs.updateState_ok _ K) as (d1 & F1 & K1). rewrite F1 in E. cbn [bind] in E.
  destruct (DeviceProofs.updateRoutes_ok _ K1) as (d2 & F2 & K2). rewrite F2 in E. apply Ret_inj in E. now subst d2.
Qed.

Lemma Unmarshal_ok (d : device T) b : Forall (fun x => cv_points (s_gen x) <> []) (d_sensors d) -> good_bytes b ->
  exists r, UnmarshalBinary d b = Ret r /\ match r with GOk d' => dev_ok d' | GErr _ => True end.
Proof.
  intros Hd H. unfold UnmarshalBinary. destruct b as [|b0 b]; [eexists; split; [reflexivity|exact I]|].
  destruct (unmarshal d_Snapshot (b0 :: b)) as [m|] eqn:E; [|eexists; split; [reflexivity|exact I]].
  destruct (H m ltac:(discriminate) E) as [H1 H2]. destruct (FromSnapshot_ok d _ Hd H1 H2) as (d' & -> & K). cbn [bind].
  eexists. split; [reflexivity|exact K].
Qed.

Lemma Update_ok (d : device T) : dev_ok d -> exists d', device_Update d = Ret d' /\ dev_ok d'.
Proof.
  intros H. unfold device_Update. destruct (DeviceProofs.updateState_ok d H) as (d1 & -> & H1). cbn [bind].
  destruct (DeviceProofs.updateRoutes_ok d1 H1) as (d2 & -> & H2). cbn [bind]. eexists. split; [reflexivity|].
  apply updateSensors_ok; apply H2.
Qed.

Lemma decoded_ok (d : device T) : decoded_device d -> dev_ok d.
Proof.
  intros (b & H & E). unfold DecodeTracker in E. destruct b as [|b0 b]; [discriminate|].
  destruct (Unmarshal_ok device_zero (b0 :: b) (Forall_nil _) H) as (r & E1 & H1). rewrite E1 in E. cbn [bind] in E.
  destruct r as [d1|e]; [|discriminate]. destruct (Update_ok d1 H1) as (d2 & E2 & H2). rewrite E2 in E. cbn [bind] in E.
  apply Ret_inj in E. injection E as <-. exact H2.
Qed.

Lemma route_FS_total (r : route T) s : complete_route s -> exists er, RouteFromSnapshot r s = Ret er.
Proof.
  apply total_ex. apply (total_weak (complete_route s /\ True)); [tauto|]. apply total_bind; [apply total_mapM, track_total|].
  intros tr _. cbv zeta. destruct (if (0 <? _)%Z then _ else _); [|apply total_ret].
  destruct (0 <? _)%Z; [|apply total_ret]. destruct (ParseName _); apply total_ret.
Qed.

Lemma run_use_ok (Z0 : zero_eq_zero N) (d : device T) u : dev_ok d -> good_use u ->
  match u with UCall (DDestinationTo _) => (zlen (n_routes (d_nav d)) <= 2)%Z | _ => True end ->
  exists d', run_use d u = Ret d' /\ dev_ok d'.
Proof.
  intros H G Hj. destruct u as [o|b|i s]; cbn [run_use].
  - assert (Q : sensors_made o \/ exists l, o = DAddSensor l) by (destruct o; cbn; eauto).
    destruct Q as [Q|[l ->]].
    + apply run_dev_ok; auto.
    + cbn [run_dev]. eexists. split; [reflexivity|]. unfold AddSensor. destruct (add_sensors _ _ _) as [l' ok'] eqn:E.
      destruct (add_sensors_ok _ _ _ _ _ (dk_sens _ H) G E) as (A1 & A2 & C).
      destruct (0 <? ok')%Z eqn:F.
      * apply updateSensors_ok; try apply H. exact A1.
      * apply Z.ltb_ge in F. rewrite C by lia. destruct d; exact H.
  - destruct (Unmarshal_ok d b (dk_sens _ H) G) as (r & -> & K). cbn [bind]. eexists. split; [reflexivity|]. now destruct r.
  - destruct (nth_error _ i) as [r|]; [|eauto]. destruct (route_FS_total r s G) as (er & ->). cbn [bind].
    eexists. split; [reflexivity|]. apply dset_nav_ok; [exact H|]. apply mutateRoute_wf, H.
Qed.

Lemma run_uses_ok (Z0 : zero_eq_zero N) l : forall d : device T, dev_ok d -> Forall good_use l -> use_jumps_on_at_most_two_routes d l ->
  exists d', run_uses d l = Ret d' /\ dev_ok d'.
Proof.
  induction l as [|u l IH]; intros d H G Hj; cbn; [eauto|]. inversion G; subst. destruct Hj as [J1 J2].
  destruct (run_use_ok Z0 d u H) as (d1 & E & H1); auto. rewrite E in *. cbn. now apply IH.
Qed.

Lemma C76_proof (Z0 : zero_eq_zero N) (d : device T) l : new_device d \/ decoded_device d -> Forall good_use l ->
  use_jumps_on_at_most_two_routes d l -> exists d', run_uses d l = Ret d'.
Proof.
  intros Hd G Hj. assert (H : dev_ok d) by (destruct Hd as [(o & x & Hd)|Hd]; [eapply built_ok; eauto|now apply decoded_ok]).
  destruct (run_uses_ok Z0 l d H G Hj) as (d' & E & _). eauto.
Qed.

(** Without points, and not constant: a device with a route cannot make a step. *)
Lemma FS_parts (d d' : device T) s : device_FromSnapshot d s = Ret d' ->
  zlen (n_routes (d_nav d')) = zlen (match psn_navigator s with Some n => pna_routes n | None => [] end) /\
  exists c, psn_speed s = Some c /\ sp_min (d_speed d') = pco_min c /\ sp_max (d_speed d') = pco_max c /\
    exists g, pco_gen c = Some g /\ zlen (cv_points (sp_gen (d_speed d'))) = zlen (pcv_points g).
Proof.
  intros E. unfold device_FromSnapshot in E. cbv zeta in E.
  destruct (nav_FromSnapshot _ _) as [nav| |] eqn:E1; cbn [bind] in E; try discriminate.
  destruct (speed_FromSnapshot _) as [sp| |] eqn:E2; cbn [bind] in E; try discriminate.
  destruct (battery_FromSnapshot _) as [bt| |]; cbn [bind] in E; try discriminate.
  match type of E with bind ?q _ = _ => destruct q as [l| |]; cbn [bind] in E; try discriminate end.
  match type of E with bind (updateState ?q) _ = _ => set (D := q) in E end.
  destruct (updateState D) as [e1| |] eqn:F; cbn [bind] in E; try discriminate.
  pose proof (rf_same _ _ (updateState_inv _ _ F)) as Q.
  apply updateRoutes_inv in E. destruct E as (_ & Es & _ & _ & _ & _ & En & _ & _).
  assert (Qn : d_nav e1 = nav) by now rewrite Q. assert (Qs : d_speed e1 = sp) by now rewrite Q.
  rewrite En, Es, Qn, Qs. clear Q Qn Qs En Es F. split.
  - cbn. unfold zlen. rewrite map_length. destruct (psn_navigator s) as [n|]; cbn [nav_FromSnapshot] in E1; [|apply Ret_inj in E1; now subst nav].
    destruct (mapM _ _) as [rs| |] eqn:M; cbn [bind] in E1; try discriminate.
    destruct (deref (pna_point n)) as [p| |]; cbn [bind] in E1; try discriminate.
    destruct (sensor_FromSnapshot _) as [e| |]; cbn [bind] in E1; try discriminate. apply Ret_inj in E1. subst nav.
    cbn. f_equal. now apply mapM_length in M.
  - unfold speed_FromSnapshot in E2. destruct (psn_speed s) as [c|]; cbn [deref bind] in E2; [|discriminate]. exists c. split; [reflexivity|].
    destruct (curve_FromSnapshot (pco_gen c)) as [g| |] eqn:G; cbn [bind] in E2; try discriminate. apply Ret_inj in E2. subst sp. cbn.
    split; [reflexivity|]. split; [reflexivity|]. unfold curve_FromSnapshot in G. destruct (pco_gen c) as [g0|]; cbn [deref bind] in G; [|discriminate].
    exists g0. split; [reflexivity|]. destruct (mapM _ _) as [l0| |] eqn:M; cbn [bind] in G; try discriminate. apply Ret_inj in G. subst g.
    cbn. unfold zlen. f_equal. now apply mapM_length in M.
Qed.

Lemma Update_keeps (d d' : device T) : device_Update d = Ret d' ->
  zlen (n_routes (d_nav d')) = zlen (n_routes (d_nav d)) /\ d_speed d' = d_speed d.
Proof.
  intros E. unfold device_Update in E. destruct (updateState d) as [e1| |] eqn:F; cbn [bind] in E; try discriminate.
  pose proof (rf_same _ _ (updateState_inv _ _ F)) as Q.
  destruct (updateRoutes e1) as [e2| |] eqn:G; cbn [bind] in E; try discriminate. apply Ret_inj in E. subst d'.
  apply updateRoutes_inv in G. destruct G as (_ & Es & _ & _ & _ & _ & En & _ & _).
  cbn. rewrite En, Es, Q. split; [|reflexivity]. cbn. unfold zlen. now rewrite map_length.
Qed.

Lemma Next_stuck (d : device T) tick x : n_routes (d_nav d) <> [] -> speed_isStatic (d_speed d) = false -> cv_points (sp_gen (d_speed d)) = [] ->
  Next d true tick x = Panic.
Proof.
  intros H1 H2 H3. unfold Next, Next_locked. destruct (n_routes (d_nav d)); [contradiction|]. cbv zeta.
  set (d1 := next_account d _). assert (Q : d_speed d1 = d_speed d) by reflexivity.
  assert (R : next_lowBattery d1 x = Panic \/ exists d2, next_lowBattery d1 x = Ret d2 /\ d_speed d2 = d_speed d).
  { unfold next_lowBattery. destruct (battery_IsLow _); [|eauto]. unfold ToOffline. destruct (n_skip _); cbn [bind]; [eauto|].
    destruct (n_rnd _); cbn [deref bind]; eauto. }
  destruct R as [->|(d2 & -> & Q2)]; [reflexivity|]. cbn [bind]. unfold next_speed, speed_Next. rewrite Q2, H2.
  replace (curve_Point (sp_gen (d_speed d)) _) with (@Panic (pt T * curve T)); [reflexivity|].
  unfold curve_Point. now rewrite H3.
Qed.

Lemma C76_stuck_proof (b : list byte) m (d : device T) tick x :
  unmarshal d_Snapshot b = Some m -> DecodeTracker b = Ret (GOk d) ->
  set_and (fun n => pna_routes n <> []) (psn_navigator (r_Snapshot (T := T) m)) -> ~ set_and drawn_speed (psn_speed (r_Snapshot (T := T) m)) ->
  Next d true tick x = Panic.
Proof.
  intros Em E H1 H2. unfold DecodeTracker, UnmarshalBinary in E. destruct b as [|b0 b]; [discriminate|]. rewrite Em in E.
  destruct (device_FromSnapshot _ _) as [d1| |] eqn:F; cbn [bind] in E; try discriminate.
  destruct (device_Update d1) as [d2| |] eqn:G; cbn [bind] in E; try discriminate. apply Ret_inj in E. injection E as <-.
  apply Update_keeps in G. destruct G as [G1 G2]. apply FS_parts in F. destruct F as (F1 & c & F2 & F3 & F4 & g & F5 & F6).
  rewrite F2 in H2. cbn [set_and] in H2. apply Next_stuck.
  - destruct (psn_navigator _) as [n|]; [|contradiction]. cbn in H1. rewrite F1 in G1. intros K. rewrite K in G1.
    destruct (pna_routes n); [now apply H1|]. unfold zlen in G1. cbn in G1. lia.
  - rewrite G2. unfold speed_isStatic. rewrite F3, F4. destruct (_ =? _)%num eqn:K; [|reflexivity]. exfalso. apply H2. now left.
  - rewrite G2. destruct (pcv_points g) eqn:K; [unfold zlen in F6; cbn in F6; destruct (cv_points _); [reflexivity|cbn in F6; lia]|].
    exfalso. apply H2. right. rewrite F5. cbn. unfold drawn_curve. rewrite K. discriminate.
Qed.

End Use.
