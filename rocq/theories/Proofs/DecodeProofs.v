(** C38, C39: encoding lists of routes and sensors, decoding arbitrary bytes. *)
From Coq Require Import Lia.
From Verif.Model Require Import Base Num Utf8 Geo Curve PropMap Types Pb TypesSnap Track Route Navigator Device Wire WireMsgs IO.
From Verif.Spec Require Import ListSpec TrackSpec RouteSpec NavSpec TypesSpec DeviceSpec SnapSpec RestoreSpec WireSpec WireMsgSpec DecodeSpec.
From Verif.Proofs Require Import BaseLemmas NavLemmas DeviceLemmas DeviceProofs DeviceProofs2 WireProofs WireMsgProofs WireTop SnapProofs ViewDev RestoreProofs.
Open Scope num_scope.

(** ** When a computation returns *)

Definition total_iff {A} (P : Prop) (m : res A) : Prop := m <> NoFuel /\ (P <-> exists a, m = Ret a).

Lemma total_ret {A} (a : A) : total_iff True (Ret a).
Proof. split; [discriminate|]. split; eauto. Qed.
Lemma total_deref {A} (o : option A) : total_iff (is_set o) (deref o).
Proof. destruct o; cbn; split; try discriminate; split; eauto; intros; try (intros [=]); try congruence. destruct H. discriminate. Qed.
Lemma total_bind {A B} (P Q : Prop) (m : res A) (k : A -> res B) :
  total_iff P m -> (forall a, m = Ret a -> total_iff Q (k a)) -> total_iff (P /\ Q) (bind m k).
Proof.
  intros [H1 H2] H. destruct m as [a| |]; cbn.
  - destruct (H a eq_refl) as [K1 K2]. split; [exact K1|]. split; [intros [_ q]; tauto|]. intros R. split; [apply H2; eauto|tauto].
  - split; [discriminate|]. split; [intros [p _]; apply H2 in p; destruct p; discriminate|intros [? [=]]].
  - congruence.
Qed.
Lemma total_weak {A} (P Q : Prop) (m : res A) : (P <-> Q) -> total_iff P m -> total_iff Q m.
Proof. intros H [H1 H2]. split; [exact H1|]. tauto. Qed.
Lemma total_map {A B} (P : Prop) (m : res A) (f : A -> B) : total_iff P m -> total_iff P (let* a := m in Ret (f a)).
Proof.
  intros H. apply (total_weak (P /\ True)); [tauto|]. apply total_bind; [exact H|]. intros. apply total_ret.
Qed.
Lemma total_mapM {A B} (P : A -> Prop) (f : A -> res B) l : (forall x, total_iff (P x) (f x)) -> total_iff (Forall P l) (mapM f l).
Proof.
  intros H. induction l as [|x l IH]; cbn [mapM].
  - apply (total_weak True); [split; auto|apply total_ret].
  - apply (total_weak (P x /\ Forall P l)); [split; [intros []; auto|intros F; inversion F; auto]|].
    apply total_bind; [apply H|]. intros y _. now apply total_map.
Qed.
Lemma total_panic {A} (P : Prop) (m : res A) : total_iff P m -> (m = Panic <-> ~ P).
Proof.
  intros [H1 H2]. split.
  - intros -> p. apply H2 in p. destruct p. discriminate.
  - intros np. destruct m as [a| |]; [|reflexivity|congruence]. exfalso. apply np, H2. eauto.
Qed.

Section Decode.
Context {T : Type} {N : Num T} {J : JsonLib T} {U : UtmLib T} {B : Bits64 T}.

Lemma set_and_deref {A C} (P : A -> Prop) (o : option A) (k : A -> res C) : (forall a, o = Some a -> total_iff (P a) (k a)) ->
  total_iff (set_and P o) (let* a := deref o in k a).
Proof.
  intros H. destruct o as [a|]; cbn; [now apply H|]. split; [discriminate|]. split; [contradiction|intros [? [=]]].
Qed.

Lemma curve_total (c : option (pbCurve T)) : total_iff (set_and complete_curve c) (curve_FromSnapshot c).
Proof.
  apply set_and_deref. intros a _. apply total_map. apply total_mapM. intros p.
  apply total_bind; [apply total_deref|]. intros v _. apply total_map, total_deref.
Qed.
Lemma sensor_total (s : option (pbSensor T)) : total_iff (set_and complete_sensor s) (sensor_FromSnapshot s).
Proof. apply set_and_deref. intros a _. apply total_map, curve_total. Qed.
Lemma speed_total (s : option (pbCommon T)) : total_iff (set_and complete_speed s) (speed_FromSnapshot s).
Proof. apply set_and_deref. intros a _. apply total_map, curve_total. Qed.
Lemma battery_total (s : option (pbBattery T)) : total_iff (is_set s) (battery_FromSnapshot s).
Proof. apply total_map, total_deref. Qed.
Lemma segment_total (s : pbSegment T) : total_iff (complete_segment s) (SegmentFromSnapshot s).
Proof. apply total_bind; [apply total_deref|]. intros a _. apply total_map, total_deref. Qed.
Lemma track_total (t : pbTrack T) : total_iff (complete_track t) (TrackFromSnapshot t).
Proof. apply total_map, total_mapM, segment_total. Qed.
Lemma route_total (r : pbRoute T) : total_iff (complete_route r) (let* er := RouteFromSnapshot route_zero r in Ret (snd er)).
Proof.
  apply total_map. apply (total_weak (complete_route r /\ True)); [tauto|]. apply total_bind; [apply total_mapM, track_total|].
  intros tr _. cbv zeta. destruct (if (0 <? _)%Z then _ else _); [|apply total_ret].
  destruct (0 <? _)%Z; [|apply total_ret]. destruct (ParseName _); apply total_ret.
Qed.

Lemma total_eq {A} (P : Prop) (m m' : res A) : m = m' -> total_iff P m' -> total_iff P m.
Proof. now intros ->. Qed.

Lemma CurrentRoute_total (n : navigator T) : total_iff (n_routes n = [] \/ (0 <= n_ri n < zlen (n_routes n))%Z) (CurrentRoute n).
Proof.
  unfold CurrentRoute. destruct (n_routes n) as [|r l] eqn:E.
  - apply (total_weak True); [tauto|apply total_ret].
  - apply total_map. apply (total_weak (is_set (zget (r :: l) (n_ri n)))); [|apply total_deref].
    unfold is_set, zget. destruct (Z.ltb_spec (n_ri n) 0).
    + split; [congruence|intros [?|?]; [discriminate|lia]].
    + rewrite nth_error_Some. unfold zlen. split; [intros ?; right; lia|intros [?|?]; [discriminate|lia]].
Qed.

Lemma nav_Update_total (n : navigator T) st : state_ok st ->
  total_iff (n_elev n <> None /\ (n_routes n = [] \/ (0 <= n_ri n < zlen (n_routes n))%Z)) (nav_Update n st).
Proof.
  intros (_ & _ & Kd & Kn & l0 & Kl & Kl1 & Kl2 & Kl3). pose proof (CurrentRoute_total n) as HC.
  unfold nav_Update. cbv zeta.
  unfold RouteDistance, TrackDistance, SegmentDistance, CurrentTrack, CurrentBearing, CurrentSegment.
  destruct (CurrentRoute n) as [r| |] eqn:E.
  - cbn [bind]. unfold normalizeDeviceState. cbn [pde_navigator pde_location]. rewrite Kl.
    destruct (pde_navigator st) as [v|]; [|congruence]. cbn [deref bind].
    destruct (pdl_utm l0); [|congruence]. destruct (pdl_lat_dms l0); [|congruence]. destruct (pdl_lon_dms l0); [|congruence].
    destruct HC as [_ HC]. assert (Hc : n_routes n = [] \/ (0 <= n_ri n < zlen (n_routes n))%Z) by (apply HC; eauto).
    cbn [deref bind]. destruct (n_elev n) as [e|]; cbn [deref bind].
    + eapply total_weak; [|apply total_ret]. split; [intros _; split; [discriminate|exact Hc]|auto].
    + split; [discriminate|]. split; [intros [? _]; congruence|intros [? [=]]].
  - cbn [bind]. split; [discriminate|]. split; [intros [_ h]; apply HC in h; destruct h; discriminate|intros [? [=]]].
  - destruct HC as [HC _]. congruence.
Qed.

Lemma updateState_total_iff (d : device T) : state_ok (d_state d) ->
  total_iff (n_elev (d_nav d) <> None /\ (n_routes (d_nav d) = [] \/ (0 <= n_ri (d_nav d) < zlen (n_routes (d_nav d)))%Z)) (updateState d).
Proof.
  intros K. unfold updateState. set (P := _ /\ _). apply (total_weak (P /\ True)); [tauto|]. apply total_bind; [now apply nav_Update_total|].
  intros st E. apply nav_Update_inv in E. destruct E as (_ & Eb & _ & _ & _ & _ & (x & Ex & _) & _). rewrite Eb, Ex.
  destruct K as (K & _). destruct (pde_battery (d_state d)); [|contradiction]. cbn [deref bind]. cbv zeta.
  destruct (_ =? _)%Z; apply total_ret.
Qed.
Lemma updateRoutes_total (d : device T) : state_ok (d_state d) -> total_iff True (updateRoutes d).
Proof.
  intros (_ & K & _). unfold updateRoutes. destruct (pde_routes (d_state d)); [|congruence]. cbn [deref bind]. apply total_ret.
Qed.

Lemma mapM_length {A C} (f : A -> res C) l : forall r, mapM f l = Ret r -> List.length r = List.length l.
Proof.
  induction l as [|x l IH]; intros r E; cbn in E; [now injection E as <-|].
  destruct (f x); cbn in E; try discriminate. destruct (mapM f l); cbn in E; try discriminate. injection E as <-. cbn. now rewrite IH.
Qed.

Lemma Forall_nil_iff {A} (P : A -> Prop) : Forall P [] <-> True.
Proof. split; auto. Qed.

Lemma FromSnapshot_total (d : device T) (s : pbSnapshot T) : n_elev (@nav_zero T N) = None ->
  total_iff (complete_snapshot s) (device_FromSnapshot d s).
Proof.
  intros Hz. unfold device_FromSnapshot. cbv zeta. unfold complete_snapshot.
  destruct (psn_navigator s) as [sn|] eqn:En.
  - (* with a navigator *)
    cbn [set_and].
    set (idx := pna_routes sn = [] \/ (0 <= pna_route_index sn < zlen (pna_routes sn))%Z).
    set (P := Forall complete_route (pna_routes sn) /\ is_set (pna_point sn) /\ set_and complete_sensor (pna_elevation sn)).
    set (Q := set_and complete_speed (psn_speed s)). set (R' := is_set (psn_battery s)). set (V := Forall complete_sensor (psn_sensors s)).
    apply (total_weak (P /\ Q /\ R' /\ V /\ idx)); [unfold complete_nav; fold idx; unfold P; tauto|].
    apply total_bind.
    { cbn [nav_FromSnapshot]. apply total_bind; [apply total_mapM, route_total|]. intros rs _.
      apply total_bind; [apply total_deref|]. intros p _. apply total_map, sensor_total. }
    intros nav Enav. apply total_bind; [apply speed_total|]. intros sp _. apply total_bind; [apply battery_total|]. intros bt _.
    apply total_bind.
    { unfold V. destruct (psn_sensors s) as [|q l]; [apply (total_weak True); [split; auto|apply total_ret]|].
      apply total_mapM. intros x. exact (sensor_total (Some x)). }
    intros l _. cbv zeta. match goal with |- total_iff _ (bind (updateState (updateSensors ?q)) _) => set (D := updateSensors q) end.
    assert (K : state_ok (d_state D)).
    { subst D. cbn. repeat split; try discriminate. eexists. split; [reflexivity|]. repeat split; discriminate. }
    assert (Hn : n_elev nav <> None /\ n_ri nav = pna_route_index sn /\ zlen (n_routes nav) = zlen (pna_routes sn)).
    { clear -Enav. cbn [nav_FromSnapshot] in Enav. destruct (mapM _ _) as [rs| |] eqn:M; cbn [bind] in Enav; try discriminate.
      destruct (deref (pna_point sn)) as [p| |]; cbn [bind] in Enav; try discriminate.
      destruct (sensor_FromSnapshot _) as [e| |]; cbn [bind] in Enav; try discriminate. apply Ret_inj in Enav. subst nav.
      cbn. split; [discriminate|]. split; [reflexivity|]. unfold zlen. f_equal. eapply mapM_length; exact M. }
    destruct Hn as (H1 & H2 & H3).
    apply (total_weak ((n_elev (d_nav D) <> None /\ (n_routes (d_nav D) = [] \/ (0 <= n_ri (d_nav D) < zlen (n_routes (d_nav D)))%Z)) /\ True)).
    { change (d_nav D) with nav. rewrite H2, H3. unfold idx.
      assert (n_routes nav = [] <-> pna_routes sn = []).
      { clear -H3. unfold zlen in H3. apply Nat2Z.inj in H3. destruct (n_routes nav), (pna_routes sn); cbn in H3; try discriminate; split; auto; discriminate. }
      tauto. }
    apply total_bind; [now apply updateState_total_iff|]. intros e1 E1. apply updateRoutes_total. eapply refreshed_ok; [|exact K].
    now apply updateState_inv.
  - (* without: never returns *)
    cbn [set_and nav_FromSnapshot bind]. 
    assert (X : forall (Q' R' V' : Prop) C (m1 : res (speed T)) (m2 : res (battery T)) (m3 : res (list (sensor T))) (k : speed T -> battery T -> list (sensor T) -> res C),
      total_iff Q' m1 -> total_iff R' m2 -> total_iff V' m3 -> (forall a b c, k a b c = Panic) ->
      total_iff (False /\ Q' /\ R' /\ V') (let* a := m1 in let* b := m2 in let* c := m3 in k a b c)).
    { intros Q' R' V' C m1 m2 m3 k [A1 _] [A2 _] [A3 _] H. 
      assert (Y : (let* a := m1 in let* b := m2 in let* c := m3 in k a b c) = Panic).
      { destruct m1; cbn; auto; [|congruence]. destruct m2; cbn; auto; [|congruence]. destruct m3; cbn; auto. congruence. }
      rewrite Y. split; [discriminate|]. split; [tauto|intros [? [=]]]. }
    apply (X _ _ _ _ _ _ _ (fun sp b sensors => _)); [apply speed_total|apply battery_total| |].
    { destruct (psn_sensors s) as [|q l]; [apply (total_weak True); [split; auto|apply total_ret]|].
      apply total_mapM. intros x. exact (sensor_total (Some x)). }
    intros a b c. match goal with |- bind (updateState (updateSensors ?q)) _ = _ => set (D := updateSensors q) end.
    assert (K : state_ok (d_state D)).
    { subst D. cbn. repeat split; try discriminate. eexists. split; [reflexivity|]. repeat split; discriminate. }
    destruct (updateState_total_iff D K) as [H1 H2]. destruct (updateState D) as [e| |]; cbn; [|reflexivity|congruence].
    exfalso. assert (H : exists a, Ret e = Ret a) by eauto. apply H2 in H. destruct H as [H _]. apply H. exact Hz.
Qed.

Lemma Update_total_iff (d : device T) : state_ok (d_state d) ->
  total_iff (n_elev (d_nav d) <> None /\ (n_routes (d_nav d) = [] \/ (0 <= n_ri (d_nav d) < zlen (n_routes (d_nav d)))%Z)) (device_Update d).
Proof.
  intros K. unfold device_Update. set (P := _ /\ _). apply (total_weak (P /\ True)); [tauto|]. apply total_bind; [now apply updateState_total_iff|].
  intros e E. apply total_map, updateRoutes_total. eapply refreshed_ok; [|exact K]. now apply updateState_inv.
Qed.

Lemma DecodeTracker_total b : total_iff (forall m, b <> [] -> unmarshal d_Snapshot b = Some m -> complete_snapshot (r_Snapshot m)) (DecodeTracker b).
Proof.
  unfold DecodeTracker, UnmarshalBinary. destruct b as [|b0 b]; [apply (total_weak True); [split; [intros _ m H; now contradiction H|auto]|apply total_ret]|].
  set (data := b0 :: b). destruct (unmarshal d_Snapshot data) as [m|].
  2:{ cbn [bind]. apply (total_weak True); [split; [discriminate|auto]|apply total_ret]. }
  apply (total_weak (complete_snapshot (r_Snapshot m) /\ True)).
  { split; [intros [h _] m' _ [= <-]; exact h|intros h; split; [apply h; [discriminate|reflexivity]|auto]]. }

  assert (F : total_iff (complete_snapshot (r_Snapshot m)) (let* d' := device_FromSnapshot device_zero (r_Snapshot m) in Ret (GOk d')))
    by now apply total_map, FromSnapshot_total.
  apply total_bind; [exact F|]. intros r Er.
  destruct (device_FromSnapshot device_zero (r_Snapshot m)) as [d2| |] eqn:E; cbn [bind] in Er; try discriminate. apply Ret_inj in Er. subst r.
  apply total_map.
  (* the restored device can be updated *)
  clear F. unfold device_FromSnapshot in E. cbv zeta in E.
  destruct (nav_FromSnapshot _ _) as [nav| |] eqn:E1; cbn [bind] in E; try discriminate.
  destruct (speed_FromSnapshot _) as [sp| |]; cbn [bind] in E; try discriminate.
  destruct (battery_FromSnapshot _) as [bt| |]; cbn [bind] in E; try discriminate.
  match type of E with bind ?q _ = _ => destruct q as [l| |]; cbn [bind] in E; try discriminate end.
  match type of E with bind (updateState ?q) _ = _ => set (D := q) in E end.
  assert (K : state_ok (d_state D)).
  { subst D. cbn. repeat split; try discriminate. eexists. split; [reflexivity|]. repeat split; discriminate. }
  destruct (updateState D) as [e1| |] eqn:F; cbn [bind] in E; try discriminate.
  destruct (updateState_total_iff D K) as [_ H]. assert (H0 : exists a, updateState D = Ret a) by eauto. apply H in H0. clear H.
  pose proof (updateState_inv _ _ F) as R. pose proof (refreshed_ok _ _ R K) as K1. pose proof (updateRoutes_ok _ _ E K1) as K2.
  pose proof (rf_same _ _ R) as Q. apply updateRoutes_inv in E. destruct E as (_ & _ & _ & _ & _ & _ & E & _).
  eapply total_weak; [|apply Update_total_iff; exact K2]. split; [auto|]. intros _.
  rewrite E, Q. cbn. destruct H0 as [H1 H2]. split; [exact H1|]. unfold zlen in *. rewrite map_length.
  destruct H2 as [H2|H2]; [left|right; exact H2]. cbn in H2. now rewrite H2.
Qed.

Lemma DecodeSensors_total b : total_iff (forall m, b <> [] -> unmarshal d_Sensors b = Some m -> Forall complete_sensor (pss_sensors (r_Sensors m))) (DecodeSensors (T := T) b).
Proof.
  unfold DecodeSensors. destruct b as [|b0 b]; [apply (total_weak True); [split; [intros _ m H; now contradiction H|auto]|apply total_ret]|].
  destruct (unmarshal d_Sensors (b0 :: b)) as [m|].
  2:{ apply (total_weak True); [split; [discriminate|auto]|apply total_ret]. }
  apply (total_weak (Forall complete_sensor (pss_sensors (r_Sensors m)))).
  { split; [intros h m' _ [= <-]; exact h|intros h; apply h; [discriminate|reflexivity]]. }
  apply total_map, total_mapM. intros x. exact (sensor_total (Some x)).
Qed.
Lemma DecodeRoutes_total b : total_iff (forall m, b <> [] -> unmarshal d_Routes b = Some m -> Forall complete_route (prs_routes (r_Routes m))) (DecodeRoutes (T := T) b).
Proof.
  unfold DecodeRoutes. destruct b as [|b0 b]; [apply (total_weak True); [split; [intros _ m H; now contradiction H|auto]|apply total_ret]|].
  destruct (unmarshal d_Routes (b0 :: b)) as [m|].
  2:{ apply (total_weak True); [split; [discriminate|auto]|apply total_ret]. }
  apply (total_weak (Forall complete_route (prs_routes (r_Routes m)))).
  { split; [intros h m' _ [= <-]; exact h|intros h; apply h; [discriminate|reflexivity]]. }
  apply total_map, total_mapM, route_total.
Qed.

Lemma C39_tracker_proof b : DecodeTracker b <> NoFuel /\
  (DecodeTracker b = Panic <-> b <> [] /\ exists m, unmarshal d_Snapshot b = Some m /\ ~ complete_snapshot (r_Snapshot m)).
Proof.
  pose proof (DecodeTracker_total b) as H. split; [apply H|]. apply total_panic in H. rewrite H. split.
  - intros K. destruct b as [|b0 b]; [exfalso; apply K; intros m h; now contradiction h|]. split; [discriminate|].
    destruct (unmarshal d_Snapshot (b0 :: b)) as [m|]; [|exfalso; apply K; discriminate].
    exists m. split; [reflexivity|]. intros C. apply K. intros m' _ [= <-]. exact C.
  - intros (h & m & E & C) K. apply C, K; auto.
Qed.
Lemma C39_routes_proof b : DecodeRoutes (T := T) b <> NoFuel /\
  (DecodeRoutes (T := T) b = Panic <-> b <> [] /\ exists m, unmarshal d_Routes b = Some m /\ ~ Forall complete_route (prs_routes (r_Routes (T := T) m))).
Proof.
  pose proof (DecodeRoutes_total b) as H. split; [apply H|]. apply total_panic in H. rewrite H. split.
  - intros K. destruct b as [|b0 b]; [exfalso; apply K; intros m h; now contradiction h|]. split; [discriminate|].
    destruct (unmarshal d_Routes (b0 :: b)) as [m|]; [|exfalso; apply K; discriminate].
    exists m. split; [reflexivity|]. intros C. apply K. intros m' _ [= <-]. exact C.
  - intros (h & m & E & C) K. apply C, K; auto.
Qed.
Lemma C39_sensors_proof b : DecodeSensors (T := T) b <> NoFuel /\
  (DecodeSensors (T := T) b = Panic <-> b <> [] /\ exists m, unmarshal d_Sensors b = Some m /\ ~ Forall complete_sensor (pss_sensors (r_Sensors (T := T) m))).
Proof.
  pose proof (DecodeSensors_total b) as H. split; [apply H|]. apply total_panic in H. rewrite H. split.
  - intros K. destruct b as [|b0 b]; [exfalso; apply K; intros m h; now contradiction h|]. split; [discriminate|].
    destruct (unmarshal d_Sensors (b0 :: b)) as [m|]; [|exfalso; apply K; discriminate].
    exists m. split; [reflexivity|]. intros C. apply K. intros m' _ [= <-]. exact C.
  - intros (h & m & E & C) K. apply C, K; auto.
Qed.

(** ** Lists of routes and sensors *)

Lemma Forall_map_iff {A C} (P : C -> Prop) (Q : A -> Prop) (f : A -> C) l : (forall x, P (f x) <-> Q x) -> Forall P (map f l) <-> Forall Q l.
Proof. intros H. rewrite Forall_map. split; apply Forall_impl; intros x; apply H. Qed.

Lemma utf8_route_iff (rs : list (route T)) : utf8_Routes (mkPbRoutes (map route_Snapshot rs)) <-> Forall utf8_route rs.
Proof.
  apply Forall_map_iff. intros r. unfold utf8_Route, utf8_route. cbn.
  rewrite (Forall_map_iff utf8_Track utf8_track); [tauto|]. intros t. unfold utf8_Track, utf8_track. cbn.
  rewrite (Forall_map_iff utf8_Segment (fun _ => True)).
  - assert (Forall (fun _ : segment T => True) (tk_segments t)) by (apply Forall_forall; auto). tauto.
  - intros s. unfold utf8_Segment. cbn. tauto.
Qed.
Lemma int64_route_iff (rs : list (route T)) : int64_Routes (mkPbRoutes (map route_Snapshot rs)) <-> Forall int64_route rs.
Proof.
  apply Forall_map_iff. intros r. unfold int64_Route, int64_route. cbn.
  rewrite (Forall_map_iff int64_Track int64_track); [tauto|]. intros t. unfold int64_Track, int64_track. cbn.
  rewrite (Forall_map_iff int64_Segment int64_segment); [tauto|]. intros s. unfold int64_Segment, int64_segment. cbn.
  unfold int64_PointLatLon. tauto.
Qed.
Lemma utf8_curve (c : curve T) : utf8_Curve (curve_Snapshot c).
Proof. unfold utf8_Curve, curve_Snapshot. cbn. apply Forall_map, Forall_forall. intros p _. repeat split. Qed.
Lemma utf8_sensor_iff (ss : list (sensor T)) : utf8_Sensors (mkPbSensors (map sensor_Snapshot ss)) <-> Forall utf8_sensor ss.
Proof.
  apply Forall_map_iff. intros r. unfold utf8_Sensor, utf8_sensor. cbn [sensor_Snapshot pse_id pse_name pse_gen if_set].
  pose proof (utf8_curve (s_gen r)). tauto.
Qed.
Lemma int64_sensor_iff (ss : list (sensor T)) : int64_Sensors (mkPbSensors (map sensor_Snapshot ss)) <-> Forall int64_sensor ss.
Proof.
  apply Forall_map_iff. intros r. unfold int64_Sensor, int64_sensor. cbn [sensor_Snapshot pse_id pse_name pse_gen if_set]. unfold int64_Curve. cbn.
  split; [tauto|]. intros H. split; [|exact H]. apply Forall_map, Forall_forall. intros p _. repeat split.
Qed.

Section Lists.
Context (L : json_law T) (HB : bits_law T).

Lemma C38_routes_proof (rs : list (route T)) : Forall made_route rs -> Forall int64_route rs ->
  (rs = [] -> EncodeRoutes rs = GErr ErrNoData) /\
  (rs <> [] -> ~ Forall utf8_route rs -> EncodeRoutes rs = GErr ErrUTF8) /\
  (rs <> [] -> Forall utf8_route rs -> exists b, EncodeRoutes rs = GOk b /\
     ((zlen b < 2 ^ 63)%Z -> exists rs', DecodeRoutes b = Ret (GOk rs') /\ Forall2 restored_route rs rs')).
Proof.
  intros Hm Hi. split; [intros ->; reflexivity|].
  assert (E : rs <> [] -> EncodeRoutes rs = to_bytes d_Routes (w_Routes (mkPbRoutes (map route_Snapshot rs)))) by (destruct rs; [congruence|reflexivity]).
  split.
  - intros Hne Hu. rewrite (E Hne). unfold to_bytes.
    destruct (C37_not_utf8_proof (mkPbSnapshot "" "" f0 f0 "" "" 0 "" None None None []) (mkPbRoutes (map route_Snapshot rs)) (mkPbSensors [])) as (_ & H & _).
    rewrite H; [reflexivity|]. now rewrite utf8_route_iff.
  - intros Hne Hu. rewrite (E Hne). unfold to_bytes.
    destruct (C37_routes_proof HB (mkPbRoutes (map route_Snapshot rs))) as (b & Eb & D); [now apply int64_route_iff|now apply utf8_route_iff|].
    rewrite Eb. exists b. split; [reflexivity|]. intros Hz. specialize (D Hz). unfold DecodeRoutes.
    destruct (unmarshal d_Routes b) as [m|] eqn:Em; [|discriminate]. assert (D' : r_Routes m = mkPbRoutes (map route_Snapshot rs)) by (injection D as D; unfold r_Routes; now rewrite D). clear D.
    destruct b as [|b0 b].
    { exfalso. cbn in Em. injection Em as <-. apply (f_equal prs_routes) in D'. cbn in D'. destruct rs; [congruence|discriminate]. }
    rewrite D'. cbn [prs_routes].
    destruct (mapM_map_rel (fun r => let* er := RouteFromSnapshot route_zero r in Ret (snd er)) route_Snapshot restored_route rs) as (rs' & Ers & Hrs).
    { intros r Hin. rewrite Forall_forall in Hm. destruct (route_snap L r (made_proper r (Hm r Hin))) as (r' & -> & H'). exists r'. split; [reflexivity|exact H']. }
    rewrite Ers. cbn [bind]. eauto.
Qed.
Lemma C38_sensors_proof (ss : list (sensor T)) : Forall int64_sensor ss ->
  (ss = [] -> EncodeSensors ss = GErr ErrNoData) /\
  (ss <> [] -> ~ Forall utf8_sensor ss -> EncodeSensors ss = GErr ErrUTF8) /\
  (ss <> [] -> Forall utf8_sensor ss -> exists b, EncodeSensors ss = GOk b /\
     ((zlen b < 2 ^ 63)%Z -> DecodeSensors b = Ret (GOk ss))).
Proof.
  intros Hi. split; [intros ->; reflexivity|].
  assert (E : ss <> [] -> EncodeSensors ss = to_bytes d_Sensors (w_Sensors (mkPbSensors (map sensor_Snapshot ss)))) by (destruct ss; [congruence|reflexivity]).
  split.
  - intros Hne Hu. rewrite (E Hne). unfold to_bytes.
    destruct (C37_not_utf8_proof (mkPbSnapshot "" "" f0 f0 "" "" 0 "" None None None []) (mkPbRoutes []) (mkPbSensors (map sensor_Snapshot ss))) as (_ & _ & H).
    rewrite H; [reflexivity|]. now rewrite utf8_sensor_iff.
  - intros Hne Hu. rewrite (E Hne). unfold to_bytes.
    destruct (C37_sensors_proof HB (mkPbSensors (map sensor_Snapshot ss))) as (b & Eb & D); [now apply int64_sensor_iff|now apply utf8_sensor_iff|].
    rewrite Eb. exists b. split; [reflexivity|]. intros Hz. specialize (D Hz). unfold DecodeSensors.
    destruct (unmarshal d_Sensors b) as [m|] eqn:Em; [|discriminate]. assert (D' : r_Sensors m = mkPbSensors (map sensor_Snapshot ss)) by (injection D as D; unfold r_Sensors; now rewrite D). clear D.
    destruct b as [|b0 b].
    { exfalso. cbn in Em. injection Em as <-. apply (f_equal pss_sensors) in D'. cbn in D'. destruct ss; [congruence|discriminate]. }
    rewrite D'. cbn [pss_sensors]. rewrite (mapM_map_id (fun s => sensor_FromSnapshot (Some s)) sensor_Snapshot ss sensor_snap). reflexivity.
Qed.
End Lists.

Lemma C38_errors_proof b :
  ((exists e, DecodeRoutes (T := T) b = Ret (GErr e)) <-> b = [] \/ unmarshal d_Routes b = None) /\
  ((exists e, DecodeSensors (T := T) b = Ret (GErr e)) <-> b = [] \/ unmarshal d_Sensors b = None).
Proof.
  unfold DecodeRoutes, DecodeSensors. destruct b as [|b0 b].
  { split; (split; [auto|eauto]). }
  split.
  - destruct (unmarshal d_Routes (b0 :: b)).
    + split; [|intros [[=]|[=]]]. intros [e H]. destruct (mapM _ _); discriminate.
    + split; eauto.
  - destruct (unmarshal d_Sensors (b0 :: b)).
    + split; [|intros [[=]|[=]]]. intros [e H]. destruct (mapM _ _); discriminate.
    + split; eauto.
Qed.
End Decode.
