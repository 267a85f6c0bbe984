(** C87: saving what was loaded. *)
From Coq Require Import Lia.
From Verif.Model Require Import Base Num Utf8 Geo Curve PropMap Types Pb TypesSnap Track Route Navigator Device Wire WireMsgs IO.
From Verif.Spec Require Import ListSpec TrackSpec RouteSpec NavSpec TypesSpec DeviceSpec SnapSpec RestoreSpec ResaveSpec WireSpec WireMsgSpec DecodeSpec.
From Verif.Proofs Require Import BaseLemmas NavLemmas DeviceLemmas DeviceProofs DeviceProofs2 DeviceProofs3 WireProofs WireMsgProofs WireTop SnapProofs ViewNav ViewDev RestoreProofs DecodeProofs.
Open Scope num_scope.

Section ResaveProofs.
Context {T : Type} {N : Num T} {J : JsonLib T} {U : UtmLib T} {B : Bits64 T}.
Implicit Types (d : device T) (n : navigator T).

(** ** Updating succeeds whatever the published state *)
Lemma nav_Update_any n sa sb ra : nav_Update n sa = Ret ra -> state_ok sb ->
  exists rb, nav_Update n sb = Ret rb /\ pde_distance rb <> None /\ pde_battery rb = pde_battery sb.
Proof.
  intros H (_ & _ & Kd & Kn & l0 & Kl & Kl1 & Kl2 & Kl3). revert H. unfold nav_Update. cbn zeta.
  destruct (RouteDistance n) as [rd| |]; cbn [bind]; try discriminate.
  destruct (TrackDistance n) as [td| |]; cbn [bind]; try discriminate.
  destruct (SegmentDistance n) as [sd| |]; cbn [bind]; try discriminate.
  destruct (pde_navigator (normalizeDeviceState sa)) as [v|] eqn:Ev; cbn [deref bind]; try discriminate.
  destruct (CurrentRoute n) as [r| |] eqn:Er; cbn [bind]; try discriminate.
  destruct (CurrentTrack n) as [t| |] eqn:Et; cbn [bind]; try discriminate.
  destruct (pde_location (normalizeDeviceState sa)) as [l|]; cbn [deref bind]; try discriminate.
  destruct (CurrentBearing n) as [br| |]; cbn [bind]; try discriminate.
  destruct (n_elev n) as [e|]; cbn [deref bind]; try discriminate.
  intros _.
  unfold normalizeDeviceState in *. cbn [pde_navigator pde_location] in *. rewrite Kl. cbn [deref bind].
  destruct (pdl_utm l0); [|congruence]. destruct (pdl_lat_dms l0); [|congruence]. destruct (pdl_lon_dms l0); [|congruence]. cbn [deref bind].
  destruct (pde_navigator sb) as [vb|] eqn:Vb; [|congruence]. cbn [deref bind].
  eexists. split; [reflexivity|]. cbn. split; [discriminate|reflexivity].
Qed.
Lemma updateState_any a b a' : view_nav false (d_nav a) = view_nav false (d_nav b) -> state_ok (d_state b) ->
  updateState a = Ret a' -> exists b', updateState b = Ret b'.
Proof.
  intros V K E. unfold updateState in E. destruct (nav_Update (d_nav a) (d_state a)) as [ra| |] eqn:En; cbn [bind] in E; try discriminate.
  pose proof (nav_Update_view false (d_nav a) (d_state a)) as W. rewrite En, V in W. cbn in W.
  destruct (nav_Update_any _ _ (view_state false (d_state b)) _ W (view_ok false _ K)) as (rb & Eb & _).
  rewrite nav_Update_view in Eb. destruct (nav_Update (d_nav b) (d_state b)) as [rb'| |] eqn:Fb; cbn in Eb; try discriminate.
  destruct (nav_Update_any _ _ _ _ Fb K) as (rb2 & F2 & F3 & F4). assert (rb2 = rb') by congruence. subst rb2.
  unfold updateState. rewrite Fb. cbn [bind]. destruct K as (Kb & _). rewrite F4.
  destruct (pde_battery (d_state b)); [|congruence]. cbn [deref bind].
  destruct (pde_distance rb'); [|congruence]. cbn [deref bind]. cbv zeta. destruct (_ =? _)%Z; eauto.
Qed.
Lemma Update_any a b a' : view_nav false (d_nav a) = view_nav false (d_nav b) -> state_ok (d_state b) ->
  updateState a = Ret a' -> exists b', device_Update b = Ret b'.
Proof.
  intros V K E. destruct (updateState_any a b a' V K E) as (b1 & E1). unfold device_Update. rewrite E1. cbn [bind].
  pose proof (refreshed_ok _ _ (updateState_inv _ _ E1) K) as (_ & K1 & _). unfold updateRoutes.
  destruct (pde_routes (d_state b1)); [|congruence]. cbn [deref bind]. eauto.
Qed.
Lemma Update_state_ok a a' : state_ok (d_state a) -> device_Update a = Ret a' -> state_ok (d_state a').
Proof.
  intros K E. pose proof (Update_parts _ _ E) as (u1 & u2 & U1 & U2 & ->).
  pose proof (refreshed_ok _ _ (updateState_inv _ _ U1) K) as K1.
  apply (RestoreProofs.updateRoutes_ok _ _ U2 K1).
Qed.

(** what updating leaves alone, as far as snapshots go *)
Definition snap_src d := (n_elev (d_nav d), src (d_state d), d_speed d, d_battery d, d_sensors d).
Lemma Update_snap d d1 : device_Update d = Ret d1 ->
  d_nav d1 = set_routes (d_nav d) (map touch_props (n_routes (d_nav d))) /\ src (d_state d1) = src (d_state d) /\
  d_speed d1 = d_speed d /\ d_battery d1 = d_battery d /\ d_sensors d1 = d_sensors d.
Proof.
  intros Eu. pose proof (Update_parts _ _ Eu) as (u1 & u2 & U1 & U2 & U3).
  destruct (updateState_src _ _ U1) as (P1 & P2 & _).
  pose proof (updateRoutes_inv _ _ U2) as (R1 & R2 & R3 & R4 & R5 & R6 & R7 & _).
  split; [rewrite U3; cbn; rewrite R7, P1; reflexivity|]. split; [rewrite U3, <- P2; cbn; rewrite R6; reflexivity|].
  split; [rewrite U3; cbn; rewrite R2, P1; reflexivity|]. split; [rewrite U3; cbn; rewrite R3, P1; reflexivity|].
  rewrite U3; cbn; rewrite R4, P1; reflexivity.
Qed.

Section Law.
Context (L : json_law T).

(** ** Routes *)
Lemma rewritable_back q b : json_marshal q = Some b -> forall q', json_unmarshal b = Some (Some q') -> json_marshal q' = Some b ->
  rewritable (Some q').
Proof. intros E q' E1 E2. exists b, q'. auto. Qed.

(** tracks and routes read back are written the same, and can go round again *)
Lemma track_again (t : track T) : rewritable (tk_props t) ->
  exists t', TrackFromSnapshot (track_Snapshot t) = Ret t' /\ track_Snapshot t' = track_Snapshot t /\
    rewritable (tk_props t') /\ (tk_props t <> None -> tk_props t' <> None).
Proof.
  intros H. unfold TrackFromSnapshot, track_Snapshot. cbn [ptr_segments]. rewrite mapM_map_id by apply segment_snap. cbn [bind].
  eexists. split; [reflexivity|]. cbn [tk_id tk_segments tk_color tk_props tk_dist tk_isClosed tk_name tk_version ptr_id ptr_color ptr_name ptr_props ptr_distance ptr_is_closed ptr_version].
  destruct (tk_props t) as [q|]; cbn [rewritable marshal_props] in *.
  - destruct H as (b & q' & E1 & E2 & E3). rewrite E1. destruct (law_text L q b E1) as [H0 _].
    unfold track_props_of. destruct (Z.ltb_spec 0 (slen b)); [|lia]. rewrite E2. cbn [marshal_props]. rewrite E3.
    split; [reflexivity|]. split; [exists b, q'; auto|discriminate].
  - cbn. split; [reflexivity|]. split; [exact I|congruence].
Qed.
Lemma route_again (r : route T) : proper_name r -> rewritable_route r ->
  exists r', RouteFromSnapshot route_zero (route_Snapshot r) = Ret (None, r') /\ route_Snapshot r' = route_Snapshot r /\
    rewritable_route r' /\ (touch_props r = r -> touch_props r' = r').
Proof.
  intros Hn [Hp Ht].
  assert (X : exists ts, mapM TrackFromSnapshot (map track_Snapshot (rt_tracks r)) = Ret ts /\
    map track_Snapshot ts = map track_Snapshot (rt_tracks r) /\ Forall (fun t => rewritable (tk_props t)) ts /\
    (Forall (fun t => tk_props t <> None) (rt_tracks r) -> Forall (fun t => tk_props t <> None) ts)).
  { clear Hp Hn. induction (rt_tracks r) as [|t ts IH]; cbn; [exists []; auto|].
    inversion Ht; subst. destruct (track_again t) as (t' & E1 & E2 & E3 & E4); [assumption|]. rewrite E1. cbn [bind].
    destruct IH as (ts' & -> & F2 & F3 & F4); [assumption|]. cbn [bind]. exists (t' :: ts'). split; [reflexivity|].
    cbn. rewrite E2, F2. split; [reflexivity|]. split; [auto|]. intros Q. inversion Q; subst. auto. }
  destruct X as (ts & Em & Es & Er & Ev).
  assert (P : exists p', (if (0 <? slen (marshal_props (rt_props r)))%Z then json_unmarshal (marshal_props (rt_props r)) else Some None) = Some p' /\
    marshal_props p' = marshal_props (rt_props r) /\ rewritable p' /\ (rt_props r <> None -> p' <> None)).
  { destruct (rt_props r) as [q|]; cbn [rewritable marshal_props] in *.
    - destruct Hp as (b & q' & E1 & E2 & E3). rewrite E1. destruct (law_text L q b E1) as [H0 _].
      destruct (Z.ltb_spec 0 (slen b)); [|lia]. exists (Some q'). rewrite E2. cbn. rewrite E3. split; [reflexivity|]. split; [reflexivity|].
      split; [exists b, q'; auto|discriminate].
    - exists None. cbn. auto. }
  destruct P as (p' & Ep & Eq & Hr' & Hv).
  assert (G : forall nm, nm = rt_name r -> let r' := mkRoute (rt_id r) (rt_dist r) (rt_color r) nm ts p' (rt_version r) in
    route_Snapshot r' = route_Snapshot r /\ rewritable_route r' /\ (touch_props r = r -> touch_props r' = r')).
  { intros nm -> r'. split; [|split].
    - unfold route_Snapshot, r'. cbn. now rewrite Es, Eq.
    - split; [exact Hr'|exact Er].
    - intros Q.
      assert (Q1 : rt_props r <> None).
      { intros Z. unfold touch_props, route_Props in Q. rewrite Z in Q. apply (f_equal rt_props) in Q. cbn in Q. congruence. }
      assert (Q2 : Forall (fun t => tk_props t <> None) (rt_tracks r)).
      { unfold touch_props, route_Props in Q. destruct (rt_props r); [|congruence]. cbn [snd] in Q. apply (f_equal rt_tracks) in Q. cbn in Q.
        clear -Q. induction (rt_tracks r) as [|t l IH]; [constructor|]. cbn in Q. injection Q as Q1 Q2. constructor; [|auto].
        intros Z. unfold track_Props in Q1. rewrite Z in Q1. apply (f_equal tk_props) in Q1. cbn in Q1. congruence. }
      specialize (Ev Q2). specialize (Hv Q1). unfold touch_props, route_Props, r'. cbn [rt_props]. destruct p' as [q'|]; [|congruence]. cbn.
      unfold route_setTracks. cbn. f_equal. clear -Ev. induction Ev as [|t l H _ IH]; [reflexivity|]. cbn. rewrite IH. f_equal.
      unfold track_Props. destruct (tk_props t); [reflexivity|congruence]. }
  unfold RouteFromSnapshot. unfold route_Snapshot at 1. cbn [pro_tracks]. rewrite Em. cbn [bind].
  unfold route_Snapshot at 1 2. cbn [pro_props]. rewrite Ep. cbv zeta iota. unfold route_Snapshot at 1 2 3 4 5 6. cbn [pro_name pro_id pro_distance pro_color pro_version].
  destruct Hn as [Hn|Hn].
  - destruct (Z.ltb_spec 0 (slen (rt_name r))) as [Hz|Hz]; [rewrite Hn in Hz; vm_compute in Hz; discriminate|].
    eexists. split; [reflexivity|]. apply G. rewrite Hn. reflexivity.
  - destruct (Z.ltb_spec 0 (slen (rt_name r))); [|lia]. unfold ParseName.
    destruct (Z.ltb_spec (slen (rt_name r)) 3); [lia|]. destruct (Z.ltb_spec 256 (slen (rt_name r))); [lia|].
    eexists. split; [reflexivity|]. apply G. reflexivity.
Qed.
Lemma routes_again (rs : list (route T)) : Forall proper_name rs -> Forall rewritable_route rs ->
  exists rs', mapM (fun r => let* er := RouteFromSnapshot route_zero r in Ret (snd er)) (map route_Snapshot rs) = Ret rs' /\
    map route_Snapshot rs' = map route_Snapshot rs /\ Forall rewritable_route rs' /\
    (map touch_props rs = rs -> map touch_props rs' = rs').
Proof.
  induction rs as [|r rs IH]; intros H1 H2; [exists []; auto|]. inversion H1; subst. inversion H2; subst.
  destruct (route_again r) as (r' & E1 & E2 & E3 & E4); [assumption..|]. destruct IH as (rs' & F1 & F2 & F3 & F4); [assumption..|].
  exists (r' :: rs'). cbn. rewrite E1. cbn [bind snd]. rewrite F1. cbn [bind]. split; [reflexivity|]. rewrite E2, F2.
  split; [reflexivity|]. split; [auto|]. intros Q. injection Q as Q1 Q2. now rewrite E4, F4.
Qed.
Lemma touch_touch (rs : list (route T)) : map touch_props (map touch_props rs) = map touch_props rs.
Proof.
  rewrite map_map. apply map_ext. intros r.
  assert (X : map (fun t => snd (track_Props t)) (map (fun t => snd (track_Props t)) (rt_tracks r)) = map (fun t => snd (track_Props t)) (rt_tracks r)).
  { rewrite map_map. apply map_ext. intros t. unfold track_Props. destruct (tk_props t) eqn:E; cbn; rewrite ?E; reflexivity. }
  unfold touch_props, route_Props. destruct (rt_props r) eqn:E; cbn [snd rt_props route_setTracks rt_tracks]; rewrite ?E; cbn [snd rt_tracks rt_props rt_id];
  unfold route_setTracks; cbn; now rewrite X.
Qed.

(** ** Navigators *)
Lemma NewRandom_range a b : (r_min (NewRandom a b) = a \/ r_min (NewRandom a b) = 0%Z) /\
  (r_max (NewRandom a b) = b \/ r_max (NewRandom a b) = 0%Z \/ r_max (NewRandom a b) = 1%Z).
Proof.
  unfold NewRandom. destruct (b <? 0)%Z; cbn; [auto|]. destruct (a <? 0)%Z; cbn.
  - destruct (b =? 0)%Z; cbn; auto.
  - destruct ((a =? 0) && (b =? 0))%Z; cbn; auto.
Qed.
Definition ranged n : Prop := exists a b, n_rnd n = Some (NewRandom a b).
Lemma nav_again n : snap_inv n -> Forall rewritable_route (n_routes n) -> map touch_props (n_routes n) = n_routes n ->
  exists s n' s', nav_Snapshot n = Ret s /\ nav_FromSnapshot nav_zero (Some s) = Ret n' /\ nav_Snapshot n' = Ret s' /\
    view_nav false n = view_nav false n' /\ snap_inv n' /\
    Forall rewritable_route (n_routes n') /\ map touch_props (n_routes n') = n_routes n' /\ ranged n' /\
    (ranged n -> s' = s) /\ (utf8_Navigator s -> utf8_Navigator s') /\ (int64_Navigator s -> int64_Navigator s').
Proof.
  intros Hi Hr Ht. destruct (nav_snap_inv L n Hi) as (s & n' & E1 & E2 & E3).
  assert (V : view_nav false n = view_nav false n') by (symmetry; apply (view_restored_nav false n n' E3); discriminate).
  destruct Hi as (Hp & Ho & e & He).
  destruct (routes_again (n_routes n) Hp Hr) as (rs' & F1 & F2 & F3 & F4). specialize (F4 Ht).
  exists s, n'. unfold nav_Snapshot in E1. rewrite He in E1. cbn [deref bind] in E1.
  destruct (match n_rnd n with Some r => (r_min r, r_max r) | None => (0%Z, 0%Z) end) as [omin omax] eqn:Er.
  apply Ret_inj in E1. subst s.
  pose proof E2 as E2'. unfold nav_FromSnapshot in E2'. cbn [pna_routes pna_point pna_elevation] in E2'. rewrite F1 in E2'. cbn [bind deref] in E2'.
  rewrite sensor_snap in E2'. cbn [bind] in E2'. apply Ret_inj in E2'. subst n'. cbn.
  eexists. split; [unfold nav_Snapshot; rewrite He; cbn [deref bind]; rewrite Er; reflexivity|]. split; [exact E2|]. split; [reflexivity|].
  split; [exact V|]. split; [|split; [exact F3|]].
  { split; [|split; [|exists e; reflexivity]]; cbn.
    - assert (G : map (fun r => rt_name r) rs' = map (fun r => rt_name r) (n_routes n)).
      { apply (f_equal (map (fun r => pro_name r))) in F2. rewrite !map_map in F2. exact F2. }
      clear -G Hp. revert rs' G. induction (n_routes n) as [|r l IH]; intros [|r' l'] G; try discriminate; [constructor|].
      cbn in G. injection G as G1 G2. inversion Hp; subst. constructor; [|now apply IH]. unfold proper_name. now rewrite G1.
    - intros _. cbn. eauto. }
  split; [exact F4|]. split; [exists omin, omax; reflexivity|].
  rewrite F2. split.
  - intros (a & b & R). rewrite R in Er. injection Er as <- <-. rewrite NewRandom_idem. destruct (n_point n). reflexivity.
  - split; [destruct (n_point n); cbn; exact (fun H => H)|].
    unfold int64_Navigator. cbn. intros H. destruct (NewRandom_range omin omax) as [Q1 Q2].
    assert (Z0 : is_int64 0 /\ is_int64 1) by (unfold is_int64; lia).
    assert (Q3 : is_int64 omin -> is_int64 (r_min (NewRandom omin omax))) by (destruct Q1 as [-> | ->]; tauto).
    assert (Q4 : is_int64 omax -> is_int64 (r_max (NewRandom omin omax))) by (destruct Q2 as [-> | [-> | ->]]; tauto).
    destruct (n_point n). cbn in *. tauto.
Qed.

(** ** Devices *)
Lemma set_same n : map touch_props (n_routes n) = n_routes n -> set_routes n (map touch_props (n_routes n)) = n.
Proof. intros ->. now destruct n. Qed.

Lemma Snapshot_again d d1 s : made_device d -> device_Update d = Ret d1 -> device_Snapshot d1 = Ret s -> rewritable_device d1 ->
  exists d2 d' d3 s', device_FromSnapshot device_zero s = Ret d2 /\ device_Update d2 = Ret d' /\ device_Update d' = Ret d3 /\
    device_Snapshot d3 = Ret s' /\ rewritable_device d3 /\ ranged (d_nav d') /\
    (ranged (d_nav d1) -> s' = s) /\ (utf8_Snapshot s -> utf8_Snapshot s') /\ (int64_Snapshot s -> int64_Snapshot s').
Proof.
  intros Hm Eu Es Hw.
  assert (Hr : restore_inv d1) by (eapply (restore_step d DUpdate); [exact I|now apply made_restore|exact Eu]).
  destruct Hr as [Hn _].
  destruct (Update_snap _ _ Eu) as (N1 & _).
  assert (Ht : map touch_props (n_routes (d_nav d1)) = n_routes (d_nav d1)) by (rewrite N1; cbn; apply touch_touch).
  destruct (nav_again _ Hn Hw Ht) as (sn & n' & sn' & A1 & A2 & A3 & A4 & A5 & A6 & A7 & A8 & A9 & A10 & A11).
  unfold device_Snapshot in Es. rewrite A1 in Es. cbn [bind] in Es. apply Ret_inj in Es. subst s.
  unfold device_FromSnapshot.
  cbn [psn_id psn_user_id psn_tick psn_duration psn_model psn_descr psn_status psn_color psn_navigator psn_speed psn_battery psn_sensors].
  rewrite A2. cbn [bind]. rewrite speed_snap. cbn [bind]. rewrite battery_snap. cbn [bind].
  assert (Esn : match map sensor_Snapshot (d_sensors d1) with [] => Ret (d_sensors (@device_zero T N)) | l => mapM (fun s => sensor_FromSnapshot (Some s)) l end = Ret (d_sensors d1)).
  { destruct (d_sensors d1) as [|q l] eqn:Eq; [reflexivity|]. exact (mapM_map_id (fun s => sensor_FromSnapshot (Some s)) sensor_Snapshot (q :: l) sensor_snap). }
  rewrite Esn. cbn [bind]. change (Stopped mod 256)%Z with Stopped.
  match goal with |- context [updateState (updateSensors ?q)] => set (D := updateSensors q) end.
  assert (K : state_ok (d_state D)).
  { subst D. cbn. repeat split; try discriminate. eexists. split; [reflexivity|]. repeat split; discriminate. }
  pose proof (Update_parts _ _ Eu) as (u1 & u2 & U1 & U2 & U3).
  assert (V : view_nav false (d_nav d) = view_nav false (d_nav D)).
  { change (d_nav D) with n'. rewrite <- A4, N1, view_touched. reflexivity. }
  destruct (updateState_any d D u1 V K U1) as (e1 & G1). rewrite G1. cbn [bind].
  pose proof (refreshed_ok _ _ (updateState_inv _ _ G1) K) as K1.
  destruct (updateState_src _ _ G1) as (S1 & S2 & _).
  assert (X2 : exists e2, updateRoutes e1 = Ret e2).
  { unfold updateRoutes. destruct K1 as (_ & K1 & _). destruct (pde_routes (d_state e1)); [|congruence]. cbn. eauto. }
  destruct X2 as (e2 & G2). pose proof (updateRoutes_inv _ _ G2) as (T1 & T2 & T3 & T4 & T5 & T6 & T7 & _).
  assert (M2 : d_nav e2 = n') by (rewrite T7, S1; cbn; now apply set_same).
  assert (K2 : state_ok (d_state e2)) by (eapply RestoreProofs.updateRoutes_ok; eauto).
  assert (V2 : view_nav false (d_nav d) = view_nav false (d_nav e2)) by (rewrite M2; exact V).
  destruct (Update_any d e2 u1 V2 K2 U1) as (d' & G3). pose proof (Update_snap _ _ G3) as (M3 & Q1 & Q2 & Q3 & Q4).
  assert (M3' : d_nav d' = n') by (rewrite M3, M2; now apply set_same).
  pose proof (Update_state_ok _ _ K2 G3) as K3.
  assert (V3 : view_nav false (d_nav d) = view_nav false (d_nav d')) by (rewrite M3'; exact V).
  destruct (Update_any d d' u1 V3 K3 U1) as (d3 & G4). pose proof (Update_snap _ _ G4) as (M4 & W1 & W2 & W3 & W4).
  assert (M4' : d_nav d3 = n') by (rewrite M4, M3'; now apply set_same).
  assert (SR : src (d_state d3) = src (d_state D)) by (rewrite W1, Q1, T6; change (src (d_state e1) = src (d_state D)); exact S2).
  assert (B2 : d_speed d3 = d_speed d1) by (rewrite W2, Q2, T2, S1; reflexivity).
  assert (B3 : d_battery d3 = d_battery d1) by (rewrite W3, Q3, T3, S1; reflexivity).
  assert (B4 : d_sensors d3 = d_sensors d1) by (rewrite W4, Q4, T4, S1; reflexivity).
  unfold src in SR. cbn [d_state D updateSensors] in SR.
  pose proof (f_equal (fun q => fst (fst (fst (fst (fst (fst q)))))) SR) as F1.
  pose proof (f_equal (fun q => snd (fst (fst (fst (fst (fst q)))))) SR) as F2.
  pose proof (f_equal (fun q => fst (snd (fst (fst (fst (fst q)))))) SR) as F3.
  pose proof (f_equal (fun q => snd (snd (fst (fst (fst (fst q)))))) SR) as F4.
  pose proof (f_equal (fun q => snd (fst (fst (fst q)))) SR) as F5.
  pose proof (f_equal (fun q => snd (fst q)) SR) as F7.
  pose proof (f_equal (fun q => fst (snd q)) SR) as F8.
  cbn [fst snd] in F1, F2, F3, F4, F5, F7, F8.
  exists e2, d', d3. eexists. split; [exact G2|]. split; [exact G3|]. split; [exact G4|].
  split; [unfold device_Snapshot; rewrite M4', A3; cbn [bind]; reflexivity|].
  split; [unfold rewritable_device; rewrite M4'; exact A6|]. split; [rewrite M3'; exact A8|].
  rewrite F1, F2, F3, F4, F5, F7, F8, B2, B3, B4. cbn.
  split.
  - intros R. now rewrite (A9 R).
  - split.
    + unfold utf8_Snapshot. cbn. intros (H1 & H2 & H3 & H4 & H5 & H6 & H7 & H8 & H9). repeat (split; [assumption|]).
      split; [exact (A10 H6)|]. auto.
    + unfold int64_Snapshot. cbn. intros (H1 & H2 & H3). split; [exact H1|]. split; [exact (A11 H2)|exact H3].
Qed.

Context (HB : bits_law T).

Lemma encoded d d1 b : EncodeTracker (Some d) = Ret (GOk b, Some d1) ->
  exists s, device_Update d = Ret d1 /\ device_Snapshot d1 = Ret s /\ to_bytes d_Snapshot (w_Snapshot s) = GOk b.
Proof.
  intros E. unfold EncodeTracker in E.
  destruct (device_Update d) as [u| |] eqn:Eu; cbn [bind] in E; try discriminate.
  unfold MarshalBinary in E. destruct (device_Snapshot u) as [s| |] eqn:Es; cbn [bind] in E; try discriminate.
  apply Ret_inj in E. pose proof (f_equal fst E) as Eb. pose proof (f_equal snd E) as Ed. cbn in Eb, Ed. injection Ed as ->. eauto.
Qed.
Lemma encode_it d d1 s r : device_Update d = Ret d1 -> device_Snapshot d1 = Ret s -> to_bytes d_Snapshot (w_Snapshot s) = r ->
  EncodeTracker (Some d) = Ret (r, Some d1).
Proof. intros E1 E2 E3. unfold EncodeTracker. rewrite E1. cbn [bind]. unfold MarshalBinary. rewrite E2. cbn [bind]. now rewrite E3. Qed.

Lemma tracker_again d d1 b : made_device d -> EncodeTracker (Some d) = Ret (GOk b, Some d1) -> go_sized d1 b -> rewritable_device d1 ->
  exists d' b' d2, DecodeTracker b = Ret (GOk d') /\ EncodeTracker (Some d') = Ret (GOk b', Some d2) /\
    rewritable_device d2 /\ ranged (d_nav d2) /\ (ranged (d_nav d1) -> b' = b) /\ ((zlen b' < 2 ^ 63)%Z -> go_sized d2 b').
Proof.
  intros Hm E Hz Hw. destruct (encoded _ _ _ E) as (s & Eu & Es & Eb).
  destruct (decoded_bytes HB d1 s b Es Eb Hz) as (Hb & m & Em & Hmm).
  destruct (Snapshot_again d d1 s Hm Eu Es Hw) as (d2 & d' & d3 & s' & F1 & F2 & F3 & F4 & F5 & F6 & F7 & F8 & F9).
  assert (Hi : int64_Snapshot s) by (apply Hz; exact Es).
  assert (Hu : utf8_Snapshot s).
  { unfold to_bytes in Eb. destruct (marshal d_Snapshot (w_Snapshot s)) as [b0|] eqn:Q; [|discriminate]. apply utf_Snapshot. eapply enc_utf8; exact Q. }
  destruct (C37_snapshot_proof HB s' (F9 Hi) (F8 Hu)) as (b' & Eb' & _).
  exists d', b', d3. split.
  { unfold DecodeTracker, UnmarshalBinary. destruct b as [|b0 b]; [congruence|]. rewrite Em, Hmm, F1. cbn [bind]. rewrite F2. reflexivity. }
  split; [eapply encode_it; [exact F3|exact F4|unfold to_bytes; now rewrite Eb']|]. split; [exact F5|].
  split.
  { destruct (Update_snap _ _ F3) as (-> & _). destruct F6 as (a & c & F6). exists a, c. exact F6. }
  split.
  - intros R. specialize (F7 R). subst s'. unfold to_bytes in Eb. rewrite Eb' in Eb. congruence.
  - intros Q. split; [|exact Q]. intros s0 Q0. assert (s0 = s') by congruence. subst s0. exact (F9 Hi).
Qed.

Lemma C87_tracker_proof d d1 b : made_device d -> EncodeTracker (Some d) = Ret (GOk b, Some d1) -> go_sized d1 b ->
  rewritable_device d1 -> n_skip (d_nav d1) = false ->
  exists d' d2, DecodeTracker b = Ret (GOk d') /\ EncodeTracker (Some d') = Ret (GOk b, Some d2).
Proof.
  intros Hm E Hz Hw Hs. destruct (tracker_again d d1 b Hm E Hz Hw) as (d' & b' & d2 & G1 & G2 & _ & _ & G5 & _).
  destruct (encoded _ _ _ E) as (s & Eu & _).
  assert (Hr : restore_inv d1) by (eapply (restore_step d DUpdate); [exact I|now apply made_restore|exact Eu]).
  destruct Hr as [(_ & Ho & _) _]. rewrite (G5 (Ho Hs)) in G2. eauto.
Qed.
Lemma C87_settles_proof d d1 b : made_device d -> EncodeTracker (Some d) = Ret (GOk b, Some d1) -> go_sized d1 b ->
  rewritable_device d1 ->
  exists d' b' d2, DecodeTracker b = Ret (GOk d') /\ EncodeTracker (Some d') = Ret (GOk b', Some d2) /\
    ((zlen b' < 2 ^ 63)%Z -> exists d'' d3, DecodeTracker b' = Ret (GOk d'') /\ EncodeTracker (Some d'') = Ret (GOk b', Some d3)).
Proof.
  intros Hm E Hz Hw. destruct (tracker_again d d1 b Hm E Hz Hw) as (d' & b' & d2 & G1 & G2 & G3 & G4 & _ & G6).
  exists d', b', d2. split; [exact G1|]. split; [exact G2|]. intros Q.
  destruct (tracker_again d' d2 b' (md_decoded b d' G1) G2 (G6 Q) G3) as (d'' & b'' & d3 & H1 & H2 & _ & _ & H5 & _).
  rewrite (H5 G4) in H2. eauto.
Qed.

Lemma C87_routes_proof (rs : list (route T)) b : Forall made_route rs -> Forall int64_route rs -> Forall rewritable_route rs ->
  EncodeRoutes rs = GOk b -> (zlen b < 2 ^ 63)%Z ->
  exists rs', DecodeRoutes b = Ret (GOk rs') /\ EncodeRoutes rs' = GOk b.
Proof.
  intros Hm Hi Hw E Hz.
  assert (Hne : rs <> []) by (intros ->; discriminate).
  destruct (C38_routes_proof L HB rs Hm Hi) as (_ & H2 & H3).
  assert (Hp : Forall proper_name rs) by (eapply Forall_impl; [|exact Hm]; apply made_proper).
  destruct (routes_again rs Hp Hw) as (rs' & F1 & F2 & _).
  assert (E' : EncodeRoutes rs = to_bytes d_Routes (w_Routes (mkPbRoutes (map route_Snapshot rs)))) by (destruct rs; [congruence|reflexivity]).
  exists rs'. split.
  - unfold to_bytes in E'. rewrite E in E'. destruct (marshal d_Routes _) as [b0|] eqn:Em; [|discriminate]. injection E' as ->.
    destruct (C37_routes_proof HB (mkPbRoutes (map route_Snapshot rs))) as (b1 & Eb & D); [now apply int64_route_iff|apply utf_Routes; eapply enc_utf8; exact Em|].
    assert (b1 = b0) by congruence. subst b1. specialize (D Hz). unfold DecodeRoutes.
    destruct (unmarshal d_Routes b0) as [m|] eqn:Eu; [|discriminate].
    assert (D' : r_Routes m = mkPbRoutes (map route_Snapshot rs)) by (injection D as D; unfold r_Routes; now rewrite D). clear D.
    destruct b0 as [|c b0].
    { exfalso. cbn in Eu. injection Eu as <-. apply (f_equal prs_routes) in D'. cbn in D'. destruct rs; [congruence|discriminate]. }
    rewrite D'. cbn [prs_routes]. rewrite F1. reflexivity.
  - rewrite <- E, E', <- F2. destruct rs' as [|r' rs']; [|reflexivity]. destruct rs; [congruence|discriminate].
Qed.
Lemma C87_sensors_proof (ss : list (sensor T)) b : Forall int64_sensor ss -> EncodeSensors ss = GOk b -> (zlen b < 2 ^ 63)%Z ->
  exists ss', DecodeSensors b = Ret (GOk ss') /\ EncodeSensors ss' = GOk b.
Proof.
  intros Hi E Hz. assert (Hne : ss <> []) by (intros ->; discriminate).
  exists ss. split; [|exact E].
  assert (E' : EncodeSensors ss = to_bytes d_Sensors (w_Sensors (mkPbSensors (map sensor_Snapshot ss)))) by (destruct ss; [congruence|reflexivity]).
  destruct (C38_sensors_proof HB ss Hi) as (_ & _ & H).
  assert (Hu : Forall utf8_sensor ss).
  { rewrite E in E'. unfold to_bytes in E'. destruct (marshal d_Sensors _) as [b0|] eqn:Em; [|discriminate].
    apply utf8_sensor_iff. apply utf_Sensors. eapply enc_utf8; exact Em. }
  destruct (H Hne Hu) as (b0 & E0 & D). assert (b0 = b) by congruence. subst b0. auto.
Qed.

(** maps JSON does not change are written the same *)
Lemma same_rewritable d : json_same_device d -> rewritable_device d.
Proof.
  assert (X : forall p : option (props T), json_same p -> p <> None -> rewritable p).
  { intros [q|] [H1 H2] H; [|congruence]. cbn in *. destruct (law_able L q H1) as (b & p' & E1 & E2 & E3).
    assert (p' = q) by (apply H2, E3). subst p'. exists b, q. auto. }
  intros H. unfold rewritable_device. eapply Forall_impl; [|exact H]. intros r [H1 H2]. split.
  - destruct (rt_props r) as [q|] eqn:E; [|exact I]. rewrite <- E. apply X; [now rewrite E|congruence].
  - eapply Forall_impl; [|exact H2]. intros t H3. cbn. destruct (tk_props t) as [q|] eqn:E; [|exact I]. rewrite <- E. apply X; [assumption|congruence].
Qed.

End Law.
End ResaveProofs.
