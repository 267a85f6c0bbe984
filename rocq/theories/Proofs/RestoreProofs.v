(** C36: a decoded device goes on like the encoded one. *)
From Coq Require Import Lia.
From Verif.Model Require Import Base Num Utf8 Geo Curve PropMap Types Pb TypesSnap Track Route Navigator Device Wire WireMsgs IO.
From Verif.Spec Require Import ListSpec TrackSpec RouteSpec NavSpec TypesSpec DeviceSpec SnapSpec RestoreSpec WireSpec WireMsgSpec.
From Verif.Proofs Require Import BaseLemmas NavLemmas DeviceLemmas DeviceProofs DeviceProofs2 DeviceProofs3 WireProofs WireMsgProofs WireTop SnapProofs ViewNav ViewDev.
Open Scope num_scope.

Section RestoreProofs.
Context {T : Type} {N : Num T} {J : JsonLib T} {U : UtmLib T} {B : Bits64 T}.
Implicit Types (d : device T) (n : navigator T).

(** ** The published units never change *)

Lemma updateRoutes_units d d' : updateRoutes d = Ret d' -> pde_units (d_state d') = pde_units (d_state d).
Proof. intros H. apply updateRoutes_inv in H. destruct H as (_ & _ & _ & _ & _ & H2 & _). now rewrite H2. Qed.
Lemma nav_Update_units n st st' : nav_Update n st = Ret st' -> pde_units st' = pde_units st.
Proof.
  unfold nav_Update. cbn zeta.
  destruct (RouteDistance n) as [rd| |]; cbn [bind]; try discriminate.
  destruct (TrackDistance n) as [td| |]; cbn [bind]; try discriminate.
  destruct (SegmentDistance n) as [sd| |]; cbn [bind]; try discriminate.
  destruct (pde_navigator (normalizeDeviceState st)) as [v|] eqn:Ev; cbn [deref bind]; try discriminate.
  destruct (CurrentRoute n) as [r| |] eqn:Er; cbn [bind]; try discriminate.
  destruct (CurrentTrack n) as [t| |] eqn:Et; cbn [bind]; try discriminate.
  destruct (pde_location (normalizeDeviceState st)) as [l|]; cbn [deref bind]; try discriminate.
  destruct (CurrentBearing n) as [br| |]; cbn [bind]; try discriminate.
  destruct (n_elev n) as [e|]; cbn [deref bind]; try discriminate.
  destruct (pdl_utm l); cbn [deref bind]; try discriminate.
  destruct (pdl_lat_dms l); cbn [deref bind]; try discriminate.
  destruct (pdl_lon_dms l); cbn [deref bind]; try discriminate.
  intros [= <-]. reflexivity.
Qed.
Lemma updateState_units d d' : updateState d = Ret d' -> pde_units (d_state d') = pde_units (d_state d).
Proof.
  unfold updateState. destruct (nav_Update _ _) as [st| |] eqn:En; cbn [bind]; try discriminate.
  apply nav_Update_units in En.
  destruct (pde_battery st) as [b|] eqn:Eb; cbn [deref bind]; try discriminate.
  destruct (pde_distance st) as [x|] eqn:Ex; cbn [deref bind]; try discriminate.
  cbv zeta. destruct (_ =? _)%Z; intros E; apply Ret_inj in E; subst d'; exact En.
Qed.

Lemma Next_units d tick x b d' : Next_locked d tick x = Ret (b, d') -> pde_units (d_state d') = pde_units (d_state d).
Proof.
  intros E. destruct (n_routes (d_nav d)) eqn:Er.
  { unfold Next_locked in E. rewrite Er in E. injection E as <- <-. auto. }
  apply Next_locked_inv in E; [|congruence]. clear Er. destruct E as (d3 & t & NB & St).
  pose proof (nb_state _ _ _ _ _ NB) as B7.
  assert (P3 : pde_units (d_state d3) = pde_units (d_state d)) by (rewrite B7; reflexivity). rewrite <- P3.
  inversion St as [n2 n3 S1 S2 Eb Ed|n2 n3 n4 d4 d5 S1 S2 S4' S4 S5 S6 S7 S8 S9 Eb Ed|n2 n3 ss d4 d5 d6 S1 S2 S4 S4' S5 S6 Eb Ed]; subst.
  - reflexivity.
  - rewrite (updateState_units _ _ S9), S8. reflexivity.
  - rewrite (updateState_units _ _ S6). destruct S5 as [[-> _]|[_ S5]]; [reflexivity|].
    rewrite (updateRoutes_units _ _ S5). reflexivity.
Qed.

Lemma units_step d o d' : run_dev d o = Ret d' -> pde_units (d_state d') = pde_units (d_state d).
Proof.
  intros E. destruct o; cbn [run_dev] in E;
    try (injection E as <-; reflexivity).
  - injection E as <-. unfold SetModel. destruct (NewModel m); reflexivity.
  - injection E as <-. unfold SetColor; destruct hex; reflexivity.
  - injection E as <-. unfold AddSensor; destruct (add_sensors _ _ _) as [? ok]; destruct (0 <? ok)%Z; reflexivity.
  - injection E as <-. unfold RemoveSensor; (destruct (_ =? _)%Z; [reflexivity|]; destruct (find_index _ _); reflexivity).
  - destruct (nth_error _ _) eqn:F; [|injection E as <-; reflexivity].
    destruct (run_sensor1 _ _) as [s'| |] eqn:G; try discriminate. injection E as <-. reflexivity.
  - unfold AddRoute in E. destruct (nav_AddRoute _ _) as [[e|] n] eqn:A.
    + injection E as <-. reflexivity.
    + destruct (updateRoutes _) as [d1| |] eqn:F; cbn in E; try discriminate. injection E as <-. now apply updateRoutes_units in F.
  - unfold RemoveRoute in E. destruct (nav_RemoveRoute _ _) as [[] n] eqn:A.
    + destruct (updateRoutes _) as [d1| |] eqn:F; cbn in E; try discriminate. injection E as <-. now apply updateRoutes_units in F.
    + injection E as <-. reflexivity.
  - unfold RemoveTrack in E. destruct (nav_RemoveTrack _ _ _) as [[] n] eqn:A.
    + destruct (updateRoutes _) as [d1| |] eqn:F; cbn in E; try discriminate. injection E as <-. now apply updateRoutes_units in F.
    + injection E as <-. reflexivity.
  - unfold ResetRoutes in E. destruct (nav_ResetRoutes _) as [[] n] eqn:A.
    + destruct (updateRoutes _) as [d1| |] eqn:F; cbn in E; try discriminate. injection E as <-. now apply updateRoutes_units in F.
    + injection E as <-. reflexivity.
  - injection E as <-. unfold device_move; destruct (NextRoute _); reflexivity.
  - injection E as <-. unfold device_move; destruct (PrevRoute _); reflexivity.
  - injection E as <-. unfold device_move; destruct (MoveToRouteByID _ _); reflexivity.
  - injection E as <-. unfold device_move; destruct (MoveToTrackByID _ _ _); reflexivity.
  - injection E as <-. unfold device_move; destruct (MoveToRoute _ _); reflexivity.
  - injection E as <-. unfold device_move; destruct (MoveToTrack _ _ _); reflexivity.
  - injection E as <-. unfold device_move; destruct (MoveToSegment _ _ _ _); reflexivity.
  - injection E as <-. unfold device_move; destruct (DestinationTo _ _); reflexivity.
  - unfold device_ToOffline in E. destruct (ToOffline _ _) as [n| |] eqn:A; try discriminate. injection E as <-. reflexivity.
  - injection E as <-. unfold device_IsFinish; destruct (IsFinish _); reflexivity.
  - unfold device_Update in E. destruct (updateState d) as [d1| |] eqn:F; cbn [bind] in E; try discriminate.
    destruct (updateRoutes d1) as [d2| |] eqn:G; cbn [bind] in E; try discriminate. injection E as <-.
    apply updateRoutes_units in G. apply updateState_units in F. cbn. congruence.
  - unfold Next in E. destruct free.
    + destruct (Next_locked d tick x) as [[b d1]| |] eqn:F; cbn in E; try discriminate. injection E as <-.
      now apply Next_units in F.
    + injection E as <-. reflexivity.
  - injection E as <-. unfold mount; destruct (_ =? _)%Z; reflexivity.
  - injection E as <-. unfold unmount; destruct (_ =? _)%Z; reflexivity.
  - destruct (run_nav _ _) as [q| |]; cbn [bind] in E; try discriminate.
    destruct (device_Snapshot d) as [q'| |]; cbn [bind] in E; try discriminate. injection E as <-. reflexivity.
Qed.

(** ** Invariant of devices *)

Definition restore_inv d : Prop :=
  snap_inv (d_nav d) /\ pde_units (d_state d) = pde_units (@initDeviceState T N).

Lemma speed_step d o d' : run_dev d o = Ret d' -> speed_published d -> speed_published d'.
Proof.
  unfold speed_published. intros E H. assert (D : not_next o \/ exists free tick x, o = DNext free tick x).
  { destruct o; try (left; exact I). right; eauto. }
  destruct D as [D|(free & tick & x & ->)].
  - destruct (other_time d o d' D E) as (_ & _ & _ & E1 & E2 & _). now rewrite E1, E2.
  - cbn [run_dev] in E. destruct free; [|cbn in E; injection E as <-; exact H].
    destruct (Next d true tick x) as [[b d1]| |] eqn:F; cbn in E; try discriminate. injection E as <-.
    destruct (n_routes (d_nav d)) eqn:R.
    + rewrite (C42_proof _ _ _ R) in F. injection F as <- <-. exact H.
    + apply Next_time in F; [|congruence]. apply F.
Qed.

Lemma restore_step d o d' : dev_adds_made_routes o -> restore_inv d -> run_dev d o = Ret d' -> restore_inv d'.
Proof.
  intros Ho (H1 & H2) E. split.
  - destruct (trace d o d' E) as (los & Hl & El). eapply snap_inv_steps; [|exact H1|exact El].
    eapply Forall_impl; [|exact Hl]. intros lo [Hq|Hc].
    + destruct lo; cbn in *; auto; contradiction.
    + destruct o; try contradiction; try (subst lo; exact I); try (subst lo; exact Ho).
      destruct free; [|contradiction]. destruct Hc as [->|[->|[->|[(? & ->)|(? & ? & ->)]]]]; exact I.
  - now rewrite (units_step _ _ _ E).
Qed.

Lemma built_restore opts x d : built opts x d -> restore_inv d.
Proof.
  intros H. apply built_inv in H. destruct H as (o & nav & sp & b & st & o' & -> & _ & E1 & E2 & _ & E3).
  assert (Q : exists a b c e f, st = st_ident initDeviceState a b c e f).
  { unfold applyFor in E3. destruct (if (0 <? slen (do_model o))%Z then NewModel _ else _) as [m|]; [|discriminate].
    match type of E3 with context [match ?q with GErr _ => _ | GOk _ => _ end] => destruct q as [c|]; [|discriminate] end.
    injection E3 as <- _. eauto 10. }
  destruct Q as (a & b0 & c & e & f & ->). split; [eapply snap_inv_start; exact E1|]. reflexivity.
Qed.

Lemma touch_snap_inv d d' : updateRoutes d = Ret d' -> snap_inv (d_nav d) -> snap_inv (d_nav d').
Proof.
  intros H (H1 & H2 & H3). apply updateRoutes_inv in H. destruct H as (_ & _ & _ & _ & _ & _ & H & _). rewrite H.
  split; [|split]; [|exact H2|exact H3]. cbn. apply Forall_map. eapply Forall_impl; [|exact H1]. intros r Hr. unfold proper_name in *.
  unfold touch_props, route_Props. destruct (rt_props r); exact Hr.
Qed.

Lemma Update_parts d d' : device_Update d = Ret d' -> exists d1 d2, updateState d = Ret d1 /\ updateRoutes d1 = Ret d2 /\ d' = updateSensors d2.
Proof.
  unfold device_Update. destruct (updateState d) as [d1| |] eqn:F; cbn [bind]; try discriminate.
  destruct (updateRoutes d1) as [d2| |] eqn:G; cbn [bind]; try discriminate. intros E. apply Ret_inj in E. eauto.
Qed.
Lemma updateState_speed d d' : updateState d = Ret d' -> d' = dset_state d (d_state d') /\ pde_speed (d_state d') = pde_speed (d_state d).
Proof.
  intros F. apply updateState_inv in F. pose proof (rf_ident _ _ F) as Q. unfold ident in Q.
  split; [exact (rf_same _ _ F)|]. now injection Q as _ _ _ _ _ Q _ _ _.
Qed.

Lemma decoded_restore b d : DecodeTracker b = Ret (GOk d) -> restore_inv d /\ speed_published d.
Proof.
  unfold DecodeTracker. destruct b as [|b0 b]; [discriminate|]. unfold UnmarshalBinary.
  destruct (unmarshal _ _) as [m|]; cbn [bind]; [|discriminate].
  destruct (device_FromSnapshot _ _) as [d2| |] eqn:E; cbn [bind]; try discriminate.
  destruct (device_Update d2) as [d3| |] eqn:F; cbn [bind]; try discriminate.
  intros H. apply Ret_inj in H. assert (d3 = d) by congruence. subst d3. clear H.
  enough (H : restore_inv d2 /\ speed_published d2).
  { destruct H as [H1 H2]. split; [eapply (restore_step d2 DUpdate); [exact I|assumption|exact F]|eapply (speed_step d2 DUpdate); eauto]. } clear F d.
  set (s := r_Snapshot m) in E. unfold device_FromSnapshot in E.
  destruct (nav_FromSnapshot _ _) as [nav| |] eqn:E1; cbn [bind] in E; try discriminate.
  destruct (speed_FromSnapshot _) as [sp| |]; cbn [bind] in E; try discriminate.
  destruct (battery_FromSnapshot _) as [bt| |]; cbn [bind] in E; try discriminate.
  match type of E with bind ?q _ = _ => destruct q as [l| |]; cbn [bind] in E; try discriminate end.
  match type of E with bind (updateState ?q) _ = _ => set (d0 := q) in E end.
  destruct (updateState d0) as [d1| |] eqn:F; cbn [bind] in E; try discriminate.
  destruct (updateState_speed _ _ F) as [Q1 Q2].
  assert (En : d_nav d1 = nav) by (rewrite Q1; reflexivity).
  split; [split|].
  - eapply touch_snap_inv; [exact E|]. rewrite En. destruct (psn_navigator s) as [sn|] eqn:Sn.
    + cbn [nav_FromSnapshot] in E1. destruct (mapM _ _) as [rs| |] eqn:M; cbn [bind] in E1; try discriminate.
      destruct (deref (pna_point sn)) as [p| |]; cbn [bind] in E1; try discriminate.
      destruct (sensor_FromSnapshot _) as [e| |]; cbn [bind] in E1; try discriminate.
      apply Ret_inj in E1. subst nav. split; [|split].
      * cbn. clear -M. revert rs M. induction (pna_routes sn) as [|r l IH]; intros rs M; cbn in M.
        { apply Ret_inj in M. subst. constructor. }
        destruct (RouteFromSnapshot route_zero r) as [[e r']| |] eqn:R; cbn [bind] in M; try discriminate.
        destruct (mapM _ l) as [rs'| |]; cbn [bind] in M; try discriminate. apply Ret_inj in M. subst rs.
        constructor; [eapply decoded_proper; exact R|auto].
      * intros _. cbn. eauto.
      * cbn. eauto.
    + cbn in E1. apply Ret_inj in E1. subst nav.
      (* no navigator: the elevation is nil and updateState panics *)
      exfalso. clear -F. unfold updateState, nav_Update in F. cbn in F. discriminate.
  - rewrite (updateRoutes_units _ _ E), (updateState_units _ _ F). reflexivity.
  - unfold speed_published. apply updateRoutes_inv in E. destruct E as (_ & E2 & _ & _ & _ & E3 & _). rewrite E2, E3. cbn [st_routes pde_speed]. rewrite Q2, Q1. reflexivity.
Qed.

Lemma made_restore d : made_device d -> restore_inv d.
Proof.
  induction 1 as [opts x d H|b d H|d o d' _ IH Ho E]; [eapply built_restore; eauto|eapply decoded_restore in H; apply H|].
  eapply restore_step; eauto.
Qed.

(** ** What an update depends on *)

Definition src (st : pbDevice T) :=
  (pde_id st, pde_user_id st, (pde_tick st, pde_duration st), pde_model st, pde_speed st,
   pde_description st, (pde_color st, pde_units st)).
Definition rid (st : pbDevice T) : string := match pde_navigator st with Some v => pdv_current_route_id v | None => "" end.
Definition tid (st : pbDevice T) : string := match pde_navigator st with Some v => pdv_current_track_id v | None => "" end.

Record src_eq (a b : device T) : Prop := {
  se_status : d_status a = d_status b;
  se_nav : d_nav a = d_nav b;
  se_speed : d_speed a = d_speed b;
  se_battery : d_battery a = d_battery b;
  se_sensors : d_sensors a = d_sensors b;
  se_tick : d_tick a = d_tick b;
  se_src : src (d_state a) = src (d_state b);
  se_rid : CurrentRoute (d_nav a) = Ret None -> rid (d_state a) = rid (d_state b);
  se_tid : CurrentTrack (d_nav a) = Ret None -> tid (d_state a) = tid (d_state b) }.

Lemma nav_Update_src n sa sb ra : nav_Update n sa = Ret ra -> state_ok sb -> src sa = src sb ->
  (CurrentRoute n = Ret None -> rid sa = rid sb) -> (CurrentTrack n = Ret None -> tid sa = tid sb) ->
  exists rb, nav_Update n sb = Ret rb /\ src rb = src ra /\
    (pde_distance rb, pde_location rb, pde_navigator rb, (pde_is_offline rb, pde_offline_duration rb)) =
    (pde_distance ra, pde_location ra, pde_navigator ra, (pde_is_offline ra, pde_offline_duration ra)) /\
    pde_distance rb <> None /\ pde_routes rb = pde_routes sb /\ pde_battery rb = pde_battery sb.
Proof.
  intros H (_ & _ & Kd & Kn & l0 & Kl & Kl1 & Kl2 & Kl3) Hs Hr Ht. revert H. unfold nav_Update. cbn zeta.
  destruct (RouteDistance n) as [rd| |]; cbn [bind]; try discriminate.
  destruct (TrackDistance n) as [td| |]; cbn [bind]; try discriminate.
  destruct (SegmentDistance n) as [sd| |]; cbn [bind]; try discriminate.
  destruct (pde_navigator (normalizeDeviceState sa)) as [v|] eqn:Ev; cbn [deref bind]; try discriminate.
  destruct (CurrentRoute n) as [r| |] eqn:Er; cbn [bind]; try discriminate.
  destruct (CurrentTrack n) as [t| |] eqn:Et; cbn [bind]; try discriminate.
  destruct (pde_location (normalizeDeviceState sa)) as [l|]; cbn [deref bind]; try discriminate.
  destruct (CurrentBearing n) as [br| |]; cbn [bind]; try discriminate.
  destruct (n_elev n) as [e|]; cbn [deref bind]; try discriminate.
  destruct (pdl_utm l); cbn [deref bind]; try discriminate.
  destruct (pdl_lat_dms l); cbn [deref bind]; try discriminate.
  destruct (pdl_lon_dms l); cbn [deref bind]; try discriminate.
  intros H. apply Ret_inj in H. subst ra.
  unfold normalizeDeviceState in *. cbn [pde_navigator pde_location] in *. rewrite Kl. cbn [deref bind].
  destruct (pdl_utm l0); [|congruence]. destruct (pdl_lat_dms l0); [|congruence]. destruct (pdl_lon_dms l0); [|congruence]. cbn [deref bind].
  destruct (pde_navigator sb) as [vb|] eqn:Vb; [|congruence]. cbn [deref bind].
  eexists. split; [reflexivity|]. cbn. split; [symmetry; exact Hs|]. split; [|repeat split; discriminate].
  do 3 f_equal. f_equal.
  - destruct r; [reflexivity|]. specialize (Hr eq_refl). unfold rid in Hr. rewrite Vb in Hr.
    destruct (pde_navigator sa); [|]; injection Ev as <-; cbn in *; congruence.
  - destruct t; [reflexivity|]. specialize (Ht eq_refl). unfold tid in Ht. rewrite Vb in Ht.
    destruct (pde_navigator sa); [|]; injection Ev as <-; cbn in *; congruence.
Qed.

Lemma device_ext (x y : device T) : d_status x = d_status y -> d_nav x = d_nav y -> d_speed x = d_speed y -> d_battery x = d_battery y -> d_state x = d_state y -> d_sensors x = d_sensors y -> d_avgT x = d_avgT y -> d_tick x = d_tick y -> d_ns x = d_ns y -> x = y.
Proof. destruct x, y; cbn; intros; subst; reflexivity. Qed.
Lemma state_ext (x y : pbDevice T) : pde_id x = pde_id y -> pde_user_id x = pde_user_id y -> pde_tick x = pde_tick y -> pde_duration x = pde_duration y -> pde_model x = pde_model y -> pde_speed x = pde_speed y -> pde_distance x = pde_distance y -> pde_battery x = pde_battery y -> pde_routes x = pde_routes y -> pde_location x = pde_location y -> pde_navigator x = pde_navigator y -> pde_sensors x = pde_sensors y -> pde_description x = pde_description y -> pde_is_offline x = pde_is_offline y -> pde_offline_duration x = pde_offline_duration y -> pde_color x = pde_color y -> pde_time_estimate x = pde_time_estimate y -> pde_units x = pde_units y -> x = y.
Proof. destruct x, y; cbn; intros; subst; reflexivity. Qed.

Lemma Update_src a b a' : src_eq a b -> state_ok (d_state b) -> device_Update a = Ret a' -> device_Update b = Ret a'.
Proof.
  intros [Q1 Q2 Q3 Q4 Q5 Q6 Q7 Q8 Q9] K E. apply Update_parts in E. destruct E as (d1 & d2 & E1 & E2 & ->).
  unfold updateState in E1. destruct (nav_Update _ _) as [sa| |] eqn:En; cbn [bind] in E1; try discriminate.
  rewrite Q2 in Q8, Q9, En. destruct (nav_Update_src _ _ _ _ En K Q7 Q8 Q9) as (sb & Fn & Fs & Fd & Fk & Fr & Fb).
  destruct K as (Kb & Kr & _).
  destruct (pde_battery sa) as [b1|] eqn:Eb; cbn [deref bind] in E1; try discriminate.
  destruct (pde_distance sa) as [x|] eqn:Ex; cbn [deref bind] in E1; try discriminate.
  assert (Eq : exists l, d1 = dset_state a (st_sensors (st_battery sa (Some (mkPbDBattery (battery_Value (d_battery a)) (ftrunc (duration_Seconds (b_chargeTime (d_battery a)))))) (pdd_distance x / pde_speed sa)) l)).
  { cbv zeta in E1. destruct (_ =? _)%Z; apply Ret_inj in E1; subst d1; eexists; reflexivity. }
  clear E1. destruct Eq as (la & ->).
  unfold updateRoutes in E2. cbn zeta in E2.
  match type of E2 with bind ?q _ = _ => destruct q; cbn [bind] in E2; try discriminate end.
  apply Ret_inj in E2. subst d2.
  unfold device_Update, updateState. rewrite Fn. cbn [bind].
  destruct (pde_battery sb) as [b2|] eqn:Eb2; [|congruence]. cbn [deref bind].
  assert (Ed : pde_distance sb = Some x) by (apply (f_equal (fun q => fst (fst (fst q)))) in Fd; cbn in Fd; congruence).
  assert (El : pde_location sb = pde_location sa) by exact (f_equal (fun q => snd (fst (fst q))) Fd).
  assert (Ev : pde_navigator sb = pde_navigator sa) by exact (f_equal (fun q => snd (fst q)) Fd).
  assert (Eo : pde_is_offline sb = pde_is_offline sa) by exact (f_equal (fun q => fst (snd q)) Fd).
  assert (Eu : pde_offline_duration sb = pde_offline_duration sa) by exact (f_equal (fun q => snd (snd q)) Fd).
  rewrite Ed. cbn [deref bind]. cbv zeta.
  assert (Es : forall l, let st := st_sensors (st_battery sb (Some (mkPbDBattery (battery_Value (d_battery b)) (ftrunc (duration_Seconds (b_chargeTime (d_battery b)))))) (pdd_distance x / pde_speed sb)) l in
    (let* d := updateRoutes (dset_state b st) in Ret (updateSensors d)) = Ret (updateSensors
     (let d := dset_state a (st_sensors (st_battery sa (Some (mkPbDBattery (battery_Value (d_battery a)) (ftrunc (duration_Seconds (b_chargeTime (d_battery a)))))) (pdd_distance x / pde_speed sa)) la) in
      let routes := n_routes (d_nav d) in
      let d := dset_state d (st_routes (d_state d) (Some (mkPbDRoutes (map droute_of routes)))) in
      let d := dset_nav d (set_routes (d_nav d) (map touch_props routes)) in
      let d := calcAvgT d in dset_ns d (nav_Sum (d_nav d))))).
  { intros l st. unfold updateRoutes. subst st. cbn [dset_state d_state st_sensors st_battery pde_routes]. rewrite Fr.
    destruct (pde_routes (d_state b)) as [rs|] eqn:Rr; [|congruence]. cbn [deref bind].
    unfold src in Fs.
    pose proof (f_equal (fun q => fst (fst (fst (fst (fst (fst q)))))) Fs) as F1.
    pose proof (f_equal (fun q => snd (fst (fst (fst (fst (fst q)))))) Fs) as F2.
    pose proof (f_equal (fun q => fst (snd (fst (fst (fst (fst q)))))) Fs) as F3.
    pose proof (f_equal (fun q => snd (snd (fst (fst (fst (fst q)))))) Fs) as F4.
    pose proof (f_equal (fun q => snd (fst (fst (fst q)))) Fs) as F5.
    pose proof (f_equal (fun q => snd (fst (fst q))) Fs) as F6.
    pose proof (f_equal (fun q => snd (fst q)) Fs) as F7.
    pose proof (f_equal (fun q => fst (snd q)) Fs) as F8.
    pose proof (f_equal (fun q => snd (snd q)) Fs) as F9.
    cbn [fst snd] in F1, F2, F3, F4, F5, F6, F7, F8, F9. f_equal. cbv zeta.
    assert (R1 : forall (x : device T) s, d_nav (dset_state x s) = d_nav x) by reflexivity.
    assert (R2 : forall (x : device T) s, d_speed (dset_state x s) = d_speed x) by reflexivity.
    apply device_ext; cbn [updateSensors dset_ns calcAvgT dset_avgT dset_nav dset_state d_status d_nav d_speed d_battery d_sensors d_avgT d_tick d_ns d_state];
      rewrite ?Q1, ?Q2, ?Q3, ?Q4, ?Q5, ?Q6; try reflexivity.
    apply state_ext; cbn [st_sensors st_routes st_battery pde_id pde_user_id pde_tick pde_duration pde_model pde_speed pde_distance pde_battery pde_routes
      pde_location pde_navigator pde_sensors pde_description pde_is_offline pde_offline_duration pde_color pde_time_estimate pde_units];
      rewrite ?F1, ?F2, ?F3, ?F4, ?F5, ?F6, ?F7, ?F8, ?F9, ?Ed, ?Ex, ?El, ?Ev, ?Eo, ?Eu; reflexivity. }
  destruct (_ =? _)%Z.
  - cbn [bind]. apply Es.
  - cbn [bind]. apply Es.
Qed.

(** ** Views of restored navigators *)

Lemma view_restored_track keep (t t' : track T) : restored_track t t' -> (keep = true -> json_same (tk_props t)) ->
  view_track keep t' = view_track keep t.
Proof.
  intros (E1 & E2 & E3 & E4 & E5 & E6 & E7 & Hp) Hk. unfold view_track. rewrite E1, E2, E3, E4, E5, E6, E7. f_equal.
  unfold view_props. destruct keep; [|reflexivity]. f_equal. destruct (Hk eq_refl) as [Ha Hs].
  unfold restored_props in Hp. destruct (tk_props t) as [q|]; [|now rewrite Hp].
  destruct (proj1 Hp Ha) as (q' & -> & Hq). cbn. now apply Hs.
Qed.
Lemma view_restored_route keep (r r' : route T) : restored_route r r' ->
  (keep = true -> json_same (rt_props r) /\ Forall (fun t => json_same (tk_props t)) (rt_tracks r)) ->
  view_route keep r' = view_route keep r.
Proof.
  intros (E1 & E2 & E3 & E4 & E5 & Ht & Hp) Hk. unfold view_route. rewrite E1, E2, E3, E4, E5. f_equal.
  - assert (Hk' : keep = true -> Forall (fun t => json_same (tk_props t)) (rt_tracks r)) by (intros H; now apply Hk).
    clear -Ht Hk'. induction Ht as [|t t' l l' H _ IH]; [reflexivity|]. cbn. f_equal.
    + apply view_restored_track; [exact H|]. intros K. specialize (Hk' K). now inversion Hk'.
    + apply IH. intros K. specialize (Hk' K). now inversion Hk'.
  - unfold view_props. destruct keep; [|reflexivity]. f_equal. destruct (Hk eq_refl) as [[Ha Hs] _].
    unfold restored_props in Hp. destruct (rt_props r) as [q|]; [|now rewrite Hp].
    destruct (proj1 Hp Ha) as (q' & -> & Hq). cbn. now apply Hs.
Qed.
Lemma view_restored_nav keep n n' : restored_nav n n' ->
  (keep = true -> Forall (fun r => json_same (rt_props r) /\ Forall (fun t => json_same (tk_props t)) (rt_tracks r)) (n_routes n)) ->
  view_nav keep n' = view_nav keep n.
Proof.
  intros (Hr & Ei & Ed & E1 & E2 & E3 & E4 & E5 & E6 & E7) Hk. unfold view_nav. injection Ei as -> -> ->. injection Ed as -> -> -> ->.
  rewrite E1, E2, E3, E4, E5, E6. f_equal.
  - clear -Hr Hk. induction Hr as [|t t' l l' H _ IH]; [reflexivity|]. cbn. f_equal.
    + apply view_restored_route; [exact H|]. intros K. specialize (Hk K). now inversion Hk.
    + apply IH. intros K. specialize (Hk K). now inversion Hk.
  - destruct (n_skip n); [reflexivity|]. auto.
Qed.

Lemma view_touched keep n : view_nav keep (set_routes n (map touch_props (n_routes n))) = view_nav keep n.
Proof. unfold view_nav. cbn. f_equal. rewrite map_map. apply map_ext. intros r. apply view_touch. Qed.

Lemma touched_props (p : option (props T)) : props_view (Some (props_view p)) = props_view p.
Proof. reflexivity. Qed.
Lemma restored_kept (p p' : option (props T)) : restored_props p p' -> kept_props p p'.
Proof.
  unfold restored_props, kept_props. destruct p as [q|]; [|intros ->; now left]. intros [H1 H2]. right. cbn. split.
  - intros Ha. destruct (H1 Ha) as (q' & -> & Hq). exact Hq.
  - intros Ha. now rewrite (H2 Ha).
Qed.
Definition pview (r : route T) := (props_view (rt_props r), map (fun t => props_view (tk_props t)) (rt_tracks r)).
Lemma touch_pview (r : route T) : pview (touch_props r) = pview r.
Proof.
  unfold pview, touch_props, route_Props. destruct (rt_props r) eqn:E; cbn; rewrite ?E; f_equal; rewrite map_map; apply map_ext;
    intros t; unfold track_Props; destruct (tk_props t) eqn:E'; cbn; rewrite ?E'; reflexivity.
Qed.
Lemma kept_by_pview (r r' s s' : route T) : pview r = pview s -> pview r' = pview s' -> kept_route_props r r' -> kept_route_props s s'.
Proof.
  unfold pview, kept_route_props. intros H1 H2 [K1 K2].
  pose proof (f_equal fst H1) as A1. pose proof (f_equal snd H1) as A2. pose proof (f_equal fst H2) as B1. pose proof (f_equal snd H2) as B2. cbn in *.
  split; [unfold kept_props in *; rewrite <- A1, <- B1; exact K1|]. clear -A2 B2 K2.
  revert A2 B2. generalize (rt_tracks s) (rt_tracks s'). induction K2 as [|t t' l l' H _ IH]; intros [|u k] [|u' k'] A B; try discriminate; constructor.
  - injection A as A _. injection B as B _. unfold kept_props in *. now rewrite <- A, <- B.
  - injection A as _ A. injection B as _ B. auto.
Qed.

(** ** The round trip *)

Lemma nav_Update_none n st st' : nav_Update n st = Ret st' ->
  (CurrentRoute n = Ret None -> rid st' = rid st) /\ (CurrentTrack n = Ret None -> tid st' = tid st).
Proof.
  unfold nav_Update. cbn zeta.
  destruct (RouteDistance n) as [rd| |]; cbn [bind]; try discriminate.
  destruct (TrackDistance n) as [td| |]; cbn [bind]; try discriminate.
  destruct (SegmentDistance n) as [sd| |]; cbn [bind]; try discriminate.
  destruct (pde_navigator (normalizeDeviceState st)) as [v|] eqn:Ev; cbn [deref bind]; try discriminate.
  destruct (CurrentRoute n) as [r| |] eqn:Er; cbn [bind]; try discriminate.
  destruct (CurrentTrack n) as [t| |] eqn:Et; cbn [bind]; try discriminate.
  destruct (pde_location (normalizeDeviceState st)) as [l|]; cbn [deref bind]; try discriminate.
  destruct (CurrentBearing n) as [br| |]; cbn [bind]; try discriminate.
  destruct (n_elev n) as [e|]; cbn [deref bind]; try discriminate.
  destruct (pdl_utm l); cbn [deref bind]; try discriminate.
  destruct (pdl_lat_dms l); cbn [deref bind]; try discriminate.
  destruct (pdl_lon_dms l); cbn [deref bind]; try discriminate.
  intros E. apply Ret_inj in E. subst st'. unfold normalizeDeviceState in Ev. cbn [pde_navigator] in Ev.
  unfold rid, tid. cbn [pde_navigator pdv_current_route_id pdv_current_track_id].
  split; intros E; apply Ret_inj in E; subst; destruct (pde_navigator st); injection Ev as <-; reflexivity.
Qed.

Lemma updateState_src d d' : updateState d = Ret d' -> d' = dset_state d (d_state d') /\ src (d_state d') = src (d_state d) /\
  (CurrentRoute (d_nav d) = Ret None -> rid (d_state d') = rid (d_state d)) /\
  (CurrentTrack (d_nav d) = Ret None -> tid (d_state d') = tid (d_state d)).
Proof.
  intros F. pose proof (updateState_units _ _ F) as Fu. pose proof (updateState_inv _ _ F) as R.
  pose proof (rf_ident _ _ R) as Q. unfold ident in Q.
  split; [exact (rf_same _ _ R)|]. split.
  { unfold src. rewrite Fu.
    pose proof (f_equal (fun q => fst (fst (fst (fst (fst (fst (fst q))))))) Q) as F1.
    pose proof (f_equal (fun q => snd (fst (fst (fst (fst (fst (fst q))))))) Q) as F2.
    pose proof (f_equal (fun q => snd (fst (fst (fst (fst (fst q)))))) Q) as F3.
    pose proof (f_equal (fun q => snd (fst (fst (fst (fst q))))) Q) as F4.
    pose proof (f_equal (fun q => snd (fst (fst (fst q)))) Q) as F5.
    pose proof (f_equal (fun q => snd (fst q)) Q) as F7.
    pose proof (f_equal snd Q) as F8. cbn [fst snd] in *.
    now rewrite F1, F2, F3, F4, F5, F7, F8. }
  clear -F. unfold updateState in F. destruct (nav_Update _ _) as [st| |] eqn:En; cbn [bind] in F; try discriminate.
  apply nav_Update_none in En.
  destruct (pde_battery st) as [b|] eqn:Eb; cbn [deref bind] in F; try discriminate.
  destruct (pde_distance st) as [x|] eqn:Ex; cbn [deref bind] in F; try discriminate.
  cbv zeta in F. destruct (_ =? _)%Z; apply Ret_inj in F; subst d'; exact En.
Qed.

Lemma updateRoutes_ok d d' : updateRoutes d = Ret d' -> state_ok (d_state d) -> state_ok (d_state d').
Proof.
  intros H (K1 & K2 & K3 & K4 & K5). apply updateRoutes_inv in H. destruct H as (_ & _ & _ & _ & _ & -> & _).
  split; [exact K1|]. split; [discriminate|]. auto.
Qed.
Lemma view_ok keep (st : pbDevice T) : state_ok st -> state_ok (view_state keep st).
Proof.
  intros (K1 & K2 & K3 & K4 & K5). split; [exact K1|]. split; [|auto]. cbn. destruct (pde_routes st); [discriminate|congruence].
Qed.

Lemma view_none_route keep n : CurrentRoute (view_nav keep n) = Ret None -> CurrentRoute n = Ret None.
Proof. rewrite CurrentRoute_view. destruct (CurrentRoute n) as [[r|]| |]; cbn; congruence. Qed.
Lemma view_none_track keep n : CurrentTrack (view_nav keep n) = Ret None -> CurrentTrack n = Ret None.
Proof. rewrite CurrentTrack_view. destruct (CurrentTrack n) as [[r|]| |]; cbn; congruence. Qed.

(** equal sources up to the view *)
Record vsrc status keep (a b : device T) : Prop := {
  vs_status : status = true -> d_status a = d_status b;
  vs_nav : view_nav keep (d_nav a) = view_nav keep (d_nav b);
  vs_speed : d_speed a = d_speed b;
  vs_battery : d_battery a = d_battery b;
  vs_sensors : d_sensors a = d_sensors b;
  vs_tick : d_tick a = d_tick b;
  vs_src : src (d_state a) = src (d_state b);
  vs_rid : CurrentRoute (d_nav a) = Ret None -> rid (d_state a) = rid (d_state b);
  vs_tid : CurrentTrack (d_nav a) = Ret None -> tid (d_state a) = tid (d_state b) }.

Lemma vsrc_Update status keep a b a' : vsrc status keep a b -> state_ok (d_state b) -> device_Update a = Ret a' ->
  exists b', device_Update b = Ret b' /\ view status keep a' = view status keep b'.
Proof.
  intros [Q1 Q2 Q3 Q4 Q5 Q6 Q7 Q8 Q9] K E.
  assert (Ea : device_Update (view status keep a) = Ret (view status keep a')) by (rewrite device_Update_view, E; reflexivity).
  assert (S : src_eq (view status keep a) (view status keep b)).
  { split; auto.
    - cbn. destruct status; auto.
    - cbn. intros H. apply view_none_route in H. auto.
    - cbn. intros H. apply view_none_track in H. auto. }
  pose proof (Update_src _ _ _ S (view_ok keep _ K) Ea) as Eb. rewrite device_Update_view in Eb.
  destruct (device_Update b) as [b'| |]; cbn in Eb; try discriminate. exists b'. split; [reflexivity|]. now apply Ret_inj in Eb.
Qed.

Section Law.
Context (L : json_law T).

Lemma FromSnapshot_ok status keep d d1 s : made_device d -> device_Update d = Ret d1 -> device_Snapshot d1 = Ret s ->
  snapshot_is_complete d1 -> (status = true -> d_status d = Stopped) -> (keep = true -> json_same_device d1) ->
  exists d2 d', device_FromSnapshot device_zero s = Ret d2 /\ device_Update d2 = Ret d' /\
    kept_all_props d1 d' /\ d_status d' = Stopped /\ view status keep d1 = view status keep d'.
Proof.
  intros Hm Eu Es (Ho & Hi & Hsp) Hst Hk.
  assert (Hr : restore_inv d1) by (eapply (restore_step d DUpdate); [exact I|now apply made_restore|exact Eu]).
  destruct Hr as [Hn Hun]. destruct (nav_snap_inv L _ Hn) as (sn & nav' & E1 & E2 & E3).
  pose proof (Update_parts _ _ Eu) as (u1 & u2 & U1 & U2 & U3).
  destruct (updateState_src _ _ U1) as (P1 & P2 & P3 & P4).
  pose proof (updateRoutes_inv _ _ U2) as (R1 & R2 & R3 & R4 & R5 & R6 & R7 & _).
  assert (N1 : d_nav d1 = set_routes (d_nav d) (map touch_props (n_routes (d_nav d)))) by (rewrite U3; cbn; rewrite R7, P1; reflexivity).
  assert (A1 : d_status d1 = d_status d) by (rewrite U3; cbn; rewrite R1, P1; reflexivity).
  assert (A2 : d_speed d1 = d_speed d) by (rewrite U3; cbn; rewrite R2, P1; reflexivity).
  assert (A3 : d_battery d1 = d_battery d) by (rewrite U3; cbn; rewrite R3, P1; reflexivity).
  assert (A4 : d_sensors d1 = d_sensors d) by (rewrite U3; cbn; rewrite R4, P1; reflexivity).
  assert (A5 : d_tick d1 = d_tick d) by (rewrite U3; cbn; rewrite R5, P1; reflexivity).
  assert (A6 : src (d_state d1) = src (d_state d)) by (rewrite U3, <- P2; cbn; rewrite R6; reflexivity).
  assert (A7 : rid (d_state d1) = rid (d_state u1)) by (rewrite U3; cbn; rewrite R6; reflexivity).
  assert (A8 : tid (d_state d1) = tid (d_state u1)) by (rewrite U3; cbn; rewrite R6; reflexivity).
  assert (Z1 : CurrentRoute (d_nav d) = Ret None -> rid (d_state d) = ""%string).
  { intros Hc. rewrite <- P3 by exact Hc. rewrite <- A7. destruct Hi as (v & r & t & I1 & I2 & I3 & I4 & I5).
    unfold rid. rewrite I1. destruct r; [|exact I4]. exfalso.
    assert (X : CurrentRoute (view_nav keep (d_nav d1)) = Ret None) by (rewrite N1, view_touched, CurrentRoute_view, Hc; reflexivity).
    apply view_none_route in X. congruence. }
  assert (Z2 : CurrentTrack (d_nav d) = Ret None -> tid (d_state d) = ""%string).
  { intros Hc. rewrite <- P4 by exact Hc. rewrite <- A8. destruct Hi as (v & r & t & I1 & I2 & I3 & I4 & I5).
    unfold tid. rewrite I1. destruct t; [|exact I5]. exfalso.
    assert (X : CurrentTrack (view_nav keep (d_nav d1)) = Ret None) by (rewrite N1, view_touched, CurrentTrack_view, Hc; reflexivity).
    apply view_none_track in X. congruence. }
  unfold device_Snapshot in Es. rewrite E1 in Es. cbn [bind] in Es. apply Ret_inj in Es. subst s.
  unfold device_FromSnapshot.
  cbn [psn_id psn_user_id psn_tick psn_duration psn_model psn_descr psn_status psn_color psn_navigator psn_speed psn_battery psn_sensors].
  rewrite E2. cbn [bind]. rewrite speed_snap. cbn [bind]. rewrite battery_snap. cbn [bind].
  assert (Esn : match map sensor_Snapshot (d_sensors d1) with [] => Ret (d_sensors (@device_zero T N)) | l => mapM (fun s => sensor_FromSnapshot (Some s)) l end = Ret (d_sensors d1)).
  { destruct (d_sensors d1) as [|q l] eqn:Eq; [reflexivity|]. exact (mapM_map_id (fun s => sensor_FromSnapshot (Some s)) sensor_Snapshot (q :: l) sensor_snap). }
  rewrite Esn. cbn [bind]. change (Stopped mod 256)%Z with Stopped.
  match goal with |- context [updateState (updateSensors ?q)] => set (D := updateSensors q) end.
  assert (K : state_ok (d_state D)).
  { subst D. cbn. repeat split; try discriminate. eexists. split; [reflexivity|]. repeat split; discriminate. }
  assert (Vn : view_nav keep (d_nav d) = view_nav keep nav').
  { rewrite (view_restored_nav keep _ _ E3); [|intros H; apply (Hk H)]. now rewrite N1, view_touched. }
  assert (VD : vsrc status keep d D).
  { split.
    - exact Hst.
    - exact Vn.
    - symmetry. exact A2.
    - symmetry. exact A3.
    - symmetry. exact A4.
    - rewrite <- A5. exact Ho.
    - rewrite <- A6. unfold src. rewrite Hun. unfold speed_published in Hsp. rewrite Hsp. reflexivity.
    - exact Z1.
    - exact Z2. }
  destruct (vsrc_Update _ _ _ _ _ VD K Eu) as (D' & FD & _).
  pose proof (Update_parts _ _ FD) as (e1 & e2 & G1 & G2 & _). rewrite G1. cbn [bind]. rewrite G2.
  destruct (updateState_src _ _ G1) as (S1 & S2 & S3 & S4).
  pose proof (updateRoutes_inv _ _ G2) as (T1 & T2 & T3 & T4 & T5 & T6 & T7 & _).
  assert (M1 : d_nav e2 = set_routes nav' (map touch_props (n_routes nav'))) by (rewrite T7, S1; reflexivity).
  assert (VE : vsrc status keep d e2).
  { destruct VD as [V1 V2 V3 V4 V5 V6 V7 V8 V9]. split.
    - intros H. rewrite T1, S1. exact (V1 H).
    - rewrite M1, view_touched. exact Vn.
    - rewrite T2, S1. exact V3.
    - rewrite T3, S1. exact V4.
    - rewrite T4, S1. exact V5.
    - rewrite T5, S1. exact V6.
    - rewrite T6. etransitivity; [exact V7|]. rewrite <- S2. reflexivity.
    - intros H. rewrite T6. change (rid (d_state d) = rid (d_state e1)). rewrite S3; [exact (V8 H)|].
      apply (view_none_route keep). change (d_nav D) with nav'. rewrite <- Vn, CurrentRoute_view, H. reflexivity.
    - intros H. rewrite T6. change (tid (d_state d) = tid (d_state e1)). rewrite S4; [exact (V9 H)|].
      apply (view_none_track keep). change (d_nav D) with nav'. rewrite <- Vn, CurrentTrack_view, H. reflexivity. }
  assert (KE : state_ok (d_state e2)).
  { eapply updateRoutes_ok; [exact G2|]. eapply refreshed_ok; [|exact K]. now apply updateState_inv. }
  destruct (vsrc_Update _ _ _ _ _ VE KE Eu) as (d' & F' & Fv).
  exists e2, d'. split; [reflexivity|]. split; [exact F'|].
  pose proof (Update_parts _ _ F') as (f1 & f2 & W1 & W2 & W3).
  destruct (updateState_src _ _ W1) as (X1 & _).
  pose proof (updateRoutes_inv _ _ W2) as (Y1 & _ & _ & _ & _ & _ & Y7 & _).
  split; [|split; [|exact Fv]].
  - unfold kept_all_props.
    assert (M2 : n_routes (d_nav d') = map touch_props (map touch_props (n_routes nav'))) by (rewrite W3; cbn; rewrite Y7, X1; cbn; rewrite M1; reflexivity).
    rewrite M2. destruct E3 as [E3 _]. clear -E3. induction E3 as [|r r' l l' H _ IH]; [constructor|]. cbn [map]. constructor; [|exact IH].
    apply (kept_by_pview r r'); [reflexivity|rewrite !touch_pview; reflexivity|].
    destruct H as (_ & _ & _ & _ & _ & H & Hp). split; [now apply restored_kept|]. clear -H.
    induction H as [|t t' k k' (_ & _ & _ & _ & _ & _ & _ & H) _ IH]; [constructor|]. constructor; [|exact IH]. now apply restored_kept.
  - rewrite W3. cbn. rewrite Y1, X1. cbn. rewrite T1, S1. reflexivity.
Qed.

Context (HB : bits_law T).

Lemma decoded_bytes d1 s b : device_Snapshot d1 = Ret s -> to_bytes d_Snapshot (w_Snapshot s) = GOk b -> go_sized d1 b ->
  b <> [] /\ exists m, unmarshal d_Snapshot b = Some m /\ r_Snapshot m = s.
Proof.
  unfold to_bytes. intros Es Eb [Hi Hz]. destruct (marshal d_Snapshot (w_Snapshot s)) as [b'|] eqn:E; [|discriminate]. injection Eb as ->.
  destruct (C37_snapshot_proof HB s (Hi s Es)) as (b' & Eb' & D).
  { apply utf_Snapshot. eapply enc_utf8; exact E. }
  rewrite E in Eb'. injection Eb' as <-. specialize (D Hz).
  destruct (unmarshal d_Snapshot b) as [m|] eqn:Eu; [|discriminate]. cbn in D. injection D as D. split; [|eauto].
  intros ->. cbn in Eu. injection Eu as <-. unfold device_Snapshot in Es.
  destruct (nav_Snapshot (d_nav d1)) as [sn| |]; cbn [bind] in Es; try discriminate. apply Ret_inj in Es.
  apply (f_equal psn_navigator) in D. rewrite <- Es in D. cbn in D. discriminate.
Qed.

Lemma C36_proof d d1 b : made_device d -> EncodeTracker (Some d) = Ret (GOk b, Some d1) -> go_sized d1 b ->
  snapshot_is_complete d1 -> exists d', DecodeTracker b = Ret (GOk d') /\ restores d1 d'.
Proof.
  intros Hm E Hz Hc. unfold EncodeTracker in E.
  destruct (device_Update d) as [u| |] eqn:Eu; cbn [bind] in E; try discriminate.
  unfold MarshalBinary in E. destruct (device_Snapshot u) as [s| |] eqn:Es; cbn [bind] in E; try discriminate.
  apply Ret_inj in E. pose proof (f_equal fst E) as Eb. pose proof (f_equal snd E) as Ed. cbn in Eb, Ed. injection Ed as ->. clear E.
  destruct (decoded_bytes d1 s b Es Eb Hz) as (Hb & m & Em & Hmm).
  assert (Ast : d_status d1 = d_status d).
  { pose proof (Update_parts _ _ Eu) as (u1 & u2 & U1 & U2 & U3). destruct (updateState_src _ _ U1) as (P1 & _).
    pose proof (updateRoutes_inv _ _ U2) as (R1 & _). rewrite U3. cbn. rewrite R1, P1. reflexivity. }
  assert (X : forall status keep, (status = true -> d_status d = Stopped) -> (keep = true -> json_same_device d1) ->
    exists d', DecodeTracker b = Ret (GOk d') /\ kept_all_props d1 d' /\ d_status d' = Stopped /\ view status keep d1 = view status keep d').
  { intros status keep H1 H2. destruct (FromSnapshot_ok status keep d d1 s Hm Eu Es Hc H1 H2) as (d2 & d' & F1 & F2 & F3).
    exists d'. split; [|exact F3]. unfold DecodeTracker, UnmarshalBinary. destruct b as [|b0 b]; [congruence|]. rewrite Em, Hmm, F1. cbn [bind].
    rewrite F2. reflexivity. }
  destruct (X false false) as (d' & D1 & D2 & D3 & _); try discriminate.
  exists d'. split; [exact D1|]. split; [exact D2|]. split; [exact D3|].
  assert (G : forall keep ops, (keep = true -> json_same_device d1) -> d_status d1 = Stopped \/ Forall not_attach ops ->
    goes_on_like (d_status d1 =? Stopped)%Z keep d1 d' ops).
  { intros keep ops Hk Ho. destruct (X (d_status d1 =? Stopped)%Z keep) as (d'' & D1' & _ & _ & V).
    - intros H. apply Z.eqb_eq in H. congruence.
    - exact Hk.
    - assert (d'' = d') by congruence. subst d''. apply goes_on; [exact V|]. destruct Ho as [Ho|Ho]; [left|right; exact Ho].
      now rewrite Ho. }
  intros ops Ho. split; [apply G; auto; discriminate|intros H; apply G; auto].
Qed.

(** when the published speed is the current one *)
Lemma speed_published_proof : (forall b d, DecodeTracker b = Ret (GOk d) -> speed_published d) /\
  (forall d tick x d', n_routes (d_nav d) <> [] -> run_dev d (DNext true tick x) = Ret d' -> speed_published d') /\
  (forall d o d', speed_published d -> run_dev d o = Ret d' -> speed_published d') /\
  (forall opts x d, built opts x d -> (sp_min (d_speed d) =? sp_max (d_speed d)) = false -> speed_published d).
Proof.
  split; [|split; [|split]].
  - intros b d H. apply decoded_restore in H. apply H.
  - intros d tick x d' Hr E. cbn [run_dev] in E. destruct (Next d true tick x) as [[r d1]| |] eqn:F; cbn in E; try discriminate.
    injection E as <-. apply Next_time in F; [|exact Hr]. apply F.
  - intros d o d' H E. eapply speed_step; eauto.
  - intros opts x d H Hs. apply built_inv in H. destruct H as (o & nav & sp & b & st & o' & -> & _ & E1 & E2 & _ & E3).
    unfold speed_published, speed_Value. cbn [d_state d_speed] in *.
    assert (Q : pde_speed st = f0).
    { unfold applyFor in E3. destruct (if (0 <? slen (do_model o))%Z then NewModel _ else _) as [m|]; [|discriminate].
      match type of E3 with context [match ?q with GErr _ => _ | GOk _ => _ end] => destruct q as [c|]; [|discriminate] end.
      injection E3 as <- _. reflexivity. }
    rewrite Q. unfold speed_isStatic. rewrite Hs.
    unfold NewSpeed in E2. destruct (_ <? f0); [discriminate|]. destruct (_ >? _); [discriminate|]. cbv zeta in E2.
    destruct (_ >? _); [discriminate|].
    match type of E2 with (match ?q with pair _ _ => _ end) = _ => destruct q as [lo hi] end.
    destruct (validateAmplitude _); [discriminate|]. injection E2 as <-. reflexivity.
Qed.
End Law.
End RestoreProofs.
