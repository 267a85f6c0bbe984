(** A device over the reals that takes a step along a route of two segments. *)
From Coq Require Import Reals Lra Lia.
From Flocq Require Import Core.Raux.
From Coq Require Import String.
From Verif.Model Require Import Base Num NumR Geo Curve PropMap Types Pb TypesSnap Track Route Navigator Device.
From Verif.Spec Require Import ListSpec TrackSpec RouteSpec NavSpec NumLaws SphereSpec RealSpec RealExamples TypesSpec DeviceSpec DeviceRealSpec.
From Verif.Proofs Require Import BaseLemmas TrackLemmas RouteLemmas TrackRouteProofs NavLemmas NavSteps
  NavProofs NavProofs2 NavProofs3 GeoLemmas GeoProofs NavReal NavReal2 NavReal3 NavReal4 NavReal5 NavRefute NavReal6 NavExample
  CurveLemmas TypesProofs DeviceLemmas DeviceProofs DeviceProofs2 DeviceProofs3 DeviceReal.
Open Scope R_scope.

Definition rx_opts : deviceOptions R :=
  mkDevOpts "" "Walker" "" "" "" true 2 60 10 300 8 0 0 100 25200000000000 1 1 16.
Definition rx_new_draws : newDraws R := mkNewDraws "e" (fun _ => 0) (fun _ => 0) "id" "abcdef" "#0000ff" None.
Definition rx_draws : nextDraws R := mkNextDraws 0 0 (fun _ => 0) (fun _ => 0) (fun _ _ => 0).

Section E.
Context {J : JsonLib R} {U : UtmLib R}.

Lemma rx_built : exists d, built (Some rx_opts) rx_new_draws d.
Proof.
  unfold built, NewDevice.
  destruct (navigator_New (navOpts rx_opts) (nd_elevUUID rx_new_draws) (nd_elev rx_new_draws)) as [n|e] eqn:En.
  2:{ exfalso. pose proof (C34_proof (navOpts rx_opts) (nd_elevUUID rx_new_draws) (nd_elev rx_new_draws)) as H.
      cbn [navOpts rx_opts eff_offline eff_elevation do_elevMin do_elevMax do_elevAmp do_elevMode do_offMin do_offMax do_skipOffline app] in H.
      destruct H as [[H _] _]. destruct H as [H|[H|[H|[H|[H|H]]]]]; [now exists e|lia|lia| | |lia|lia].
      - change (Rlt_bool 10 0 = true) in H. rewrite Rlt_bool_false in H by lra. discriminate.
      - change (Rlt_bool (IZR 50000) 300 = true) in H. rewrite Rlt_bool_false in H by lra. discriminate. }
  destruct (NewSpeed (do_speedMin rx_opts) (do_speedMax rx_opts) (do_speedAmp rx_opts) (nd_speed rx_new_draws)) as [sp|e] eqn:Es.
  2:{ exfalso. destruct (C10_fails_proof (do_speedMin rx_opts) (do_speedMax rx_opts) (do_speedAmp rx_opts) (nd_speed rx_new_draws)) as [H _].
      cbn [rx_opts do_speedMin do_speedMax do_speedAmp] in H. destruct H as [H|[H|[H|[H|H]]]]; [now exists e|lra|lra|lia|lia|lra]. }
  destruct (NewBattery_spec (do_batMin rx_opts) (do_batMax rx_opts) (do_batCharge rx_opts)) as [[_ H]|[[_ H]|(_ & _ & ->)]];
    cbn [rx_opts do_batMin do_batMax] in *; try lra.
  unfold applyFor. cbn [do_model rx_opts]. change (0 <? slen "Walker"%string)%Z with true. cbv iota.
  change (NewModel "Walker"%string) with (@GOk string "Walker"%string). cbv iota. cbn [do_color]. change (0 <? slen ""%string)%Z with false. cbv iota.
  eexists. reflexivity.
Qed.

Lemma rx_step : exists d0 d d',
  built (Some rx_opts) rx_new_draws d0 /\ unit_new rx_new_draws /\ unit_next rx_draws /\
  run_devs d0 [DAddRoute [Some rx_r]] = Ret d /\ 0 < trip_time d /\
  Next d true degree rx_draws = Ret (true, d').
Proof.
  pose proof degree_pos as K. pose proof rx_two_second as E2.
  assert (Un : unit_new rx_new_draws) by (split; intros i; cbn; lra).
  assert (Ux : unit_next rx_draws) by (repeat split; intros; cbn; lra).
  destruct rx_built as (d0 & Hb). exists d0.
  destruct (C63_proof zero_eq_zero_R _ _ _ [DAddRoute [Some rx_r]; DNext true degree rx_draws] Hb) as (d' & Hd').
  { repeat constructor. } { cbn. split; [exact I|]. destruct (let* _ := _ in _); auto. destruct (let* _ := _ in _); auto. }
  change (run_devs d0 [DAddRoute [Some rx_r]; DNext true degree rx_draws]) with
    (let* d1 := run_dev d0 (DAddRoute [Some rx_r]) in run_devs d1 [DNext true degree rx_draws]) in Hd'.
  destruct (run_dev d0 (DAddRoute [Some rx_r])) as [d| |] eqn:Ed; cbn [bind] in Hd'; try discriminate.
  exists d. cbn [run_devs run_dev] in Hd'.
  destruct (Next d true degree rx_draws) as [[b e]| |] eqn:En; cbn [bind] in Hd'; try discriminate.
  (* the navigator after AddRoute *)
  destruct (built_inv _ _ _ Hb) as (o & nav & sp & bat & st & o' & Ed0 & Eo & Hn & Hs & _).
  destruct (built_good _ _ _ Hb Un) as [Hl G0].
  assert (Hd : run_devs d0 [DAddRoute [Some rx_r]] = Ret d).
  { cbn [run_devs]. rewrite Ed. reflexivity. }
  assert (Gd : good (speed_limits (do_speedMin (options_of (Some rx_opts))) (do_speedMax (options_of (Some rx_opts))))
    (elevation_limits (do_elevMin (options_of (Some rx_opts))) (do_elevMax (options_of (Some rx_opts)))) d).
  { eapply good_run; [exact Hl| |exact G0|exact Hd]. repeat constructor. }
  cbn [run_dev] in Ed. unfold AddRoute in Ed.
  assert (En0 : d_nav d0 = nav) by (rewrite Ed0; reflexivity). rewrite En0 in Ed.
  pose proof (C34_proof (navOpts o) (nd_elevUUID rx_new_draws) (nd_elev rx_new_draws)) as H34.
  cbn [navOpts eff_offline eff_elevation] in H34.
  assert (Eo2 : o = rx_opts) by (rewrite Eo; reflexivity). rewrite Eo2 in H34, Hn.
  cbn [navOpts rx_opts eff_offline eff_elevation do_elevMin do_elevMax do_elevAmp do_elevMode do_offMin do_offMax do_skipOffline app] in H34.
  destruct H34 as [_ H34]. destruct (H34 nav Hn) as (R1 & _ & _ & R2 & _ & R3).
  destruct (C17_proof nav [Some rx_r]) as [_ H1]. destruct H1 as (n1 & A1 & A2 & _ & A3); [discriminate|].
  assert (Ef : fresh_routes (map rt_id (n_routes nav)) [Some rx_r] = [rx_r]).
  { rewrite R1. reflexivity. }
  rewrite Ef in A2, A3. rewrite R1 in A2. cbn [app] in A2.
  destruct A3 as (B1 & B2 & B3 & _); [discriminate|].
  rewrite A1 in Ed.
  destruct (updateRoutes (dset_nav d0 n1)) as [d1| |] eqn:Eu; cbn [bind] in Ed; try discriminate.
  injection Ed as Ed1. subst d1.
  pose proof (updateRoutes_inv _ _ Eu) as (_ & _ & _ & _ & _ & _ & U1 & _).
  assert (Ed2 : n_dist n1 = 2 * degree).
  { rewrite B2. unfold total_of_routes. rewrite fsum_rsum, A2. cbn [map]. rewrite rsum_cons, rsum_nil. unfold rx_r.
    rewrite rx_dist by (fa; apply rx_two_measured). cbn [map]. rewrite rsum_cons, rsum_nil. cbn [tk_dist rx_two]. lra. }
  assert (Sl : speed_limits 1 1 = (1, 1)).
  { unfold speed_limits. destruct (Rlt_dec 0 1); [reflexivity|lra]. }
  assert (Ht : 0 < trip_time d).
  { refine (updateRoutes_trip (1, 1) (elevation_limits (do_elevMin rx_opts) (do_elevMax rx_opts)) _ _ _ _ _ Eu _); cbn [fst snd]; [lra|lra| |change (0 < n_dist n1); lra].
    assert (G1 := G0). rewrite Eo in *. cbn [options_of rx_opts do_speedMin do_speedMax] in G0. rewrite Sl in G0.
    destruct G0 as [g1 g2 g3 g4 g5].
    constructor; [exact g1|exact g2|exact g3| |exact g5].
    cbn [dset_nav d_nav].
    eapply elev_calls with (o := DAddRoute [Some rx_r]) (los := [NAddRoute [Some rx_r]]); [exact I| | exact g4|].
    - constructor; [|constructor]. right. reflexivity.
    - rewrite En0. cbn [run_navs run_nav]. rewrite A1. reflexivity. }
  exists e. split; [exact Hb|]. split; [exact Un|]. split; [exact Ux|]. split; [exact Hd|]. split; [exact Ht|].
  (* the step *)
  assert (Hr : n_routes (d_nav d) <> []).
  { rewrite U1. cbn [dset_nav d_nav set_routes n_routes]. rewrite A2. discriminate. }
  assert (Ow : owed d = 0%Z).
  { destruct (other_time d0 (DAddRoute [Some rx_r]) d I) as (_ & _ & O & _).
    - cbn [run_devs bind] in Hd. destruct (run_dev d0 (DAddRoute [Some rx_r])); cbn [bind] in Hd; congruence.
    - rewrite O. apply (built_time _ _ _ Hb). }
  unfold Next in En. apply Next_locked_inv in En; [|exact Hr]. destruct En as (d3 & t & NB & St).
  assert (Sk1 : n_skip n1 = true).
  { destruct B3 as (_ & _ & _ & _ & ->). apply R3. right. right. now left. }
  assert (Hnav : d_nav d3 = d_nav d).
  { pose proof (nb_nav _ _ _ _ _ NB) as X. destruct (battery_IsLow _) in X; [|congruence].
    unfold ToOffline in X. assert (n_skip (d_nav d) = true) as Y by (rewrite U1; exact Sk1). rewrite Y in X. congruence. }
  assert (Q : forall n2 bb, NextLocation (d_nav d3) (fofZ (d_tick d) + degree)%num (speed_Value (d_speed d3)) (xd_loc rx_draws) = Ret (bb, n2) ->
     speed_Value (d_speed d3) = 1 -> bb = true).
  { intros n2 bb X Sv. rewrite Sv in X. unfold owed in Ow. rewrite Ow, Hnav in X.
    destruct (NextLocation_inv zero_eq_zero_R _ _ _ _ _ _ X) as [(Y & _)|[(_ & Y & _)|(_ & _ & _ & Y)]].
    - congruence.
    - apply offline_tick_now in Y as [Y _]. rewrite U1 in Y. cbn in Y. congruence.
    - assert (F : fits (d_nav d) ((@fofZ R RNum 0 + degree) * 1)%num = true).
      { destruct B1 as ([= P1 P2 P3] & P4 & _).
        assert (Cs : cur_seg (d_nav d) = nth 0 (tk_segments (rx_two "t")) segment_zero).
        { assert (Ct : cur_track (d_nav d) = Some (snd (track_Props (rx_two "t"%string)))).
          { rewrite U1. unfold cur_track, cur_route. cbn [dset_nav d_nav set_routes n_routes n_ri n_ti]. rewrite A2, P1, P2. reflexivity. }
          assert (Ci : n_si (d_nav d) = 0%Z) by (rewrite U1; exact P3).
          unfold cur_seg. rewrite Ct. cbn [seg_of]. rewrite Ci.
          rewrite (SegmentAt_Some _ 0 (nth 0 (tk_segments (rx_two "t"%string)) segment_zero)) by reflexivity.
          unfold segment_IsEmpty. cbn [nth tk_segments rx_two sg_dist]. change (@feq R RNum) with Req_bool. change (@f0 R RNum) with 0.
          rewrite Req_bool_false by lra. reflexivity. }
        apply (fits_true _ _ _ Cs).
        - unfold segment_IsEmpty. cbn. change (Req_bool degree 0 = false). apply Req_bool_false. lra.
        - rewrite U1. cbn [dset_nav d_nav set_routes n_csd]. rewrite P4.
          change (0 + (0 + degree) * 1 <= degree). lra. }
      remember bb as b0 eqn:Eb. destruct Y as [k Hk Hf|k Hk Hf Hlv|k Hk Hf Hlv Hemp Hrl]; auto; exfalso;
        (destruct k as [|k]; [cbn [passed] in Hf; congruence|]; destruct (Hk 0%nat) as (Z & _); [lia|]; cbn [passed] in Z; congruence). }
  assert (Sv : speed_Value (d_speed d3) = 1).
  { pose proof (nb_speed _ _ _ _ _ NB) as X. pose proof (gd_speed _ _ _ Gd) as Y.
    cbn [options_of rx_opts do_speedMin do_speedMax] in Y. rewrite Sl in Y. cbn [fst snd] in Y. destruct Y as (Y1 & Y2 & _).
    unfold speed_Next, speed_isStatic in X. rewrite Y1, Y2 in X. change (@feq R RNum) with Req_bool in X.
    rewrite Req_bool_true in X by reflexivity. injection X as <-.
    unfold speed_Value, speed_isStatic. rewrite Y1, Y2. change (@feq R RNum) with Req_bool. rewrite Req_bool_true by reflexivity. reflexivity. }
  inversion St as [n2 n3 S1|n2 n3 n4 d4 d5 S1|]; subst b; [exfalso..|congruence].
  - specialize (Q _ _ S1 Sv). discriminate.
  - specialize (Q _ _ S1 Sv). discriminate.
Qed.
End E.

(** ** C45, C58: small facts *)
Lemma C45_at_proof {T} (d : device T) i s : SensorAt d i = Some s <-> at_pos (d_sensors d) i s.
Proof.
  unfold SensorAt. pose proof (zget_at_pos (d_sensors d) i s) as E.
  destruct ((zlen (d_sensors d) =? 0) || (zlen (d_sensors d) - 1 <? i) || (i <? 0))%Z eqn:F; [|exact E].
  split; [discriminate|]. intros H. apply E in H. apply zget_Some_range in H.
  apply Bool.orb_true_iff in F as [F|F]; [apply Bool.orb_true_iff in F as [F|F]|]; lia.
Qed.

Lemma C58_lengths_proof s :
  ((exists n, ParseName s = GOk n) <-> (3 <= slen s <= 256)%Z) /\
  ((exists m, NewModel s = GOk m) <-> (3 <= slen s <= 64)%Z) /\
  (forall n, ParseName s = GOk n -> n = s) /\ (forall m, NewModel s = GOk m -> m = s).
Proof.
  unfold ParseName, NewModel. destruct (Z.ltb_spec (slen s) 3).
  { split; [split; [intros [? X]; discriminate|lia]|]. split; [split; [intros [? X]; discriminate|lia]|]. split; discriminate. }
  destruct (Z.ltb_spec 256 (slen s)); destruct (Z.ltb_spec 64 (slen s));
    (split; [split; [intros [? K]; try discriminate; lia|intros; try lia; eauto]|]);
    (split; [split; [intros [? K]; try discriminate; lia|intros; try lia; eauto]|]); split; congruence.
Qed.

Lemma C58_all_or_nothing_proof {T} (d : device T) (r : route T) (t : track T) (s : string) :
    (forall e, fst (SetModel d s) = Some e -> snd (SetModel d s) = d) /\
    (fst (SetModel d s) = None -> pde_model (d_state (snd (SetModel d s))) = s) /\
    (forall e, fst (route_ChangeName r s) = Some e -> snd (route_ChangeName r s) = r) /\
    (fst (route_ChangeName r s) = None -> rt_name (snd (route_ChangeName r s)) = s) /\
    (forall e, fst (track_ChangeName t s) = Some e -> snd (track_ChangeName t s) = t) /\
    (fst (track_ChangeName t s) = None -> tk_name (snd (track_ChangeName t s)) = s).
Proof.
  destruct (C58_lengths_proof s) as (_ & _ & A & B).
  unfold SetModel, route_ChangeName, track_ChangeName.
  destruct (NewModel s) as [m|] eqn:E1; destruct (ParseName s) as [n|] eqn:E2; cbn;
    repeat split; try discriminate; try reflexivity; intros; auto.
Qed.
