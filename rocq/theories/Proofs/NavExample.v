(** A small journey over the reals: a track of two segments walked in three steps. *)
From Coq Require Import Reals Lra Lia.
From Flocq Require Import Core.Raux.
From Verif.Model Require Import Base Num NumR Geo Curve PropMap Types TypesSnap Track Route Navigator.
From Verif.Spec Require Import ListSpec TrackSpec RouteSpec NavSpec NumLaws SphereSpec RealSpec RealExamples.
From Verif.Proofs Require Import BaseLemmas TrackLemmas RouteLemmas TrackRouteProofs NavLemmas NavSteps
  NavProofs NavProofs2 NavProofs3 GeoLemmas GeoProofs NavReal NavReal2 NavReal3 NavReal4 NavReal5 NavRefute NavReal6.
Open Scope R_scope.

Definition rx_two (id : string) : track R :=
  mkTrack id [mkSegment (mkPoint 0 0) (mkPoint 0 1) degree (Bearing (T := R) 0 0 0 1) 0 0;
              mkSegment (mkPoint 0 1) (mkPoint 0 2) (Distance (T := R) 0 1 0 2) (Bearing (T := R) 0 1 0 2) 1 1]
    "#ff0000" "" None (0 + degree + Distance (T := R) 0 1 0 2) false 0.

Transparent degree.
Lemma rx_two_eq id : rx_track id [0; 1; 2] = Some (rx_two id).
Proof.
  unfold rx_track, NewTrack. cbn [map].
  assert (E : makeSegments [mkPoint 0 0; mkPoint 0 1; mkPoint 0 2] =
    GOk (tk_segments (rx_two id), tk_dist (rx_two id))).
  { unfold makeSegments. cbn [zlen List.length make_segs]. change (zlen _ <? 2)%Z with false. cbv iota.
    apply f_equal. apply f_equal2; [|reflexivity].
    cbn [link_segs sg_a sg_b lat lon set_rel]. rewrite !point_eqb_refl. reflexivity. }
  rewrite E.
  assert (C : isClosed [mkPoint 0 0; mkPoint 0 1; mkPoint 0 2] = false).
  { unfold isClosed. change (zlen _ <? 3)%Z with false. cbv iota. cbn [rev app lon lat].
    change (Req_bool 0 2 && Req_bool 0 0 = false)%bool. rewrite Req_bool_false by lra. reflexivity. }
  rewrite C. reflexivity.
Qed.

Lemma rx_two_second : Distance (T := R) 0 1 0 2 = degree.
Proof.
  unfold degree. rewrite !Distance_equator by lra. f_equal. f_equal. lra.
Qed.
Opaque degree.

Lemma rx_two_measured id : measured_track (rx_two id).
Proof.
  pose proof degree_pos. pose proof rx_two_second as E. split; cbn [tk_segments rx_two tk_dist map].
  - rewrite !rsum_cons, rsum_nil. cbn [sg_dist]. lra.
  - fa; cbn [sg_dist]; lra.
Qed.

Lemma rx_two_linked id : linked (rx_two id).
Proof.
  intros i s A L. apply zget_at_pos in A. pose proof (zget_Some_range _ _ _ A) as Q.
  unfold zlen in *. cbn [List.length tk_segments rx_two] in *. assert (i = 0%Z) by lia. subst i. cbn in A.
  injection A as <-. reflexivity.
Qed.

Section S.
Context {J : JsonLib R}.

Definition rx_r : route R := rx_one "r" [rx_two "t"].
Lemma rx_r_measured : measured_route rx_r.
Proof. apply rx_measured. fa; apply rx_two_measured. Qed.

Lemma rx_walk : exists n0 n n1 n2 n3,
  navigator_New [SkipOfflineMode] "u" (fun _ => 0) = GOk n0 /\
  run_navs n0 [NAddRoute [Some rx_r]] = Ret n /\ n_routes n = [rx_r] /\ rewound n /\ n_skip n = true /\
  at_track_start n (rx_two "t") /\ n_dist n = 2 * degree /\
  NextLocation n degree 1 0 = Ret (true, n1) /\ n_csd n1 = degree /\ position n1 = (0, 0, 0)%Z /\
  NextLocation n1 degree 1 0 = Ret (true, n2) /\ n_csd n2 = degree /\ position n2 = (0, 0, 1)%Z /\ n_skip n2 = true /\
  NextLocation n2 degree 1 0 = Ret (false, n3) /\ completes n2 false n3.
Proof.
  pose proof degree_pos as K. pose proof rx_two_second as E2.
  destruct (rx_load [rx_r]) as (n0 & n & H0 & H1 & Er & Hrw & Hm & Hw & Hsk).
  { fa. apply rx_r_measured. }
  { repeat constructor. intros []. }
  { discriminate. }
  pose proof Hrw as ([= P1 P2 P3] & P4 & _).
  assert (Hlen : zlen (tk_segments (rx_two "t")) = 2%Z) by reflexivity.
  assert (Hd : Forall (fun s => degree * 1 <= sg_dist s) (tk_segments (rx_two "t"))).
  { cbn [tk_segments rx_two]. fa; cbn [sg_dist]; lra. }
  assert (Hon : forall m, n_routes m = [rx_r] -> n_ri m = 0%Z -> n_ti m = 0%Z -> nav_wf m -> on_track m 0 0 (rx_two "t")).
  { intros m A B C W. split; [exact B|]. split; [exact C|]. split.
    - unfold cur_track, cur_route. rewrite A, B, C. reflexivity.
    - split; [rewrite A; discriminate|exact W]. }
  assert (Hgo : forall m b m', n_routes m = [rx_r] -> n_ri m = 0%Z -> n_ti m = 0%Z -> nav_wf m -> n_skip m = true ->
     (n_si m = 0 \/ n_si m = 1)%Z ->
     NextLocation m degree 1 0 = Ret (b, m') ->
     (b = true /\ fits m (degree * 1) = true /\ m' = advance m (degree * 1)) \/
     (b = true /\ fits m (degree * 1) = false /\ (n_si m < 1)%Z /\ m' = advance (passed m 1) (degree * 1)) \/
     (b = false /\ fits m (degree * 1) = false /\ n_si m = 1%Z)).
  { intros m b m' A B C W Sk S E. destruct (NextLocation_inv zero_eq_zero_R _ _ _ _ _ _ E) as [(X & _)|[(_ & X & _)|(_ & _ & _ & St)]].
    - congruence.
    - apply offline_tick_now in X as [X _]. congruence.
    - change (step m (degree * 1) 0 b m') in St.
      destruct (step_small m (degree * 1) 0 b m' 0 0 (rx_two "t")) as [Q|[Q|Q]]; auto.
      + apply rx_two_linked.
      + lra.
      + rewrite Hlen. lia. }
  (* first step *)
  destruct (NextLocation_wf zero_eq_zero_R n degree 1 0 Hw) as (b1 & n1 & N1 & W1).
  assert (F1 : fits n (degree * 1) = true).
  { destruct (on_track_seg n 0 0 (rx_two "t") (nth 0 (tk_segments (rx_two "t")) segment_zero)) as [Ec Ee].
    - now apply Hon.
    - rewrite P3. reflexivity.
    - change (0 < degree). lra.
    - apply (fits_true _ _ _ Ec Ee). rewrite P4. change (0 + degree * 1 <= degree). lra. }
  assert (G1 : b1 = true /\ n1 = advance n (degree * 1)).
  { destruct (Hgo _ _ _ Er P1 P2 Hw Hsk (or_introl P3) N1) as [(A & B & C)|[(A & B & C)|(A & B & C)]]; try congruence. auto. }
  destruct G1 as [-> G1].
  assert (C1 : n_csd n1 = degree).
  { rewrite G1. change (n_csd n + degree * 1 = degree). rewrite P4. change (0 + degree * 1 = degree). lra. }
  assert (Q1 : n_routes n1 = [rx_r] /\ n_ri n1 = 0%Z /\ n_ti n1 = 0%Z /\ n_si n1 = 0%Z /\ n_skip n1 = true).
  { rewrite G1. cbn. auto. }
  destruct Q1 as (Er1 & A1 & A2 & A3 & Sk1).
  (* second step *)
  destruct (NextLocation_wf zero_eq_zero_R n1 degree 1 0 W1) as (b2 & n2 & N2 & W2).
  assert (Nofit : forall m i s, n_routes m = [rx_r] -> n_ri m = 0%Z -> n_ti m = 0%Z -> n_si m = i -> nav_wf m ->
     zget (tk_segments (rx_two "t")) i = Some s -> sg_dist s = degree -> n_csd m = degree -> fits m (degree * 1) = false).
  { intros m i s Q1 Q2 Q3 Q4 Q5 Q6 Q7 Q8. destruct (on_track_seg m 0 0 (rx_two "t") s) as [Ec Ee].
    - now apply Hon.
    - now rewrite Q4.
    - rewrite Q7. lra.
    - unfold fits. rewrite Ec, Ee. apply Rle_bool_false. rewrite Q7, Q8. change (degree < degree + degree * 1). lra. }
  assert (F2 : fits n1 (degree * 1) = false).
  { eapply (Nofit n1 0%Z); try eassumption; reflexivity. }
  assert (G2 : b2 = true /\ n2 = advance (passed n1 1) (degree * 1)).
  { destruct (Hgo _ _ _ Er1 A1 A2 W1 Sk1 (or_introl A3) N2) as [(A & B & C)|[(A & B & C & D)|(A & B & C)]]; try congruence; auto; lia. }
  destruct G2 as [-> G2].
  assert (C2 : n_csd n2 = degree).
  { rewrite G2. change (0 + degree * 1 = degree). lra. }
  assert (Q2 : n_routes n2 = [rx_r] /\ n_ri n2 = 0%Z /\ n_ti n2 = 0%Z /\ n_si n2 = 1%Z /\ n_skip n2 = true).
  { rewrite G2. cbn. rewrite A3. auto. }
  destruct Q2 as (Er2 & B1 & B2 & B3 & Sk2).
  (* third step *)
  destruct (NextLocation_wf zero_eq_zero_R n2 degree 1 0 W2) as (b3 & n3 & N3 & W3).
  assert (F3 : fits n2 (degree * 1) = false).
  { eapply (Nofit n2 1%Z); try eassumption; first [reflexivity|exact E2]. }
  assert (G3 : b3 = false).
  { destruct (Hgo _ _ _ Er2 B1 B2 W2 Sk2 (or_intror B3) N3) as [(A & B & C)|[(A & B & C & D)|(A & B & C)]]; try congruence; auto; lia. }
  subst b3.
  exists n0, n, n1, n2, n3. repeat (match goal with |- _ /\ _ => split end); try eassumption; try reflexivity.
  - split; [exact P3|]. split; [exact P4|]. exists rx_r. rewrite Er, P1, P2. split; (split; [lia|reflexivity]).
  - destruct Hm as [-> _]. rewrite Er. cbn [map]. rewrite rsum_cons, rsum_nil. unfold rx_r. rewrite rx_dist by (fa; apply rx_two_measured).
    cbn [map]. rewrite rsum_cons, rsum_nil. cbn [tk_dist rx_two]. lra.
  - unfold position. congruence.
  - unfold position. congruence.
  - split; [rewrite Er2; discriminate|]. split; [intros [X _]; congruence|]. split; [reflexivity|].
    destruct (NextLocation_inv zero_eq_zero_R _ _ _ _ _ _ N3) as [(X & _)|[(_ & X & _)|(_ & _ & _ & St)]].
    + congruence.
    + apply offline_tick_now in X as [X _]. congruence.
    + assert (Ll : is_last n2 = true).
      { unfold is_last. destruct (Hon n2 Er2 B1 B2 W2) as (_ & _ & -> & _). unfold NumSegments. rewrite Hlen, B3. reflexivity. }
      assert (Hk0 : forall k d, (forall j, (j < k)%nat -> passable (passed n2 j) d) -> k = 0%nat).
      { intros [|k] d Hk; [reflexivity|]. destruct (Hk 0%nat) as (_ & X & _); [lia|]. cbn [passed] in X. congruence. }
      remember false as b eqn:Eb. destruct St as [k Hk Hf|k Hk Hf Hlv|k Hk Hf Hlv Hemp Hrl].
      * discriminate.
      * destruct (off_pure_rest (leave n2) 0) as (X1 & X2 & X3 & X4 & _). unfold position. rewrite X2, X3, X4.
        unfold leave. cbn. change (cur_route (set_cur n2 0 (n_crd n2) 0 (n_cd n2))) with (cur_route n2).
        unfold cur_route. rewrite Er2, B1, B2. cbn. reflexivity.
      * exfalso. rewrite (Hk0 _ _ Hk) in Hlv. cbn [passed] in Hlv. congruence.
Qed.
End S.

Section T.
Context {J : JsonLib R}.

(** loading a route does not take the navigator offline *)
Lemma offline_start n0 n : navigator_New [SkipOfflineMode] "u" (fun _ => 0) = GOk n0 ->
  run_navs n0 [NAddRoute [Some rx_r]] = Ret n -> n_off n = 0%Z.
Proof.
  intros A B. destruct (New_random _ _ _ _ A) as [E _].
  cbn [run_navs run_nav bind] in B. assert (B' : n = snd (nav_AddRoute n0 [Some rx_r])) by congruence.
  rewrite B', <- E. unfold nav_AddRoute. destruct (add_routes (n_routes n0) [Some rx_r] 0%Z) as [? []]; reflexivity.
Qed.

Lemma C21_two_proof (n : navigator R) (d : R) : measured n -> two_by_two n -> 1 <= d < n_dist n ->
  exists rt tk s n',
    DestinationTo n d = (true, n') /\
    at_pos (n_routes n) (n_ri n') rt /\ at_pos (rt_tracks rt) (n_ti n') tk /\
    at_pos (tk_segments tk) (n_si n') s /\
    path_before n rt tk (n_ri n') (n_ti n') (n_si n') <= d
      < path_before n rt tk (n_ri n') (n_ti n') (n_si n') + sg_dist s /\
    n_csd n' = d - path_before n rt tk (n_ri n') (n_ti n') (n_si n') /\
    n_point n' = point_along s (n_csd n').
Proof.
  intros Hm [H1 H2] Hd.
  destruct (C21_proof n d Hm Hd) as (r & t & i & rt & tk & s & n' & A & B & C & D & E & _ & _ & _ & F1 & F2 & _ & _ & _ & _ & _ & _ & _ & G1 & G2 & G3).
  assert (Er : n_ri n' = r).
  { apply zget_at_pos, zget_Some_range in A. unfold zlen in A. assert (r = 0 \/ r = 1)%Z as [-> | ->] by lia; lia. }
  assert (Et : n_ti n' = t).
  { assert (L : (List.length (rt_tracks rt) <= 2)%nat).
    { eapply (proj1 (Forall_forall _ _) H2). apply zget_at_pos in A. eapply zget_In; exact A. }
    apply zget_at_pos, zget_Some_range in B. unfold zlen in B. assert (t = 0 \/ t = 1)%Z as [-> | ->] by lia; lia. }
  exists rt, tk, s, n'. rewrite Er, Et, G3, F1, F2. repeat (split; [assumption|]). auto.
Qed.
End T.
