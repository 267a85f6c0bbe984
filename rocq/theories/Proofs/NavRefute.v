(** Concrete journeys along the equator on which C19-C21, C28 and C32 fail. *)
From Coq Require Import Reals Lra Lia.
From Flocq Require Import Core.Raux.
From Verif.Model Require Import Base Num NumR Geo Curve PropMap Types TypesSnap Track Route Navigator.
From Verif.Spec Require Import ListSpec TrackSpec RouteSpec NavSpec NumLaws SphereSpec RealSpec RealExamples.
From Verif.Proofs Require Import BaseLemmas TrackLemmas RouteLemmas TrackRouteProofs NavLemmas NavSteps
  NavProofs NavProofs2 NavProofs3 GeoLemmas GeoProofs NavReal NavReal2 NavReal3 NavReal4 NavReal5.
Open Scope R_scope.

Lemma degree_pos : 1 <= degree. Proof. exact degree_positive. Qed.
Global Opaque degree.

(** the track through longitudes 0 and 1 *)
Definition rx_seg : segment R := mkSegment (mkPoint 0 0) (mkPoint 0 1) degree (Bearing (T := R) 0 0 0 1) 0 (-1).
Definition rx_trk (id : string) : track R := mkTrack id [rx_seg] "#ff0000" "" None (0 + degree) false 0.
Transparent degree.
Lemma rx_trk_eq id : rx_track id [0; 1] = Some (rx_trk id). Proof. reflexivity. Qed.
Opaque degree.

(** the track through longitudes 0, 1, 1, 2 *)
Definition rx_twice (id : string) : track R :=
  mkTrack id [mkSegment (mkPoint 0 0) (mkPoint 0 1) degree (Bearing (T := R) 0 0 0 1) 0 0;
              mkSegment (mkPoint 0 1) (mkPoint 0 1) (Distance (T := R) 0 1 0 1) (Bearing (T := R) 0 1 0 1) 1 1;
              mkSegment (mkPoint 0 1) (mkPoint 0 2) (Distance (T := R) 0 1 0 2) (Bearing (T := R) 0 1 0 2) 2 2]
    "#ff0000" "" None (0 + degree + Distance (T := R) 0 1 0 1 + Distance (T := R) 0 1 0 2) false 0.

Lemma point_eqb_refl (p : point R) : point_eqb p p = true.
Proof.
  unfold point_eqb. change (Req_bool (lat p) (lat p) && Req_bool (lon p) (lon p) = true)%bool.
  rewrite !Req_bool_true by reflexivity. reflexivity.
Qed.

Lemma rx_twice_eq id : rx_track id [0; 1; 1; 2] = Some (rx_twice id).
Proof.
  unfold rx_track, NewTrack. cbn [map].
  assert (E : makeSegments [mkPoint 0 0; mkPoint 0 1; mkPoint 0 1; mkPoint 0 2] =
    GOk (tk_segments (rx_twice id), tk_dist (rx_twice id))).
  { unfold makeSegments. cbn [zlen List.length make_segs]. change (zlen _ <? 2)%Z with false. cbv iota.
    apply f_equal. apply f_equal2; [|reflexivity].
    cbn [link_segs sg_a sg_b lat lon set_rel]. rewrite !point_eqb_refl.
    cbn [link_segs sg_a sg_b lat lon set_rel]. reflexivity. }
  rewrite E.
  assert (C : isClosed [mkPoint 0 0; mkPoint 0 1; mkPoint 0 1; mkPoint 0 2] = false).
  { unfold isClosed. change (zlen _ <? 3)%Z with false. cbv iota. cbn [rev app lon lat].
    change (Req_bool 0 2 && Req_bool 0 0 = false)%bool. rewrite Req_bool_false by lra. reflexivity. }
  rewrite C. reflexivity.
Qed.

Ltac fa := repeat first [apply Forall_nil | apply Forall_cons].

Section S.
Context {J : JsonLib R}.

Lemma rx_new uuid draws : exists n, navigator_New [SkipOfflineMode] uuid draws = GOk n.
Proof.
  destruct (navigator_New [SkipOfflineMode] uuid draws) as [n|e] eqn:E; [now exists n|exfalso].
  pose proof (C34_proof [SkipOfflineMode] uuid draws) as H. cbn [eff_offline eff_elevation] in H.
  destruct H as [[H _] _]. destruct H as [H|[H|[H|[H|[H|H]]]]]; [now exists e|lia|lia| | |lia|lia].
  - change (Rlt_bool 1 0 = true) in H. rewrite Rlt_bool_false in H by lra. discriminate.
  - change (Rlt_bool (IZR 50000) (IZR 500) = true) in H. rewrite Rlt_bool_false in H by lra. discriminate.
Qed.

Definition rx_one (id : string) (ts : list (track R)) : route R := RouteFromTracks (map Some ts) id "#00ff00".

Lemma rx_tracks id ts : rt_tracks (rx_one id ts) = ts.
Proof.
  unfold rx_one, RouteFromTracks.
  assert (G : forall l r, rt_tracks (fold_left AddTrack (map Some l) r) = rt_tracks r ++ l).
  { induction l as [|t l IH]; intros r; cbn [map fold_left]; [now rewrite app_nil_r|].
    rewrite IH. cbn. now rewrite <- app_assoc. }
  rewrite G. reflexivity.
Qed.
Lemma rx_id id ts : rt_id (rx_one id ts) = id.
Proof.
  unfold rx_one, RouteFromTracks.
  assert (G : forall l r, rt_id (fold_left AddTrack (map Some l) r) = rt_id r).
  { induction l as [|t l IH]; intros r; cbn [map fold_left]; [reflexivity|]. rewrite IH. reflexivity. }
  rewrite G. reflexivity.
Qed.
Lemma rx_measured id ts : Forall measured_track ts -> measured_route (rx_one id ts).
Proof.
  intros H. unfold rx_one, RouteFromTracks.
  assert (G : forall l r, Forall measured_track l -> measured_route r -> measured_route (fold_left AddTrack (map Some l) r)).
  { induction l as [|t l IH]; intros r Hl Hr; cbn [map fold_left]; [exact Hr|].
    apply IH; [now inversion Hl|]. apply AddTrack_measured; [exact Hr|]. intros x [= <-]. now inversion Hl. }
  apply G; [exact H|]. apply NewRoute_measured.
Qed.

Lemma rx_trk_measured id : measured_track (rx_trk id).
Proof.
  pose proof degree_pos. split; cbn.
  - rewrite rsum_cons, rsum_nil. cbn. lra.
  - repeat constructor. cbn. lra.
Qed.

Lemma rx_twice_seg : Distance (T := R) 0 1 0 1 = 0 /\ 0 < Distance (T := R) 0 1 0 2.
Proof.
  rewrite !Distance_equator by lra. replace (1 - 1) with 0 by ring. unfold sphere_radius, rad.
  pose proof PI_RGT_0. split; lra.
Qed.

Lemma rx_twice_measured id : measured_track (rx_twice id).
Proof.
  pose proof degree_pos. destruct rx_twice_seg as [E1 E2]. split; cbn [tk_segments rx_twice tk_dist map].
  - rewrite !rsum_cons, rsum_nil. cbn [sg_dist]. lra.
  - repeat constructor; cbn [sg_dist]; lra.
Qed.

(** a fresh navigator with these routes *)
Lemma rx_load rs : Forall measured_route rs -> NoDup (map rt_id rs) -> rs <> [] ->
  exists n0 n, navigator_New [SkipOfflineMode] "u" (fun _ => 0) = GOk n0 /\
    run_navs n0 [NAddRoute (map Some rs)] = Ret n /\
    n_routes n = rs /\ rewound n /\ measured n /\ nav_wf n /\ n_skip n = true.
Proof.
  intros Hm Hnd Hne. destruct (rx_new "u" (fun _ => 0)) as (n0 & H0). exists n0.
  pose proof (C34_proof [SkipOfflineMode] "u" (fun _ => 0)) as H. cbn [eff_offline eff_elevation] in H.
  destruct H as [_ H]. destruct (H n0 H0) as (E1 & _ & _ & _ & _ & E2).
  destruct (C17_proof n0 (map Some rs)) as [_ H1].
  destruct H1 as (n & E & F1 & F2 & F3). { destruct rs; [contradiction|discriminate]. }
  assert (Ef : fresh_routes (map rt_id (n_routes n0)) (map Some rs) = rs).
  { rewrite E1. cbn [map]. clear - Hnd.
    assert (G : forall (l : list (route R)) ids, NoDup (map rt_id l) -> (forall x, In x (map rt_id l) -> ~ In x ids) ->
      fresh_routes ids (map Some l) = l).
    { induction l as [|r l IH]; intros ids Hl Hd; [reflexivity|]. cbn [map fresh_routes].
      inversion Hl; subst. destruct (in_dec _ _ _) as [i|i].
      - exfalso. apply (Hd (rt_id r)); [now left|exact i].
      - f_equal. apply IH; [assumption|]. intros x Hx [<-|Hx']; [contradiction|].
        apply (Hd x); [now right|exact Hx']. }
    apply G; [exact Hnd|]. intros x _ []. }
  rewrite Ef in F1, F3. destruct (F3 Hne) as (G1 & G2 & G3 & _). rewrite E1 in F1. cbn in F1.
  exists n. split; [exact H0|].
  assert (Er : run_navs n0 [NAddRoute (map Some rs)] = Ret n).
  { cbn [run_navs run_nav bind]. rewrite E. reflexivity. }
  split; [exact Er|]. split; [exact F1|]. split; [exact G1|].
  split; [split; [rewrite G2; unfold total_of_routes; apply fsum_rsum|rewrite F1; exact Hm]|].
  split.
  - pose proof (AddRoute_wf n0 (map Some rs) (New_wf _ _ _ _ H0)) as W. rewrite E in W. exact W.
  - destruct G3 as (_ & _ & _ & _ & ->). apply E2. now left.
Qed.

(** ** C20, C21 *)

Definition rx_three : list (route R) :=
  [rx_one "r1" [rx_trk "t1"]; rx_one "r2" [rx_trk "t2"]; rx_one "r3" [rx_trk "t3"]].

Lemma rx_dist id ts : Forall measured_track ts -> rt_dist (rx_one id ts) = rsum (map tk_dist ts).
Proof. intros H. destruct (rx_measured id ts H) as [-> _]. now rewrite rx_tracks. Qed.

Lemma rx_three_measured : Forall measured_route rx_three.
Proof. fa; apply rx_measured; fa; apply rx_trk_measured. Qed.

Lemma C21_refuted_proof : exists n0 n n' d,
  navigator_New [SkipOfflineMode] "u" (fun _ => 0) = GOk n0 /\
  run_navs n0 [NAddRoute (map Some rx_three)] = Ret n /\ measured n /\
  1 <= d < n_dist n /\ DestinationTo n d = (true, n') /\
  (forall rt, ~ at_pos (n_routes n') (n_ri n') rt) /\ run_nav n' NQuery = Panic.
Proof.
  pose proof degree_pos as K.
  destruct (rx_load rx_three) as (n0 & n & H0 & H1 & Er & _ & Hm & _).
  { exact rx_three_measured. }
  { unfold rx_three. cbn [map]. rewrite !rx_id. repeat constructor; cbn; intuition discriminate. }
  { discriminate. }
  assert (Ed : forall id t, rt_dist (rx_one id [rx_trk t]) = degree).
  { intros. rewrite rx_dist by (fa; apply rx_trk_measured). cbn [map]. rewrite rsum_cons, rsum_nil. cbn [tk_dist rx_trk]. lra. }
  assert (Edist : n_dist n = 3 * degree).
  { destruct Hm as [-> _]. rewrite Er. unfold rx_three. cbn [map]. rewrite !rsum_cons, rsum_nil, !Ed. lra. }
  destruct (C21_proof n (5 / 2 * degree) Hm) as (r & t & i & rt & tk & s & n' & A & B & C & D & E & _ & _ & _ & _ & _ & F & _ & _ & _ & _ & _ & _ & G1 & _).
  { rewrite Edist. lra. }
  exists n0, n, n', (5 / 2 * degree). split; [exact H0|]. split; [exact H1|]. split; [exact Hm|].
  split; [rewrite Edist; lra|]. split; [exact E|].
  assert (Hr : r = 2%Z).
  { unfold path_before in D. rewrite Er in A, D.
    assert (Hrt : exists id tid, rt = rx_one id [rx_trk tid]).
    { apply zget_at_pos, zget_In in A. unfold rx_three in A. destruct A as [<-|[<-|[<-|[]]]]; eauto. }
    destruct Hrt as (id & tid & ->). rewrite rx_tracks in B, D.
    assert (Ht : t = 0%Z /\ tk = rx_trk tid).
    { apply zget_at_pos in B. pose proof (zget_Some_range _ _ _ B) as Q. unfold zlen in Q. cbn in Q.
      assert (t = 0%Z) by lia. subst t. split; [reflexivity|]. cbn in B. now injection B. }
    destruct Ht as [-> ->]. cbn [tk_segments rx_trk] in C, D.
    assert (Hi : i = 0%Z /\ s = rx_seg).
    { apply zget_at_pos in C. pose proof (zget_Some_range _ _ _ C) as Q. unfold zlen in Q. cbn [List.length] in Q.
      assert (i = 0%Z) by lia. subst i. split; [reflexivity|]. cbn in C. now injection C. }
    destruct Hi as [-> ->]. rewrite !before_0 in D. change (sg_dist rx_seg) with degree in D.
    apply zget_at_pos, zget_Some_range in A. unfold zlen, rx_three in A. cbn [List.length] in A.
    assert (Q : r = 0%Z \/ r = 1%Z \/ r = 2%Z) by lia.
    destruct Q as [-> |[-> | ->]]; [exfalso|exfalso|reflexivity].
    - rewrite before_0 in D. lra.
    - change (before rt_dist rx_three 1) with (rsum [rt_dist (rx_one "r1" [rx_trk "t1"])]) in D.
      rewrite rsum_cons, rsum_nil, Ed in D. lra. }
  assert (Hri : n_ri n' = 3%Z) by (subst r; lia).
  assert (Hz : zget (n_routes n') (n_ri n') = None).
  { apply zget_None. rewrite Hri, F, Er. unfold zlen, rx_three. cbn [List.length]. lia. }
  split.
  - intros rt' Q. apply zget_at_pos in Q. congruence.
  - cbn [run_nav]. unfold CurrentRoute. rewrite Hz, F, Er. reflexivity.
Qed.

(** ** C19 *)

Lemma C19_refuted_proof : exists n0 n r,
  navigator_New [SkipOfflineMode] "u" (fun _ => 0) = GOk n0 /\ measured_route r /\
  run_navs n0 [NAddRoute [Some r]; NRemoveTrack "r" "t1"] = Ret n /\
  n_dist n = 2 * degree /\ rsum (map rt_dist (n_routes n)) = degree.
Proof.
  pose proof degree_pos as K.
  destruct (rx_load [rx_one "r" [rx_trk "t1"; rx_trk "t2"]]) as (n0 & n & H0 & H1 & Er & _ & Hm & _).
  { fa; apply rx_measured; fa; apply rx_trk_measured. }
  { repeat constructor. intros []. }
  { discriminate. }
  assert (Mr : measured_route (rx_one "r" [rx_trk "t1"; rx_trk "t2"]))
    by (apply rx_measured; fa; apply rx_trk_measured).
  assert (Edist : n_dist n = 2 * degree).
  { destruct Hm as [-> _]. rewrite Er. cbn [map]. rewrite rsum_cons, rsum_nil.
    rewrite rx_dist by (fa; apply rx_trk_measured). cbn [map]. rewrite !rsum_cons, rsum_nil.
    cbn [tk_dist rx_trk]. lra. }
  exists n0, (snd (nav_RemoveTrack n "r" "t1")), (rx_one "r" [rx_trk "t1"; rx_trk "t2"]).
  split; [exact H0|]. split; [exact Mr|]. split.
  { cbn [run_navs] in *. cbn [map] in H1. destruct (run_nav n0 _); try discriminate. cbn [bind] in *.
    injection H1 as <-. reflexivity. }
  unfold nav_RemoveTrack. rewrite Er. cbn. split; [exact Edist|].
  change (rsum [0 + (0 + degree)] = degree). rewrite rsum_cons, rsum_nil. lra.
Qed.

(** ** C32 *)

Lemma C32_refuted_proof : exists n0 n n' r,
  navigator_New [SkipOfflineMode] "u" (fun _ => 0) = GOk n0 /\ measured_route r /\
  run_navs n0 [NAddRoute [Some r]] = Ret n /\
  NextLocation n (1 / 10) 1 0 = Ret (true, n') /\ fst (IsFinish n') = true.
Proof.
  pose proof degree_pos as K.
  destruct (rx_load [rx_one "r" [rx_trk "t"]]) as (n0 & n & H0 & H1 & Er & Hrw & Hm & Hw & Hsk).
  { fa; apply rx_measured; fa; apply rx_trk_measured. }
  { repeat constructor. intros []. }
  { discriminate. }
  destruct (NextLocation_wf zero_eq_zero_R n (1 / 10) 1 0 Hw) as (b & n' & E & _).
  assert (Q : b = true /\ n' = advance n (1 / 10 * 1)).
  { destruct (NextLocation_inv zero_eq_zero_R _ _ _ _ _ _ E) as [(X & _)|[(_ & X & _)|(_ & _ & _ & St)]].
    - rewrite Er in X. discriminate.
    - apply offline_tick_now in X as [X _]. congruence.
    - assert (Ht : on_track n 0 0 (rx_trk "t")).
      { destruct Hrw as ([= P1 P2 P3] & _). split; [exact P1|]. split; [exact P2|]. split.
        - unfold cur_track, cur_route. rewrite Er, P1, P2. cbn [zget]. reflexivity.
        - split; [rewrite Er; discriminate|exact Hw]. }
      destruct Hrw as ([= P1 P2 P3] & P4 & _).
      assert (Es : zget (tk_segments (rx_trk "t")) (n_si n) = Some rx_seg) by (rewrite P3; reflexivity).
      destruct (on_track_seg n 0 0 _ rx_seg Ht Es) as [Ec Ee]; [change (0 < degree); lra|].
      assert (Hf : fits n (1 / 10 * 1) = true).
      { apply (fits_true _ _ _ Ec Ee). rewrite P4. change (0 + 1 / 10 * 1 <= degree). lra. }
      destruct (step_small n (1 / 10 * 1) 0 b n' 0 0 (rx_trk "t") Ht) as [(B & _ & B2)|[(_ & X & _)|(_ & X & _)]]; try congruence.
      + intros i s A L. cbn in L. apply zget_at_pos, zget_Some_range in A. unfold zlen in *. cbn in *. lia.
      + fa. change (1 / 10 * 1 <= degree). lra.
      + lra.
      + rewrite P3. unfold zlen. cbn. lia.
      + exact St.
      + auto. }
  destruct Q as [-> ->]. exists n0, n, (advance n (1 / 10 * 1)), (rx_one "r" [rx_trk "t"]).
  split; [exact H0|]. split; [apply rx_measured; fa; apply rx_trk_measured|].
  split; [exact H1|]. split; [exact E|].
  apply IsFinish_true. destruct Hrw as (P1 & _ & _ & _ & P2). split; [exact P1|].
  change (n_cd n + 1 / 10 * 1 = 1 / 10). rewrite P2. change (f0 (T := R)) with 0. lra.
Qed.

(** ** C28 *)

Lemma C28_refuted_proof : exists n0 n r tk s,
  navigator_New [SkipOfflineMode] "u" (fun _ => 0) = GOk n0 /\ measured_route r /\
  run_navs n0 [NAddRoute [Some r]] = Ret n /\
  at_track_start n tk /\ linked tk /\ at_pos (tk_segments tk) 2 s /\ 0 < sg_dist s /\
  forall args, ~ visited n args 0 0 2.
Proof.
  pose proof degree_pos as K. destruct rx_twice_seg as [S1 S2].
  destruct (rx_load [rx_one "r" [rx_twice "t"]]) as (n0 & n & H0 & H1 & Er & Hrw & Hm & Hw & Hsk).
  { fa; apply rx_measured; fa; apply rx_twice_measured. }
  { repeat constructor. intros []. }
  { discriminate. }
  exists n0, n, (rx_one "r" [rx_twice "t"]), (rx_twice "t"). eexists.
  split; [exact H0|]. split; [apply rx_measured; fa; apply rx_twice_measured|]. split; [exact H1|].
  destruct Hrw as ([= P1 P2 P3] & P4 & _).
  split.
  { split; [exact P3|]. split; [exact P4|]. exists (rx_one "r" [rx_twice "t"]). rewrite Er, P1, P2, rx_tracks.
    split; (split; [lia|reflexivity]). }
  split.
  { intros i s A _. apply zget_at_pos in A. pose proof (zget_Some_range _ _ _ A) as Q. unfold zlen in Q. cbn [List.length tk_segments rx_twice] in Q.
    assert (Q' : i = 0%Z \/ i = 1%Z \/ i = 2%Z) by lia.
    destruct Q' as [-> |[-> | ->]]; cbn in A; injection A as <-; reflexivity. }
  split; [split; [lia|reflexivity]|]. split; [exact S2|].
  (* every call ends at the start of the track *)
  assert (G : forall m tick speed draw b m', n_routes m = [rx_one "r" [rx_twice "t"]] -> position m = (0, 0, 0)%Z ->
    NextLocation m tick speed draw = Ret (b, m') -> n_routes m' = [rx_one "r" [rx_twice "t"]] /\ position m' = (0, 0, 0)%Z).
  { intros m tick speed draw b m' Em Pm E.
    split; [now rewrite (NextLocation_stable n_routes stable_routes _ _ _ _ _ _ E)|].
    destruct (NextLocation_inv zero_eq_zero_R _ _ _ _ _ _ E) as [(_ & _ & ->)|[(_ & _ & _ & ->)|(_ & _ & _ & St)]];
      [exact Pm|exact Pm|].
    injection Pm as Q1 Q2 Q3.
    assert (Ect : cur_track m = Some (rx_twice "t")).
    { unfold cur_track, cur_route. rewrite Em, Q1, Q2. reflexivity. }
    assert (Es0 : cur_seg m = nth 0 (tk_segments (rx_twice "t")) segment_zero /\ segment_IsEmpty (cur_seg m) = false).
    { unfold cur_seg. rewrite Ect, Q3. cbn [seg_of].
      rewrite (SegmentAt_Some (rx_twice "t") 0 _ eq_refl).
      assert (X : segment_IsEmpty (mkSegment (mkPoint 0 0) (mkPoint 0 1) degree (Bearing (T := R) 0 0 0 1) 0 0) = false).
      { change (Req_bool degree 0 = false). apply Req_bool_false. lra. }
      rewrite X. split; [reflexivity|exact X]. }
    assert (Es1 : segment_IsEmpty (cur_seg (passed m 1)) = true).
    { rewrite passed_cur_seg, Ect, Q3. cbn [seg_of]. change (0 + Z.of_nat 1)%Z with 1%Z.
      rewrite (SegmentAt_Some (rx_twice "t") 1 _ eq_refl).
      assert (X : segment_IsEmpty (mkSegment (mkPoint 0 1) (mkPoint 0 1) (Distance (T := R) 0 1 0 1) (Bearing (T := R) 0 1 0 1) 1 1) = true).
      { change (Req_bool (Distance (T := R) 0 1 0 1) 0 = true). rewrite S1. now apply Req_bool_true. }
      rewrite X. apply Req_bool_true. reflexivity. }
    assert (Hk : forall k d, (forall j, (j < k)%nat -> passable (passed m j) d) -> (k <= 1)%nat).
    { intros k d Hk. destruct k as [|[|k]]; try lia. destruct (Hk 1%nat) as (_ & _ & X & _); [lia|congruence]. }
    destruct St as [k Hk0 Hf|k Hk0 Hf Hlv|k Hk0 Hf Hlv Hemp Hrl].
    - specialize (Hk k _ Hk0). destruct k as [|[|k]]; [| |lia].
      + unfold position. cbn. now rewrite Q1, Q2, Q3.
      + unfold fits in Hf. rewrite Es1 in Hf. discriminate.
    - destruct (off_pure_rest (leave m) draw) as (E1 & E2 & E3 & E4 & _). unfold position. rewrite E2, E3, E4.
      unfold leave. cbn. change (cur_route (set_cur m 0 (n_crd m) 0 (n_cd m))) with (cur_route m).
      unfold cur_route. rewrite Em, Q1, Q2. cbn. reflexivity.
    - exfalso. specialize (Hk k _ Hk0). destruct k as [|[|k]]; [| |lia].
      + cbn [passed] in Hrl. destruct Es0 as [Ex _]. rewrite Ex in Hrl. discriminate Hrl.
      + congruence. }
  intros args (pre & tick & speed & draw & post & bs & n1 & n2 & -> & L1 & L2 & L3).
  assert (I1 : n_routes n1 = [rx_one "r" [rx_twice "t"]] /\ position n1 = (0, 0, 0)%Z).
  { assert (I0 : n_routes n = [rx_one "r" [rx_twice "t"]] /\ position n = (0, 0, 0)%Z)
      by (split; [exact Er|unfold position; congruence]).
    clear - G L1 I0. revert n bs I0 L1. induction pre as [|[[x y] z] pre IH]; intros n bs I0 L1; cbn in L1.
    - injection L1 as _ <-. exact I0.
    - destruct (NextLocation n x y z) as [[b m]| |] eqn:E; try discriminate. cbn in L1.
      destruct (locations m pre) as [[bs' m']| |] eqn:F; try discriminate. cbn in L1. injection L1 as _ ->.
      destruct I0 as [I1 I2]. apply (IH m bs'); [|exact F]. eapply G; eassumption. }
  destruct I1 as [I1 I2]. destruct (G _ _ _ _ _ _ I1 I2 L2) as [_ X]. rewrite L3 in X. discriminate.
Qed.
End S.
