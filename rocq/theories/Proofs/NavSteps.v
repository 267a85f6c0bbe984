(** NextLocation as a whole; termination; preservation of well-formedness. *)
From Coq Require Import Lia.
From Verif.Model Require Import Base Num Geo Curve PropMap Types TypesSnap Track Route Navigator.
From Verif.Spec Require Import ListSpec TrackSpec RouteSpec NavSpec NumLaws.
From Verif.Proofs Require Import BaseLemmas RouteLemmas NavLemmas.
Open Scope num_scope.

Section L.
Context {T : Type} {N : Num T} {J : JsonLib T}.
Implicit Types n : navigator T.

Definition offline_tick n : bool := negb (n_skip n) && (0 <? n_off n)%Z.

Lemma NextLocation_offline n tick speed draw : n_routes n <> [] -> offline_tick n = true ->
  NextLocation n tick speed draw = Ret (false, set_off n (n_off n - 1)%Z).
Proof.
  intros Hne H. unfold NextLocation, nextOffline. unfold offline_tick in H.
  apply andb_prop in H as [H1 H2]. apply Bool.negb_true_iff in H1. rewrite H1, H2.
  destruct (n_routes n); [contradiction|reflexivity].
Qed.

Lemma NextLocation_online n tick speed draw : n_routes n <> [] -> offline_tick n = false ->
  NextLocation n tick speed draw = next_loop (nav_fuel n) n (tick * speed) draw.
Proof.
  intros Hne H. unfold NextLocation, nextOffline. unfold offline_tick in H.
  destruct (n_routes n) eqn:E; [contradiction|].
  destruct (n_skip n) eqn:F; [reflexivity|]. cbn in H. rewrite H. reflexivity.
Qed.

Lemma NextLocation_step (Z0 : zero_eq_zero N) n tick speed draw :
  n_routes n <> [] -> rnd_ok n -> idx_ok n -> offline_tick n = false ->
  exists b n', NextLocation n tick speed draw = Ret (b, n') /\ step n (tick * speed) draw b n'.
Proof.
  intros H1 H2 H3 H4. rewrite NextLocation_online by assumption.
  destruct (next_loop_ret Z0 (tick * speed) draw (nav_fuel n) n H3 H2 H1 (left_over_fuel n))
    as ([b n'] & E). exists b, n'. split; [exact E|].
  apply (next_loop_inv Z0 n (tick * speed) draw H1 (nav_fuel n) 0); [intros j Hj; lia|exact E].
Qed.

Lemma NextLocation_inv (Z0 : zero_eq_zero N) n tick speed draw b n' :
  NextLocation n tick speed draw = Ret (b, n') ->
  (n_routes n = [] /\ b = false /\ n' = n) \/
  (n_routes n <> [] /\ offline_tick n = true /\ b = false /\ n' = set_off n (n_off n - 1)%Z) \/
  (n_routes n <> [] /\ offline_tick n = false /\ idx_ok n /\ step n (tick * speed) draw b n').
Proof.
  intros E. destruct (n_routes n) as [|r0 l0] eqn:F.
  - left. unfold NextLocation in E. rewrite F in E. now injection E as <- <-.
  - right. assert (Hne : n_routes n <> []) by congruence. destruct (offline_tick n) eqn:G.
    + left. rewrite NextLocation_offline in E by assumption. injection E as <- <-. now rewrite <- F.
    + right. rewrite NextLocation_online in E by assumption.
      apply (next_loop_inv Z0 n _ _ Hne (nav_fuel n) 0) in E as [E1 E2]; [|intros; lia].
      rewrite <- F. auto.
Qed.

Lemma NextLocation_empty n tick speed draw : n_routes n = [] ->
  NextLocation n tick speed draw = Ret (false, n).
Proof. unfold NextLocation. now intros ->. Qed.

(** ** termination without any well-formedness assumption *)

Lemma idx_ok_dec n : idx_ok n \/ CurrentRoute n = Panic.
Proof.
  unfold idx_ok, CurrentRoute. destruct (n_routes n) eqn:E; [now left; left|].
  destruct (zget (r :: l) (n_ri n)) eqn:F; [left; right|right].
  - now apply zget_Some_range in F.
  - reflexivity.
Qed.

Lemma NextSegment_nofuel n : nextTrack n <> NoFuel.
Proof.
  unfold nextTrack, CurrentRoute.
  cbn -[zget]. destruct (n_routes n); cbn -[zget]; [discriminate|].
  destruct (zget _ (n_ri n)); cbn; [|discriminate].
  destruct (n_ti n <? _)%Z; discriminate.
Qed.

Lemma ToOffline_nofuel n d : ToOffline n d <> NoFuel.
Proof. unfold ToOffline. destruct (n_skip n); [discriminate|]. destruct (n_rnd n); discriminate. Qed.

Lemma bind_nofuel {A B} (m : res A) (k : A -> res B) :
  m <> NoFuel -> (forall a, m = Ret a -> k a <> NoFuel) -> bind m k <> NoFuel.
Proof. destruct m; cbn; intros H1 H2; auto; discriminate. Qed.

Lemma next_loop_nofuel (Z0 : zero_eq_zero N) d draw :
  forall fuel n, (left_over n < fuel)%nat -> next_loop fuel n d draw <> NoFuel.
Proof.
  induction fuel as [|fuel IH]; intros n Hf; [lia|].
  cbn [next_loop]. destruct (idx_ok_dec n) as [Hi|Hp].
  2:{ unfold isValidDistance, CurrentSegment. rewrite Hp. discriminate. }
  rewrite isValidDistance_pure by assumption. cbn [bind].
  destruct (fits n d) eqn:Hfit.
  - rewrite CurrentSegment_pure by exact Hi. cbn [bind].
    destruct (segment_IsEmpty _); discriminate.
  - unfold nextSegment. rewrite CurrentTrack_pure by assumption. cbn [bind].
    destruct (cur_track n) as [t|] eqn:Ht.
    2:{ cbn [bind]. rewrite zero_seg_empty by assumption. apply bind_nofuel; [apply NextSegment_nofuel|].
        intros [b n1] _. apply bind_nofuel; [apply ToOffline_nofuel|discriminate]. }
    destruct (n_si n =? NumSegments t - 1)%Z eqn:Hlast.
    { cbn [bind]. rewrite zero_seg_empty by assumption. apply bind_nofuel; [apply NextSegment_nofuel|].
      intros [b n1] _. apply bind_nofuel; [apply ToOffline_nofuel|discriminate]. }
    rewrite CurrentSegment_pure by assumption. cbn [bind].
    destruct (segment_IsEmpty (cur_seg n)) eqn:He.
    { apply bind_nofuel; [apply NextSegment_nofuel|].
      intros [b n1] _. apply bind_nofuel; [apply ToOffline_nofuel|discriminate]. }
    destruct (segment_hasRelation (cur_seg n)).
    2:{ apply bind_nofuel; [apply ToOffline_nofuel|discriminate]. }
    apply IH. unfold cur_seg in He.
    destruct (seg_of_nonempty _ _ Z0 He) as (tr & Htr & Hg).
    rewrite Ht in Htr. injection Htr as <-. apply zget_Some_range in Hg.
    unfold left_over in *. rewrite Ht in Hf.
    replace (cur_track _) with (cur_track n) by reflexivity. rewrite Ht. cbn.
    unfold NumSegments in *. lia.
Qed.

Lemma next_loop_mono d draw : forall f k n,
  next_loop f n d draw <> NoFuel -> next_loop (f + k) n d draw = next_loop f n d draw.
Proof.
  induction f as [|f IH]; intros k n H; [now cbn in H|].
  cbn [next_loop Nat.add] in *.
  destruct (isValidDistance n d) as [v| |]; cbn [bind] in *; try reflexivity.
  destruct v; [reflexivity|].
  destruct (nextSegment n) as [[seg n1]| |]; cbn [bind] in *; try reflexivity.
  destruct (segment_IsEmpty seg); [reflexivity|].
  destruct (segment_hasRelation seg); [|reflexivity].
  now apply IH.
Qed.

Lemma current_segments_left n : (left_over n <= current_segments n)%nat.
Proof.
  unfold left_over, current_segments, cur_track, cur_route.
  destruct (zget (n_routes n) (n_ri n)) as [r|]; [|lia].
  destruct (TrackAt r (n_ti n)) as [t|] eqn:E; [|lia].
  apply TrackAt_Some, zget_at_pos in E. rewrite E. unfold NumSegments, zlen. lia.
Qed.

Lemma C22_proof (Z0 : zero_eq_zero N) n d draw fuel :
  (current_segments n < fuel)%nat ->
  next_loop fuel n d draw <> NoFuel /\
  next_loop fuel n d draw = next_loop (nav_fuel n) n d draw.
Proof.
  intros H. pose proof (current_segments_left n) as H1. pose proof (left_over_fuel n) as H2.
  assert (A : next_loop fuel n d draw <> NoFuel) by (apply next_loop_nofuel; [assumption|lia]).
  assert (B : next_loop (nav_fuel n) n d draw <> NoFuel) by (apply next_loop_nofuel; [assumption|lia]).
  split; [exact A|].
  destruct (Nat.le_ge_cases fuel (nav_fuel n)) as [L|L].
  - replace (nav_fuel n) with (fuel + (nav_fuel n - fuel))%nat by lia. symmetry. now apply next_loop_mono.
  - replace fuel with (nav_fuel n + (fuel - nav_fuel n))%nat by lia. now apply next_loop_mono.
Qed.

Lemma NextLocation_nofuel (Z0 : zero_eq_zero N) n tick speed draw :
  NextLocation n tick speed draw <> NoFuel.
Proof.
  destruct (n_routes n) eqn:E.
  - rewrite NextLocation_empty by assumption. discriminate.
  - assert (Hne : n_routes n <> []) by congruence.
    destruct (offline_tick n) eqn:F.
    + rewrite NextLocation_offline by assumption. discriminate.
    + rewrite NextLocation_online by assumption. apply next_loop_nofuel; [assumption|apply left_over_fuel].
Qed.

(** ** preservation of well-formedness *)

Lemma wf_rest n n' : nav_wf n -> idx_ok n' -> n_skip n' = n_skip n -> n_rnd n' = n_rnd n ->
  n_elev n' = n_elev n -> nav_wf n'.
Proof.
  intros [Hi Hr He] H1 H2 H3 H4. constructor; [assumption| |].
  - unfold rnd_ok in *. now rewrite H2, H3.
  - unfold elev_ok in *. now rewrite H4.
Qed.

Ltac wfr H := apply (wf_rest _ _ H); [|reflexivity..].

Lemma Reset_wf n : nav_wf n -> nav_wf (nav_Reset n).
Proof.
  intros H. wfr H. destruct (n_routes n) eqn:E; [left; exact E|right].
  cbn. rewrite E, zlen_cons. pose proof (zlen_nonneg l). lia.
Qed.

Lemma idx_reset n : idx_ok (nav_Reset n).
Proof.
  destruct (n_routes n) eqn:E; [left; exact E|right].
  cbn. rewrite E, zlen_cons. pose proof (zlen_nonneg l). lia.
Qed.

Lemma add_routes_none (l : list (route T)) rs : forall ok l' ok', add_routes l rs ok = (l', ok') ->
  (ok <= ok')%Z /\ (ok' = ok -> l' = l).
Proof.
  revert l. induction rs as [|x rs IH]; intros l ok l' ok'; cbn.
  - intros [= <- <-]. split; [lia|reflexivity].
  - destruct x as [x|]; [|apply IH].
    destruct (hasRoute l (rt_id x)); [apply IH|].
    intros H. apply IH in H as [H1 H2]. split; [lia|]. intros ->. lia.
Qed.

Lemma AddRoute_wf n rs : nav_wf n -> nav_wf (snd (nav_AddRoute n rs)).
Proof.
  intros H. unfold nav_AddRoute. destruct rs as [|x rs]; [exact H|].
  destruct (add_routes (n_routes n) (x :: rs) 0) as [l ok] eqn:E. cbn [snd].
  apply add_routes_none in E as [E1 E2].
  destruct (0 <? ok)%Z eqn:F.
  - wfr H. apply (idx_reset (set_routes n l)).
  - apply Z.ltb_ge in F. rewrite E2 by lia. wfr H. exact (wf_idx _ H).
Qed.

Lemma ResetRoutes_wf n : nav_wf n -> nav_wf (snd (nav_ResetRoutes n)).
Proof.
  intros H. unfold nav_ResetRoutes. destruct (n_routes n) eqn:E; [exact H|].
  cbn. wfr H. left. reflexivity.
Qed.

Lemma RemoveRoute_wf n id : nav_wf n -> nav_wf (snd (nav_RemoveRoute n id)).
Proof.
  intros H. unfold nav_RemoveRoute. destruct (_ || _)%bool; [exact H|].
  destruct (find_index _ _) as [i|]; [|exact H]. cbn. wfr H. apply idx_reset.
Qed.

Lemma RemoveTrack_wf n r t : nav_wf n -> nav_wf (snd (nav_RemoveTrack n r t)).
Proof.
  intros H. unfold nav_RemoveTrack. destruct (_ || _)%bool; [exact H|].
  destruct (find_index _ _) as [i|]; [|exact H].
  destruct (nth_error _ i) as [x|] eqn:E; [|exact H].
  destruct (route_RemoveTrack x t) as [[] x']; [|exact H].
  cbn. wfr H. destruct (wf_idx _ H) as [G|G].
  - rewrite G in E. destruct i; discriminate.
  - right. cbn. now rewrite zlen_set_nth.
Qed.

Lemma mutateRoute_wf n i f : nav_wf n -> nav_wf (nav_mutateRoute n i f).
Proof.
  intros H. unfold nav_mutateRoute. destruct (nth_error _ i) as [x|] eqn:E; [|exact H].
  wfr H. destruct (wf_idx _ H) as [G|G].
  - rewrite G in E. destruct i; discriminate.
  - right. cbn. now rewrite zlen_set_nth.
Qed.

Lemma MoveToSegment_wf n r t s : nav_wf n -> nav_wf (snd (MoveToSegment n r t s)).
Proof.
  intros H. unfold MoveToSegment.
  destruct (zlen (n_routes n) =? 0)%Z; [exact H|].
  destruct (_ && _)%bool; [exact H|].
  destruct ((r <? 0) || _)%Z eqn:E; [exact H|].
  destruct (zget (n_routes n) r) as [rt|] eqn:F; [|exact H].
  destruct (zlen (rt_tracks rt) =? 0)%Z; [exact H|].
  destruct ((t <? 0) || _)%Z; [exact H|].
  destruct (TrackAt rt t) as [tr|]; [|exact H].
  destruct ((s <? 0) || _)%Z; [exact H|].
  destruct (t =? n_ti n)%Z; destruct (r =? n_ri n)%Z; cbn; wfr H; right; cbn;
    now apply zget_Some_range in F.
Qed.

Lemma NextRoute_wf n : nav_wf n -> nav_wf (snd (NextRoute n)).
Proof. intros H. unfold NextRoute. destruct (_ <? _)%Z; [now apply MoveToSegment_wf|exact H]. Qed.
Lemma PrevRoute_wf n : nav_wf n -> nav_wf (snd (PrevRoute n)).
Proof. intros H. unfold PrevRoute. destruct (_ <? _)%Z; [now apply MoveToSegment_wf|exact H]. Qed.
Lemma MoveToRouteByID_wf n id : nav_wf n -> nav_wf (snd (MoveToRouteByID n id)).
Proof. intros H. unfold MoveToRouteByID. destruct (_ =? _)%Z; [exact H|now apply MoveToSegment_wf]. Qed.
Lemma MoveToTrackByID_wf n r t : nav_wf n -> nav_wf (snd (MoveToTrackByID n r t)).
Proof.
  intros H. unfold MoveToTrackByID. destruct (_ =? _)%Z; [exact H|].
  destruct (zget _ _); [|exact H]. destruct (_ =? _)%Z; [exact H|now apply MoveToSegment_wf].
Qed.

Lemma IsFinish_wf n : nav_wf n -> nav_wf (snd (IsFinish n)).
Proof.
  intros H. unfold IsFinish. destruct (_ && _)%bool; [|exact H]. cbn. wfr H. exact (wf_idx _ H).
Qed.

Lemma ToOffline_wf n d : nav_wf n -> exists n', ToOffline n d = Ret n' /\ nav_wf n'.
Proof.
  intros H. rewrite ToOffline_pure by apply H. eexists. split; [reflexivity|].
  destruct (off_pure_rest n d) as (E1 & E2 & _ & _ & _ & _ & _ & _ & _ & E3 & E4 & _ & E5 & _).
  eapply wf_rest; eauto. eapply idx_ok_ext; eauto. apply H.
Qed.

Lemma eval_vp_length (t u : T) l : List.length (eval_vp t u l) = List.length l.
Proof. revert u. induction l; intros u; cbn; auto. Qed.

Lemma curve_Point_ok (c : curve T) t : cv_points c <> [] ->
  exists p c', curve_Point c t = Ret (p, c') /\ cv_points c' <> [].
Proof.
  intros H. unfold curve_Point. destruct (cv_points c) as [|p0 l]; [contradiction|].
  destruct (rev _) as [|x back] eqn:E.
  - apply (f_equal (@List.length _)) in E. rewrite rev_length in E. discriminate.
  - eexists _, _. split; [reflexivity|]. cbn. discriminate.
Qed.

Lemma weigh_nonempty k i (w : T) l : l <> [] -> weigh k i w l <> [].
Proof. destruct l; cbn; [contradiction|discriminate]. Qed.

Lemma curve_Shuffle_ok (c : curve T) d : cv_points c <> [] -> cv_points (curve_Shuffle c d) <> [].
Proof.
  intros H. unfold curve_Shuffle. cbn. apply weigh_nonempty. unfold vertices.
  destruct (cv_points c); [contradiction|]. discriminate.
Qed.

Lemma curve_New_ok (min max : T) k m d : cv_points (curve_New min max k m d) <> [].
Proof.
  unfold curve_New. cbn. apply weigh_nonempty. unfold vertices.
  destruct (Z.to_nat _) eqn:E; [|discriminate].
  exfalso. destruct (k <=? 0)%Z eqn:F; [discriminate|]. apply Z.leb_gt in F. lia.
Qed.

Lemma NextElevation_wf n t : nav_wf n -> exists n', NextElevation n t = Ret n' /\ nav_wf n'.
Proof.
  intros H. destruct (wf_elev _ H) as (e & He & Hc). unfold NextElevation. rewrite He. cbn.
  unfold sensor_Next. destruct (curve_Point_ok (s_gen e) t Hc) as (p & c' & -> & Hc').
  cbn. eexists. split; [reflexivity|]. constructor; [exact (wf_idx _ H)|exact (wf_rnd _ H)|].
  eexists. split; [reflexivity|]. exact Hc'.
Qed.

Lemma ShuffleElevation_wf n d : nav_wf n -> exists n', ShuffleElevation n d = Ret n' /\ nav_wf n'.
Proof.
  intros H. destruct (wf_elev _ H) as (e & He & Hc). unfold ShuffleElevation. rewrite He. cbn.
  eexists. split; [reflexivity|]. constructor; [exact (wf_idx _ H)|exact (wf_rnd _ H)|].
  eexists. split; [reflexivity|]. now apply curve_Shuffle_ok.
Qed.

Lemma step_wf n d draw b n' : nav_wf n -> step n d draw b n' -> nav_wf n'.
Proof.
  intros H St. inversion St; subst.
  - pose proof (passed_same n k) as (E1 & E2 & _ & _ & _ & _ & _ & _ & _ & E3 & E4 & _ & E5 & _).
    eapply wf_rest; [exact H| |exact E5|exact E4|exact E3].
    eapply idx_ok_ext; [exact E1|exact E2|apply H].
  - pose proof (off_pure_rest (leave n) draw) as (E1 & E2 & _ & _ & _ & _ & _ & _ & _ & E3 & E4 & _ & E5 & _).
    pose proof (leave_rest n) as (F1 & F2 & F3 & _).
    eapply wf_rest; [exact H| |congruence..].
    eapply idx_ok_ext; [exact E1|exact E2|]. apply leave_idx_ok, H.
  - pose proof (off_pure_rest (passed n (S k)) draw) as (E1 & E2 & _ & _ & _ & _ & _ & _ & _ & E3 & E4 & _ & E5 & _).
    pose proof (passed_same n (S k)) as (F1 & F2 & _ & _ & _ & _ & _ & _ & _ & F3 & F4 & _ & F5 & _).
    eapply wf_rest; [exact H| |congruence..].
    eapply idx_ok_ext; [|exact (eq_trans E2 F2)|apply H]. congruence.
Qed.

Lemma NextLocation_wf (Z0 : zero_eq_zero N) n tick speed draw : nav_wf n ->
  exists b n', NextLocation n tick speed draw = Ret (b, n') /\ nav_wf n'.
Proof.
  intros H. destruct (n_routes n) as [|r0 l0] eqn:E.
  - rewrite NextLocation_empty by assumption. eauto.
  - assert (Hne : n_routes n <> []) by congruence. destruct (offline_tick n) eqn:F.
    + rewrite NextLocation_offline by assumption. eexists _, _. split; [reflexivity|].
      wfr H. exact (wf_idx _ H).
    + destruct (NextLocation_step Z0 n tick speed draw Hne (wf_rnd _ H) (wf_idx _ H) F)
        as (b & n' & E1 & E2). exists b, n'. split; [exact E1|]. eapply step_wf; eauto.
Qed.

Lemma Query_wf n : nav_wf n -> run_nav n NQuery = Ret n.
Proof.
  intros H. cbn. pose proof (wf_idx _ H) as Hi.
  unfold CurrentBearing, RouteDistance, TrackDistance, SegmentDistance.
  rewrite CurrentRoute_pure, CurrentTrack_pure, CurrentSegment_pure by assumption. cbn.
  unfold nav_Snapshot. destruct (wf_elev _ H) as (e & -> & _). cbn.
  destruct (n_rnd n); reflexivity.
Qed.

(** DestinationTo with at most two routes *)
Lemma DestinationTo_cases n m :
  snd (DestinationTo n m) = n \/
  exists r ri rd ti si p a b c e,
    jump_routes (if m >? n_dist n then n_dist n else m) 0 (n_routes n) None 0 f0 = (Some r, ri, rd) /\
    snd (DestinationTo n m) = set_idx (set_cur (set_point n p) a b c e) ri ti si.
Proof.
  unfold DestinationTo. destruct (_ <? f1); [now left|].
  destruct (jump_routes _ _ _ _ _ _) as [[[r|] ri] rd]; [|now left].
  destruct (jump_tracks _ _ _ _ _ _ _) as [[[[t|] ti] crd] rd1]; [|now left].
  destruct (jump_segments _ _ _ _ _ _ _ _) as [[[[s si] rd2] crd2] ctd].
  destruct (segment_IsEmpty s); [now left|right].
  repeat eexists.
Qed.

Lemma DestinationTo_wf n m : nav_wf n -> (zlen (n_routes n) <= 2)%Z -> nav_wf (snd (DestinationTo n m)).
Proof.
  intros H Hl. destruct (DestinationTo_cases n m) as [->|(r & ri & rd & ti & si & p & a & b & c & e & E & ->)];
    [exact H|].
  wfr H. revert E. set (d := if m >? n_dist n then n_dist n else m).
  destruct (n_routes n) as [|r0 [|r1 [|r2 l]]] eqn:F; intros E.
  - discriminate E.
  - right. cbn. rewrite F. cbn in E. unfold zlen; cbn [List.length].
    destruct (flt d _); injection E; intros; subst; lia.
  - right. cbn. rewrite F. cbn in E. unfold zlen; cbn [List.length].
    destruct (flt d _); [|destruct (flt d _)]; injection E; intros; subst; lia.
  - rewrite !zlen_cons in Hl. pose proof (zlen_nonneg l). lia.
Qed.

Lemma run_nav_wf (Z0 : zero_eq_zero N) n o : nav_wf n ->
  match o with NDestinationTo _ => (zlen (n_routes n) <= 2)%Z | _ => True end ->
  exists n', run_nav n o = Ret n' /\ nav_wf n'.
Proof.
  intros H Hd. destruct o; cbn [run_nav];
    try (eexists; split; [reflexivity|]);
    eauto using AddRoute_wf, ResetRoutes_wf, RemoveRoute_wf, RemoveTrack_wf, Reset_wf,
      mutateRoute_wf, NextRoute_wf, PrevRoute_wf, MoveToRouteByID_wf, MoveToTrackByID_wf,
      MoveToSegment_wf, DestinationTo_wf, ToOffline_wf, NextElevation_wf, ShuffleElevation_wf, IsFinish_wf.
  - destruct (NextLocation_wf Z0 n tick speed draw H) as (b & n' & -> & H'). cbn. eauto.
  - exists n. split; [now apply Query_wf|exact H].
Qed.

Lemma run_navs_wf (Z0 : zero_eq_zero N) ops : forall n, nav_wf n ->
  jumps_on_at_most_two_routes n ops -> exists n', run_navs n ops = Ret n' /\ nav_wf n'.
Proof.
  induction ops as [|o ops IH]; intros n H Hj; cbn.
  - eauto.
  - destruct Hj as [Hd Hj]. destruct (run_nav_wf Z0 n o H Hd) as (n1 & E & H1). rewrite E in *. cbn.
    apply IH; auto.
Qed.

Lemma New_wf opts uuid draws n : navigator_New opts uuid draws = GOk n -> nav_wf n.
Proof.
  unfold navigator_New. set (o := fold_left _ _ _).
  destruct (validateOffline _ _) as [[mino maxo]|]; [|discriminate].
  destruct (validateElevation _ _) as [[mine maxe]|]; [|discriminate].
  destruct (NewSensor _ _ _ _ _ _ _) as [s|] eqn:E; [|discriminate].
  intros [= <-]. constructor.
  - now left.
  - intros Hs. cbn in *. rewrite Hs. eauto.
  - exists s. split; [reflexivity|]. revert E. unfold NewSensor.
    destruct (validateAmplitude _); [discriminate|]. destruct (_ =? _)%Z; [discriminate|].
    intros [= <-]. cbn. apply curve_New_ok.
Qed.

End L.
