(** C25, C27: reachable navigators. *)
From Coq Require Import Reals Lra Lia.
From Flocq Require Import Core.Raux.
From Verif.Model Require Import Base Num NumR Geo Curve PropMap Types TypesSnap Track Route Navigator.
From Verif.Spec Require Import ListSpec TrackSpec RouteSpec NavSpec NumLaws SphereSpec RealSpec.
From Verif.Proofs Require Import BaseLemmas TrackLemmas RouteLemmas TrackRouteProofs NavLemmas NavSteps
  NavProofs NavProofs2 GeoLemmas GeoProofs NavReal NavReal2 NavReal3.
Open Scope R_scope.

Section S.
Context {J : JsonLib R}.

(** ** positions are never negative *)

Definition nonneg_pos (n : navigator R) : Prop := (0 <= n_ri n /\ 0 <= n_ti n /\ 0 <= n_si n)%Z.

Lemma jump_routes_nonneg d l : forall i cur ri rd x ri' rd', (0 <= i)%Z -> (0 <= ri)%Z ->
  jump_routes d i l cur ri rd = (x, ri', rd') -> (0 <= ri')%Z.
Proof.
  induction l as [|r l IH]; intros i cur ri rd x ri' rd' Hi Hr E; cbn [jump_routes] in E.
  - injection E as _ <- _. exact Hr.
  - destruct (_ >? _)%num; [injection E as _ <- _; lia|]. eapply IH in E; [exact E|lia|lia].
Qed.
Lemma jump_tracks_nonneg d l : forall i cur ti crd rd x ti' crd' rd', (0 <= i)%Z -> (0 <= ti)%Z ->
  jump_tracks d i l cur ti crd rd = (x, ti', crd', rd') -> (0 <= ti')%Z.
Proof.
  induction l as [|r l IH]; intros i cur ti crd rd x ti' crd' rd' Hi Hr E; cbn [jump_tracks] in E.
  - injection E as _ <- _ _. exact Hr.
  - destruct (_ >? _)%num; [injection E as _ <- _ _; lia|]. eapply IH in E; [exact E|lia|lia].
Qed.
Lemma jump_segments_nonneg d l : forall i cur si rd crd ctd x si' rd' crd' ctd', (0 <= i)%Z -> (0 <= si)%Z ->
  jump_segments d i l cur si rd crd ctd = (x, si', rd', crd', ctd') -> (0 <= si')%Z.
Proof.
  induction l as [|r l IH]; intros i cur si rd crd ctd x si' rd' crd' ctd' Hi Hr E; cbn [jump_segments] in E.
  - injection E as _ <- _ _ _. exact Hr.
  - destruct (segment_IsEmpty r); [eapply IH in E; [exact E|lia|lia]|].
    destruct (_ >? _)%num; [injection E as _ <- _ _ _; lia|]. eapply IH in E; [exact E|lia|lia].
Qed.

Lemma DestinationTo_nonneg n m : nonneg_pos n -> nonneg_pos (snd (DestinationTo n m)).
Proof.
  intros H. unfold DestinationTo. destruct (_ <? f1)%num; [exact H|].
  destruct (jump_routes _ _ _ _ _ _) as [[[r|] ri] rd] eqn:E1; [|exact H].
  destruct (jump_tracks _ _ _ _ _ _ _) as [[[[t|] ti] crd] rd1] eqn:E2; [|exact H].
  destruct (jump_segments _ _ _ _ _ _ _ _) as [[[[s si] rd2] crd2] ctd] eqn:E3.
  destruct (segment_IsEmpty s); [exact H|].
  apply jump_routes_nonneg in E1; [|lia..]. apply jump_tracks_nonneg in E2; [|lia..].
  apply jump_segments_nonneg in E3; [|lia..]. cbn. unfold nonneg_pos. cbn. auto.
Qed.

Lemma MoveToSegment_nonneg n r t i : nonneg_pos n -> nonneg_pos (snd (MoveToSegment n r t i)).
Proof.
  intros H. destruct (MoveToSegment_spec n r t i) as [(s & (rt & tk & A & B & C) & _ & ->)|(_ & ->)]; [|exact H].
  apply zget_at_pos, zget_Some_range in A, B, C. unfold nonneg_pos. cbn. lia.
Qed.

Lemma rewound_nonneg (n : navigator R) : rewound n -> nonneg_pos n.
Proof. intros ([= E1 E2 E3] & _). unfold nonneg_pos. lia. Qed.

(** the calls that either change nothing or rewind *)
Lemma rewinding n o n' : match o with NAddRoute _ | NResetRoutes | NRemoveRoute _ | NReset => True | _ => False end ->
  run_nav n o = Ret n' -> n' = n \/ rewound n'.
Proof.
  intros K H. destruct o; try contradiction; cbn in H; injection H as <-.
  - destruct (C17_proof n rs) as [P1 P2]. destruct rs as [|x rs]; [now left|].
    destruct P2 as (n' & E & _ & E2 & E3); [discriminate|]. rewrite E. cbn [snd]. cbn zeta in *.
    destruct (fresh_routes (map rt_id (n_routes n)) (x :: rs)); [left; now apply E2|right].
    destruct E3 as (E3 & _); [discriminate|]. exact E3.
  - unfold nav_ResetRoutes. destruct (n_routes n); [now left|right]. repeat split.
  - destruct (C18_proof n id) as [(r & rest & _ & _ & _ & _ & n' & E & _ & E3 & _)|(_ & E & _)]; rewrite E;
      [right; exact E3|now left].
  - right. repeat split.
Qed.

(** calls that keep the position, the progress and the lengths *)
Definition same_progress (n n' : navigator R) : Prop :=
  position n' = position n /\ n_csd n' = n_csd n /\ n_ctd n' = n_ctd n /\ n_crd n' = n_crd n /\ n_cd n' = n_cd n.

Lemma idle n o n' : match o with NRouteOp _ _ | NToOffline _ | NNextElevation _ | NShuffleElevation _ | NQuery => True
                    | _ => False end -> run_nav n o = Ret n' -> same_progress n n'.
Proof.
  intros K H. destruct o; try contradiction; cbn [run_nav] in H.
  - injection H as <-. unfold nav_mutateRoute. destruct (nth_error _ i); repeat split.
  - unfold ToOffline in H. destruct (n_skip n); [injection H as <-; repeat split|].
    destruct (n_rnd n); [|discriminate]. injection H as <-. repeat split.
  - unfold NextElevation in H. destruct (n_elev n); [cbn [deref bind] in H|discriminate].
    destruct (sensor_Next _ _); [|discriminate..]. injection H as <-. repeat split.
  - unfold ShuffleElevation in H. destruct (n_elev n); [|discriminate]. injection H as <-. repeat split.
  - repeat (match type of H with bind ?m _ = _ => destruct m; cbn [bind] in H; try discriminate end).
    injection H as <-. repeat split.
Qed.

Lemma nonneg_step n o n' : keeps_tracks o -> nonneg_pos n -> run_nav n o = Ret n' -> nonneg_pos n'.
Proof.
  intros K H E.
  assert (R : n' = n \/ rewound n' -> nonneg_pos n').
  { intros [->|?]; [exact H|now apply rewound_nonneg]. }
  assert (S : same_progress n n' -> nonneg_pos n').
  { intros ([= E1 E2 E3] & _). unfold nonneg_pos. rewrite E1, E2, E3. exact H. }
  destruct o; try contradiction;
    try (apply R; eapply rewinding; [|exact E]; exact I);
    try (apply S; eapply idle; [|exact E]; exact I);
    cbn [run_nav] in E.
  - injection E as <-. unfold NextRoute. destruct (_ <? _)%Z; [now apply MoveToSegment_nonneg|exact H].
  - injection E as <-. unfold PrevRoute. destruct (_ <? _)%Z; [now apply MoveToSegment_nonneg|exact H].
  - injection E as <-. unfold MoveToRouteByID. destruct (_ =? _)%Z; [exact H|now apply MoveToSegment_nonneg].
  - injection E as <-. unfold MoveToTrackByID. destruct (_ =? _)%Z; [exact H|]. destruct (zget _ _); [|exact H].
    destruct (_ =? _)%Z; [exact H|now apply MoveToSegment_nonneg].
  - injection E as <-. now apply MoveToSegment_nonneg.
  - injection E as <-. now apply MoveToSegment_nonneg.
  - injection E as <-. now apply MoveToSegment_nonneg.
  - injection E as <-. now apply DestinationTo_nonneg.
  - destruct (NextLocation n tick speed draw) as [[b m]| |] eqn:F; cbn in E; try discriminate. injection E as <-.
    destruct (C26_proof zero_eq_zero_R _ _ _ _ _ _ F) as (_ & P). destruct H as (A & B & C).
    assert (Q : position m = position n \/ moves_forward n (position m) \/ leaves_track n (position m)) by tauto.
    unfold nonneg_pos. clear P F R S. unfold position in Q. destruct Q as [[= -> -> ->]|[(i & s & [= -> -> ->] & L & _)|Q]].
    + auto.
    + lia.
    + inversion Q; subst; lia.
  - injection E as <-. unfold IsFinish. destruct (_ && _)%bool; exact H.
Qed.

(** ** reachable navigators are ready for C27 *)

Lemma reach_ready opts uuid draws n0 ops n :
  navigator_New opts uuid draws = GOk n0 ->
  Forall measured_op ops -> Forall forward_op ops -> jumps_two_by_two n0 ops ->
  run_navs n0 ops = Ret n -> n_routes n <> [] -> ready n /\ measured n.
Proof.
  intros H0 Ho Hf Hj H Hne.
  assert (I : inv24 n /\ nonneg_pos n).
  { assert (I0 : inv24 n0 /\ nonneg_pos n0).
    { pose proof (measured_start _ _ _ _ H0) as Hm.
      pose proof (New_start _ _ _ _ H0) as (_ & Hrw & _). split; [|now apply rewound_nonneg].
      split; [eapply New_wf; exact H0|]. split; [exact Hm|].
      apply zero_csd; [exact Hm|]. apply Hrw. }
    clear H0 Hne. revert n0 I0 Hj H. induction Ho as [|o ops Ho Hos IH]; intros n0 [I0 I1] Hj H; cbn in H, Hj.
    - injection H as <-. auto.
    - destruct (run_nav n0 o) as [n1| |] eqn:E; try discriminate. cbn in H.
      pose proof (Forall_inv Hf) as Hf1. apply Forall_inv_tail in Hf. destruct Hj as [Hj1 Hj2].
      apply (IH Hf n1); [|exact Hj2|exact H]. split; [eapply inv24_step; eassumption|].
      eapply nonneg_step; [apply Ho|exact I1|exact E]. }
  destruct I as [(Hw & Hm & Hc) (P1 & P2 & P3)].
  split; [|exact Hm]. split; [exact Hw|]. split; [|split; [apply Hc|exact Hne]].
  split; [apply Hm|]. split; [apply Hc|]. auto.
Qed.

(** ** offline periods *)

Lemma Uint32n_range draw m : uint32 draw -> (0 <= m <= 3600)%Z -> (0 <= Uint32n draw m <= m)%Z.
Proof.
  unfold uint32, Uint32n. intros Hd Hm.
  assert (A : (0 <= draw * m / 2 ^ 32 <= m)%Z).
  { split; [apply Z.div_pos; nia|]. apply Z.div_le_upper_bound; [lia|]. nia. }
  rewrite Z.mod_small; [exact A|]. lia.
Qed.

Lemma New_random opts uuid draws (n : navigator R) : navigator_New opts uuid draws = GOk n ->
  n_off n = 0%Z /\ forall r, n_rnd n = Some r -> (0 <= r_min r <= r_max r /\ r_max r <= 3600)%Z.
Proof.
  unfold navigator_New. intros H.
  set (o := fold_left apply_option opts defaultNavOptions) in *.
  destruct (validateOffline (o_minOff o) (o_maxOff o)) as [[mino maxo]|] eqn:E1; [|discriminate].
  destruct (validateElevation _ _) as [[mine maxe]|]; [|discriminate].
  destruct (NewSensor _ _ _ _ _ _ _); [|discriminate].
  injection H as <-. cbn. split; [reflexivity|]. intros r Hr. destruct (o_skip o); [discriminate|].
  injection Hr as <-. unfold validateOffline in E1.
  destruct (Z.ltb_spec (o_minOff o) 0); [discriminate|].
  destruct (Z.ltb_spec 3600 (o_maxOff o)); [discriminate|].
  assert (G : (mino <= maxo /\ maxo <= 3600)%Z).
  { destruct (Z.ltb_spec (o_maxOff o) (o_minOff o)) as [G1|G1].
    - destruct (Z.ltb_spec (o_maxOff o) (o_maxOff o - 1)); [lia|].
      destruct (_ && _)%bool; injection E1 as <- <-; lia.
    - destruct (Z.ltb_spec (o_maxOff o) (o_minOff o)); [lia|].
      destruct (_ && _)%bool; injection E1 as <- <-; lia. }
  unfold NewRandom. destruct (Z.ltb_spec mino 0) as [A|A], (Z.ltb_spec maxo 0) as [B|B];
    match goal with |- context [((?x =? 0) && (?y =? 0))%Z] => destruct (Z.eqb_spec x 0), (Z.eqb_spec y 0) end;
    cbn; lia.
Qed.

Lemma offline_step M n o n' : uint32_op o -> (0 <= M)%Z -> offline_at_most M n -> run_nav n o = Ret n' ->
  offline_at_most M n'.
Proof.
  intros Hu HM [H1 H2] H.
  assert (Hm : forall r t i, n_off (snd (MoveToSegment n r t i)) = n_off n \/ n_off (snd (MoveToSegment n r t i)) = 0%Z).
  { intros r t i. destruct (MoveToSegment_spec n r t i) as [(s & _ & _ & ->)|(_ & ->)]; [now right|now left]. }
  assert (Ernd : n_rnd n' = n_rnd n).
  { assert (Q : travels o \/ ~ travels o) by (destruct o; cbn; tauto). destruct Q as [Q|Q].
    - exact (run_nav_stable n_rnd stable_rnd n o n' Q H).
    - destruct o; cbn [travels] in Q; try tauto; cbn in H; injection H as <-.
      + unfold nav_AddRoute. destruct rs; [reflexivity|]. destruct (add_routes _ _ _) as [? []]; reflexivity.
      + unfold nav_ResetRoutes. destruct (n_routes n); reflexivity.
      + unfold nav_RemoveRoute. repeat (match goal with |- context [match ?b with _ => _ end] => destruct b end; try reflexivity).
      + unfold nav_RemoveTrack. repeat (match goal with |- context [match ?b with _ => _ end] => destruct b end; try reflexivity).
      + reflexivity.
      + unfold nav_mutateRoute. destruct (nth_error _ i); reflexivity. }
  assert (Eoff : n_off n' = n_off n \/ n_off n' = 0%Z \/ n_off n' = (n_off n - 1)%Z \/
                 exists r draw, uint32 draw /\ n_rnd n = Some r /\ n_off n' = random_Value r draw).
  { destruct o; cbn [run_nav] in H; try (injection H as <-).
    - left. unfold nav_AddRoute. destruct rs; [reflexivity|]. destruct (add_routes _ _ _) as [? []]; reflexivity.
    - left. unfold nav_ResetRoutes. destruct (n_routes n); reflexivity.
    - left. unfold nav_RemoveRoute. repeat (match goal with |- context [match ?b with _ => _ end] => destruct b end; try reflexivity).
    - left. unfold nav_RemoveTrack. repeat (match goal with |- context [match ?b with _ => _ end] => destruct b end; try reflexivity).
    - left. reflexivity.
    - left. unfold nav_mutateRoute. destruct (nth_error _ i); reflexivity.
    - unfold NextRoute. destruct (_ <? _)%Z; [|now left]. destruct (Hm (n_ri n + 1) 0 0)%Z; tauto.
    - unfold PrevRoute. destruct (_ <? _)%Z; [|now left]. match goal with |- context [MoveToRoute n ?x] => destruct (Hm x 0 0)%Z; tauto end.
    - unfold MoveToRouteByID. destruct (_ =? _)%Z; [now left|]. match goal with |- context [MoveToRoute n ?x] => destruct (Hm x 0 0)%Z; tauto end.
    - unfold MoveToTrackByID. destruct (_ =? _)%Z; [now left|]. destruct (zget _ _); [|now left].
      destruct (_ =? _)%Z; [now left|]. match goal with |- context [MoveToTrack n ?x ?y] => destruct (Hm x y 0)%Z; tauto end.
    - destruct (Hm r 0 0)%Z; tauto.
    - destruct (Hm r t 0)%Z; tauto.
    - destruct (Hm r t s)%Z; tauto.
    - left. destruct (DestinationTo_cases n meters) as [->|(r & ri & rd & ti & si & p & a & b & c & e & E & ->)]; reflexivity.
    - unfold ToOffline in H. destruct (n_skip n); [injection H as <-; now left|].
      destruct (n_rnd n) as [r|] eqn:F; [|discriminate]. injection H as <-. right. right. right. exists r, draw. auto.
    - left. unfold NextElevation in H. destruct (n_elev n); [cbn [deref bind] in H|discriminate].
      destruct (sensor_Next _ _); [|discriminate..]. injection H as <-. reflexivity.
    - left. unfold ShuffleElevation in H. destruct (n_elev n); [|discriminate]. injection H as <-. reflexivity.
    - destruct (NextLocation n tick speed draw) as [[b m]| |] eqn:F; cbn in H; try discriminate. injection H as <-.
      destruct (NextLocation_inv zero_eq_zero_R _ _ _ _ _ _ F) as [(_ & _ & ->)|[(_ & _ & _ & ->)|(_ & _ & _ & St)]];
        [now left|right; right; now left|].
      destruct (step_off _ _ _ _ _ St) as (_ & _ & [G|(r & Er & G)]); [now left|].
      right. right. right. exists r, draw. auto.
    - left. unfold IsFinish. destruct (_ && _)%bool; reflexivity.
    - left. repeat (match type of H with bind ?m _ = _ => destruct m; cbn [bind] in H; try discriminate end).
      injection H as <-. reflexivity. }
  split; [|rewrite Ernd; exact H2].
  destruct Eoff as [->|[->|[->|(r & draw & Hd & Er & ->)]]]; try lia. now apply (H2 r draw).
Qed.

Lemma C27_offline_proof opts uuid draws n0 ops n :
  navigator_New opts uuid draws = GOk n0 -> Forall uint32_op ops -> run_navs n0 ops = Ret n ->
  offline_at_most 3600 n.
Proof.
  intros H0 Hu H.
  assert (I0 : offline_at_most 3600 n0).
  { destruct (New_random _ _ _ _ H0) as [E1 E2]. split; [lia|]. intros r draw Hr Hd. specialize (E2 r Hr).
    unfold random_Value. rewrite Z.mod_small by lia.
    pose proof (Uint32n_range draw (r_max r - r_min r) Hd ltac:(lia)). lia. }
  clear H0. revert n0 I0 H. induction Hu as [|o ops Ho Hos IH]; intros n0 I0 H; cbn in H.
  - now injection H as <-.
  - destruct (run_nav n0 o) as [n1| |] eqn:E; try discriminate. cbn in H.
    apply (IH n1); [|exact H]. eapply offline_step; try eassumption. lia.
Qed.

(** ** C25 *)

(** every counter is within what lies behind, up to [w] for the total *)
Definition inv25 (w : R) (n : navigator R) : Prop :=
  0 <= n_csd n /\ 0 <= n_crd n /\
  n_ctd n <= before sg_dist (cur_segs n) (n_si n) + n_csd n /\
  n_crd n <= before tk_dist (cur_tracks n) (n_ti n) + n_ctd n /\
  n_cd n <= before rt_dist (n_routes n) (n_ri n) + n_crd n + w.

Lemma ws0 s : ws 0 s = sg_dist s. Proof. unfold ws. lra. Qed.
Lemma wt0 t : measured_track t -> wt 0 t = tk_dist t.
Proof. intros [-> _]. unfold wt. rewrite rsum_ws. lra. Qed.
Lemma wr0 r : measured_route r -> wr 0 r = rt_dist r.
Proof. intros [-> H]. unfold wr. rewrite rsum_wt by exact H. lra. Qed.

Lemma at_s0 n : at_s 0 n = before sg_dist (cur_segs n) (n_si n) + n_csd n.
Proof. unfold at_s. f_equal. apply before_ext. apply Forall_forall. intros s _. apply ws0. Qed.
Lemma cur_tracks_measured n : Forall measured_route (n_routes n) -> Forall measured_track (cur_tracks n).
Proof.
  intros H. unfold cur_tracks. destruct (cur_route n) as [r|] eqn:E; [|constructor].
  apply (cur_route_measured n r H E).
Qed.
Lemma at_t0 n : Forall measured_route (n_routes n) -> at_t 0 n = before tk_dist (cur_tracks n) (n_ti n).
Proof. intros H. apply before_ext. eapply Forall_impl; [apply wt0|now apply cur_tracks_measured]. Qed.

Definition track_len (n : navigator R) : R := match cur_track n with Some t => tk_dist t | None => 0 end.
Definition route_len (n : navigator R) : R := match cur_route n with Some r => rt_dist r | None => 0 end.

Lemma track_len_segs n : Forall measured_route (n_routes n) -> track_len n = rsum (map (ws 0) (cur_segs n)).
Proof.
  intros H. unfold track_len, cur_segs. destruct (cur_track n) as [t|] eqn:E; [|reflexivity].
  destruct (cur_track_measured n t H E) as [-> _]. rewrite rsum_ws. lra.
Qed.
Lemma route_len_tracks n : Forall measured_route (n_routes n) -> route_len n = rsum (map tk_dist (cur_tracks n)).
Proof.
  intros H. unfold route_len, cur_tracks. destruct (cur_route n) as [t|] eqn:E; [|reflexivity].
  apply (cur_route_measured n t H E).
Qed.

Lemma inv25_bounds w n : placed n -> inv25 w n ->
  n_ctd n <= track_len n /\ n_crd n <= route_len n /\ n_cd n <= rsum (map rt_dist (n_routes n)) + w.
Proof.
  intros (Hm & Hc & _) (P1 & P2 & A & B & C).
  assert (E1 : n_ctd n <= track_len n).
  { rewrite track_len_segs by exact Hm. rewrite <- at_s0 in A.
    pose proof (at_s_le 0 n (Rle_refl 0) Hm Hc). lra. }
  assert (E2 : n_crd n <= route_len n).
  { rewrite route_len_tracks by exact Hm.
    pose proof (at_t_le 0 n (Rle_refl 0) Hm) as T. rewrite at_t0, <- track_len_segs in T by exact Hm.
    rewrite (rsum_ext (wt 0) tk_dist) in T; [lra|].
    eapply Forall_impl; [apply wt0|now apply cur_tracks_measured]. }
  split; [exact E1|]. split; [exact E2|].
  assert (Hn : Forall (fun r => 0 <= rt_dist r) (n_routes n)).
  { eapply Forall_impl; [apply measured_route_nonneg|exact Hm]. }
  unfold route_len in E2. destruct (cur_route n) as [r|] eqn:E.
  - pose proof (before_at rt_dist _ _ _ Hn E). lra.
  - pose proof (before_total rt_dist (n_routes n) (n_ri n) Hn). lra.
Qed.

Lemma step_inv25 w n d draw b n' : 0 <= d -> idx_ok n -> n_routes n <> [] -> placed n -> inv25 w n ->
  step n d draw b n' ->
  inv25 w n' \/
  (position n' = (0, 0, 0)%Z /\ n_csd n' = 0 /\ n_ctd n' = 0 /\ n_crd n' = 0 /\ n_cd n' = fdec 1 10).
Proof.
  intros Hd Hi Hne Hp I H. pose proof Hp as (Hm & Hc & Hs & Ht & Hr).
  pose proof (inv25_bounds w n Hp I) as (L1 & L2 & L3). destruct I as (P1 & P2 & A & B & C).
  destruct H as [k Hk Hf|k Hk Hf Hl|k Hk Hf Hl Hemp Hrel].
  - left. destruct (passed_at_s 0 n k (Rle_refl 0) Hm Hc Hs) as [G _]; [intros j Hj; apply (Hk j Hj)|].
    rewrite !at_s0 in G. destruct (passed_same n k) as (E1 & E2 & E3 & E4 & E5 & E6 & E7 & _).
    assert (Hcsd : 0 <= n_csd (passed n k)) by (rewrite passed_csd; destruct k; [lra|]; change (f0 (T := R)) with 0; lra).
    unfold inv25. change (cur_segs (advance (passed n k) d)) with (cur_segs (passed n k)).
    change (cur_tracks (advance (passed n k) d)) with (cur_tracks (passed n k)).
    change (n_si (advance (passed n k) d)) with (n_si (passed n k)).
    change (n_ti (advance (passed n k) d)) with (n_ti (passed n k)).
    change (n_ri (advance (passed n k) d)) with (n_ri (passed n k)).
    change (n_routes (advance (passed n k) d)) with (n_routes (passed n k)).
    change (n_csd (advance (passed n k) d)) with (n_csd (passed n k) + d).
    change (n_crd (advance (passed n k) d)) with (n_crd (passed n k) + d).
    change (n_ctd (advance (passed n k) d)) with (n_ctd (passed n k) + d).
    change (n_cd (advance (passed n k) d)) with (n_cd (passed n k) + d).
    assert (Et : cur_tracks (passed n k) = cur_tracks n) by (unfold cur_tracks, cur_route; now rewrite E1, E2).
    rewrite Et, E1, E2, E3, E5, E6, E7.
    repeat split; try lra. destruct k; lra.
  - destruct (leave_cases n Hi Hne Hp) as [(r & t & Er & Et & E)|[(r & Er & E)|E]]; rewrite E.
    + left. set (m := set_idx _ _ _ _). destruct (off_pure_rest m draw) as (E1 & E2 & E3 & E4 & E5 & E6 & E7 & E8 & _).
      assert (Er' : cur_route (off_pure m draw) = Some r) by (unfold cur_route; rewrite E1, E2; exact Er).
      assert (El : track_len n = tk_dist t).
      { unfold track_len. destruct (cur_track n) as [t'|] eqn:F.
        - apply cur_track_zget in F as (r' & F1 & F2). congruence.
        - exfalso. apply (cur_track_None n r Er F). now apply zget_Some_range in Et. }
      unfold inv25. rewrite E1, E2, E3, E4, E5, E6, E7, E8. unfold cur_tracks in *. rewrite Er', Er in *. cbn.
      rewrite (before_step tk_dist _ _ _ Et), before_0. repeat split; lra.
    + left. set (m := set_idx _ _ _ _). destruct (off_pure_rest m draw) as (E1 & E2 & E3 & E4 & E5 & E6 & E7 & E8 & _).
      unfold inv25. rewrite E1, E2, E3, E4, E5, E6, E7, E8. cbn.
      unfold route_len in L2. rewrite Er in L2.
      rewrite (before_step rt_dist _ _ _ Er), !before_0. repeat split; lra.
    + right. destruct (completes_leave n draw _ eq_refl) as (Q1 & Q2 & Q3 & Q4 & Q5 & _). auto.
  - left. destruct (passed_at_s 0 n (S k) (Rle_refl 0) Hm Hc Hs) as [G _].
    { intros j Hj. destruct (Nat.eq_dec j k) as [->|]; [exact Hemp|]. apply (Hk j). lia. }
    rewrite !at_s0 in G. destruct (passed_same n (S k)) as (F1 & F2 & F3 & F4 & F5 & F6 & F7 & _).
    assert (Hcsd : n_csd (passed n (S k)) = 0) by reflexivity.
    assert (Et : cur_tracks (passed n (S k)) = cur_tracks n) by (unfold cur_tracks, cur_route; now rewrite F1, F2).
    assert (I : inv25 w (passed n (S k))).
    { unfold inv25. rewrite Et, F1, F2, F3, F5, F6, F7. repeat split; lra. }
    unfold off_pure. destruct (n_skip _); [exact I|]. destruct (n_rnd _); exact I.
Qed.

(** ** C25 over histories *)

Lemma before_map {A B} (f : A -> R) (g : B -> R) l k i : map f l = map g k -> before f l i = before g k i.
Proof. intros H. unfold before. now rewrite <- !firstn_map, H. Qed.

Definition shape (r : route R) := (rt_dist r, map tk_dist (rt_tracks r), map tk_segments (rt_tracks r)).

Lemma run_route_shape r o :
  match o with RAddTrack _ | RRemoveTrack _ => False | _ => True end -> shape (run_route r o) = shape r.
Proof.
  intros K. unfold shape. rewrite run_route_segments by exact K. rewrite run_route_dist by (destruct o; auto).
  cut (map tk_dist (rt_tracks (run_route r o)) = map tk_dist (rt_tracks r)); [congruence|].
  destruct o; cbn [run_route]; try contradiction.
  - unfold TrackByID. destruct (_ || _)%bool; [reflexivity|]. destruct (find _ _); reflexivity.
  - unfold route_ChangeName. destruct (ParseName name); reflexivity.
  - unfold route_ChangeColor. destruct hex; reflexivity.
  - unfold route_Props. destruct (rt_props r); reflexivity.
  - unfold upd_track. destruct (nth_error _ i) as [t|] eqn:E; [|reflexivity]. cbn.
    eapply map_set_nth_same; [exact E|]. unfold track_ChangeName. destruct (ParseName name); reflexivity.
  - unfold upd_track. destruct (nth_error _ i) as [t|] eqn:E; [|reflexivity]. cbn.
    eapply map_set_nth_same; [exact E|]. unfold track_ChangeColor. destruct parsed; reflexivity.
  - unfold upd_track. destruct (nth_error _ i) as [t|] eqn:E; [|reflexivity]. cbn.
    eapply map_set_nth_same; [exact E|]. unfold track_Props. destruct (tk_props t); reflexivity.
Qed.

Lemma cur_shape (n n' : navigator R) : map shape (n_routes n') = map shape (n_routes n) -> n_ri n' = n_ri n ->
  n_ti n' = n_ti n ->
  map rt_dist (n_routes n') = map rt_dist (n_routes n) /\
  map tk_dist (cur_tracks n') = map tk_dist (cur_tracks n) /\ cur_segs n' = cur_segs n.
Proof.
  intros H E1 E2. split.
  { transitivity (map (fun x => fst (fst x)) (map shape (n_routes n'))); [now rewrite map_map|].
    rewrite H, map_map. reflexivity. }
  assert (Er : option_map shape (cur_route n') = option_map shape (cur_route n)).
  { unfold cur_route. rewrite <- !zget_map, H, E1. reflexivity. }
  unfold cur_tracks, cur_segs, cur_track.
  destruct (cur_route n') as [r'|], (cur_route n) as [r|]; try discriminate; [|split; reflexivity].
  injection Er as Ed Et Es. split; [exact Et|]. rewrite E2.
  assert (Ez : option_map tk_segments (zget (rt_tracks r') (n_ti n)) = option_map tk_segments (zget (rt_tracks r) (n_ti n)))
    by (rewrite <- !zget_map, Es; reflexivity).
  assert (TA : forall r : route R, TrackAt r (n_ti n) = zget (rt_tracks r) (n_ti n)).
  { intros x. destruct (zget (rt_tracks x) (n_ti n)) as [t|] eqn:E.
    - now apply TrackAt_Some, zget_at_pos.
    - destruct (TrackAt x (n_ti n)) as [t|] eqn:F; [|reflexivity]. apply TrackAt_Some, zget_at_pos in F. congruence. }
  rewrite !TA. destruct (zget (rt_tracks r') (n_ti n)), (zget (rt_tracks r) (n_ti n)); try discriminate; [|reflexivity].
  now injection Ez.
Qed.

Lemma idle_shape n o n' : match o with NRouteOp _ _ | NToOffline _ | NNextElevation _ | NShuffleElevation _ | NQuery => True
                    | _ => False end -> keeps_tracks o -> run_nav n o = Ret n' -> map shape (n_routes n') = map shape (n_routes n).
Proof.
  intros K Kt H.
  assert (Q : travels o \/ exists i ro, o = NRouteOp i ro) by (destruct o; cbn; try tauto; right; eauto).
  destruct Q as [Q|(i & ro & ->)].
  - now rewrite (run_nav_stable n_routes stable_routes n o n' Q H).
  - cbn in H. injection H as <-. unfold nav_mutateRoute. destruct (nth_error (n_routes n) i) as [r|] eqn:E; [|reflexivity].
    cbn. eapply map_set_nth_same; [exact E|]. apply run_route_shape. destruct ro; try exact I; contradiction.
Qed.

Lemma inv25_same w n n' : map shape (n_routes n') = map shape (n_routes n) -> same_progress n n' ->
  inv25 w n -> inv25 w n'.
Proof.
  intros H ([= E1 E2 E3] & E4 & E5 & E6 & E7) (P1 & P2 & A & B & C).
  destruct (cur_shape n n' H E1 E2) as (F1 & F2 & F3).
  unfold inv25. rewrite E1, E2, E3, E4, E5, E6, E7, F3.
  rewrite (before_map tk_dist tk_dist _ _ _ F2), (before_map rt_dist rt_dist _ _ _ F1). auto.
Qed.

Lemma inv25_rewound w (n : navigator R) : 0 <= w -> rewound n -> inv25 w n.
Proof.
  intros Hw ([= E1 E2 E3] & E4 & E5 & E6 & E7). unfold inv25. rewrite E1, E2, E3, E4, E5, E6, E7, !before_0.
  change (f0 (T := R)) with 0. repeat split; lra.
Qed.

Lemma inv25_start w (n : navigator R) : position n = (0, 0, 0)%Z -> n_csd n = 0 -> n_ctd n = 0 -> n_crd n = 0 ->
  n_cd n <= w -> inv25 w n.
Proof.
  intros [= E1 E2 E3] E4 E5 E6 E7. unfold inv25. rewrite E1, E2, E3, E4, E5, E6, !before_0. repeat split; lra.
Qed.

Lemma NextLocation_inv25 w n tick speed draw b n' : nav_wf n -> placed n -> 0 <= tick * speed -> inv25 w n ->
  NextLocation n tick speed draw = Ret (b, n') ->
  inv25 w n' \/
  (position n' = (0, 0, 0)%Z /\ n_csd n' = 0 /\ n_ctd n' = 0 /\ n_crd n' = 0 /\ n_cd n' = fdec 1 10).
Proof.
  intros Hw Hp Hd I F.
  destruct (NextLocation_inv zero_eq_zero_R _ _ _ _ _ _ F) as [(_ & _ & ->)|[(_ & _ & _ & ->)|(Hne & _ & Hi & St)]];
    [now left|left; exact I|]. eapply step_inv25; eassumption.
Qed.

Lemma IsFinish_inv25 w n : 0 <= w -> inv25 w n -> inv25 w (snd (IsFinish n)).
Proof.
  intros Hw I. unfold IsFinish. destruct ((n_ri n =? 0) && (n_ti n =? 0) && (n_si n =? 0))%Z eqn:E; cbn [andb]; [|exact I].
  destruct (_ =? _)%num; [|exact I]. cbn [snd].
  rewrite !Bool.andb_true_iff, !Z.eqb_eq in E. destruct E as [[E1 E2] E3].
  destruct I as (P1 & P2 & A & B & C). unfold inv25. cbn. repeat split; auto.
  change (0 <= before rt_dist (n_routes n) (n_ri n) + n_crd n + w). rewrite E1, before_0. lra.
Qed.

Lemma tenth : fdec 1 10 = 1 / 10 :> R.
Proof. cbn. lra. Qed.

Lemma inv25_step n o n' : measured_op o -> forward_op o -> riding_op o -> nav_wf n -> placed n ->
  inv25 (1 / 10) n -> run_nav n o = Ret n' -> inv25 (1 / 10) n'.
Proof.
  intros Ho Hf Hr Hw Hp I H.
  destruct o; try contradiction;
    try (match goal with |- inv25 _ ?n' => assert (R : n' = n \/ rewound n') by (eapply rewinding; [|exact H]; exact Logic.I) end;
         destruct R as [->|R]; [exact I|apply inv25_rewound; [lra|exact R]]);
    try (eapply inv25_same; [eapply idle_shape; [|apply Ho|exact H]; exact Logic.I|eapply idle; [|exact H]; exact Logic.I|exact I]).
  - destruct Ho as [[] _].
  - cbn [run_nav] in H. destruct (NextLocation n tick speed draw) as [[b m]| |] eqn:F; cbn in H; try discriminate.
    injection H as <-. destruct (NextLocation_inv25 _ _ _ _ _ _ _ Hw Hp Hf I F) as [G|(G1 & G2 & G3 & G4 & G5)]; [exact G|].
    apply inv25_start; auto. rewrite G5, tenth. lra.
  - cbn in H. injection H as <-. apply IsFinish_inv25; [lra|exact I].
Qed.

Lemma riding_jumps ops : Forall riding_op ops -> forall n : navigator R, jumps_two_by_two n ops.
Proof.
  induction 1 as [|o ops Ho H IH]; intros n; cbn; [exact I|]. split; [destruct o; try exact I; contradiction|].
  destruct (run_nav n o); auto.
Qed.

Definition inv24' (n : navigator R) := inv24 n /\ nonneg_pos n.

Lemma inv24'_placed n : inv24' n -> nav_wf n /\ placed n.
Proof.
  intros [(Hw & Hm & Hc) (P1 & P2 & P3)]. split; [exact Hw|]. split; [apply Hm|]. split; [apply Hc|]. auto.
Qed.

Lemma inv24'_step n o n' : measured_op o -> forward_op o ->
  match o with NDestinationTo _ => two_by_two n | _ => True end ->
  inv24' n -> run_nav n o = Ret n' -> inv24' n'.
Proof.
  intros Ho Hf Hj [I P] E. split; [eapply inv24_step; eassumption|].
  eapply nonneg_step; [apply Ho|exact P|exact E].
Qed.

Lemma inv24'_start opts uuid draws n0 : navigator_New opts uuid draws = GOk n0 -> inv24' n0.
Proof.
  intros H0. pose proof (measured_start _ _ _ _ H0) as Hm.
  pose proof (New_start _ _ _ _ H0) as (_ & Hrw & _). split; [|now apply rewound_nonneg].
  split; [eapply New_wf; exact H0|]. split; [exact Hm|].
  apply zero_csd; [exact Hm|]. apply Hrw.
Qed.

Lemma CurrentTrack_len n : nav_wf n -> TrackDistance n = Ret (track_len n) /\ RouteDistance n = Ret (route_len n).
Proof.
  intros [Hi _ _]. unfold TrackDistance, RouteDistance, track_len, route_len.
  rewrite CurrentTrack_pure, CurrentRoute_pure by exact Hi. split; reflexivity.
Qed.

Lemma C25_proof opts uuid draws n0 ops n :
  navigator_New opts uuid draws = GOk n0 ->
  Forall measured_op ops -> Forall forward_op ops -> Forall riding_op ops ->
  run_navs n0 ops = Ret n ->
  exists track_length route_length,
    TrackDistance n = Ret track_length /\ RouteDistance n = Ret route_length /\
    n_ctd n <= track_length /\ n_crd n <= route_length /\ n_cd n <= n_dist n + 1 / 10.
Proof.
  intros H0 Ho Hf Hr H.
  assert (I : inv24' n /\ inv25 (1 / 10) n).
  { assert (I0 : inv24' n0 /\ inv25 (1 / 10) n0).
    { split; [eapply inv24'_start; exact H0|]. apply inv25_rewound; [lra|]. apply (New_start _ _ _ _ H0). }
    clear H0. revert n0 I0 H. induction Ho as [|o ops Ho Hos IH]; intros n0 [I0 I1] H; cbn in H.
    - injection H as <-. auto.
    - destruct (run_nav n0 o) as [n1| |] eqn:E; try discriminate. cbn in H.
      pose proof (Forall_inv Hf) as Hf1. apply Forall_inv_tail in Hf.
      pose proof (Forall_inv Hr) as Hr1. apply Forall_inv_tail in Hr.
      apply (IH Hf Hr n1); [|exact H]. split.
      + eapply inv24'_step; try eassumption. destruct o; try exact I; contradiction.
      + destruct (inv24'_placed _ I0) as [W P]. eapply inv25_step; eassumption. }
  destruct I as [I1 I2]. destruct (inv24'_placed _ I1) as [W P].
  destruct (CurrentTrack_len n W) as [E1 E2]. exists (track_len n), (route_len n).
  destruct (inv25_bounds _ _ P I2) as (L1 & L2 & L3). destruct I1 as [(_ & [Hd _] & _) _].
  rewrite Hd. auto.
Qed.

(** asked after every call: the total is exact *)
Lemma ask_inv25 n tick speed draw n' : 0 <= tick * speed -> inv24' n -> inv25 0 n ->
  run_navs n [NNextLocation tick speed draw; NIsFinish] = Ret n' -> inv24' n' /\ inv25 0 n'.
Proof.
  intros Hd I0 I1 H. cbn [run_navs] in H.
  destruct (run_nav n (NNextLocation tick speed draw)) as [n1| |] eqn:E; try discriminate. cbn [bind] in H.
  assert (J1 : inv24' n1).
  { eapply (inv24'_step _ (NNextLocation tick speed draw)); [split; exact I|exact Hd|exact I|exact I0|exact E]. }
  destruct (run_nav n1 NIsFinish) as [n2| |] eqn:E2; try discriminate. cbn in H. injection H as <-.
  split.
  { eapply (inv24'_step _ NIsFinish); [split; exact I|exact I|exact I|exact J1|exact E2]. }
  cbn in E2. injection E2 as <-.
  cbn [run_nav] in E. destruct (NextLocation n tick speed draw) as [[b m]| |] eqn:F; cbn in E; try discriminate.
  injection E as <-. destruct (inv24'_placed _ I0) as [W P].
  destruct (NextLocation_inv25 _ _ _ _ _ _ _ W P Hd I1 F) as [G|(G1 & G2 & G3 & G4 & G5)].
  - apply IsFinish_inv25; [lra|exact G].
  - assert (E : snd (IsFinish m) = set_cur m (n_csd m) (n_crd m) (n_ctd m) f0).
    { unfold IsFinish. injection G1 as -> -> ->. rewrite G5. cbn. rewrite Req_bool_true by reflexivity. reflexivity. }
    rewrite E. apply inv25_start; auto. cbn. lra.
Qed.

Lemma asked_bounds n1 args n : inv24' n1 -> rewound n1 ->
  Forall (fun a => 0 <= step_length a) args ->
  run_navs n1 (ask_every_time args) = Ret n ->
  exists track_length route_length,
    TrackDistance n = Ret track_length /\ RouteDistance n = Ret route_length /\
    n_ctd n <= track_length /\ n_crd n <= route_length /\ n_cd n <= n_dist n.
Proof.
  intros I1 Hrw Ha H1.
  assert (I : inv24' n /\ inv25 0 n).
  { assert (I2 : inv25 0 n1) by (apply inv25_rewound; [lra|exact Hrw]). clear Hrw.
    revert n1 I1 I2 H1. induction args as [|[[tick speed] draw] args IH]; intros n1 I1 I2 H1.
    - cbn in H1. injection H1 as <-. auto.
    - change (ask_every_time ((tick, speed, draw) :: args))
        with ([NNextLocation tick speed draw; NIsFinish] ++ ask_every_time args) in H1.
      destruct (run_navs n1 [NNextLocation tick speed draw; NIsFinish]) as [n2| |] eqn:E.
      + destruct (ask_inv25 n1 tick speed draw n2) as [A B]; auto. { exact (Forall_inv Ha). }
        apply (IH (Forall_inv_tail Ha) n2 A B).
        cbn [app run_navs] in H1, E. destruct (run_nav n1 _) as [n3| |]; try discriminate. cbn [bind] in *.
        injection E as <-. exact H1.
      + cbn [app run_navs] in H1, E. destruct (run_nav n1 _) as [n3| |]; try discriminate.
      + cbn [app run_navs] in H1, E. destruct (run_nav n1 _) as [n3| |]; try discriminate. }
  destruct I as [J1 J2]. destruct (inv24'_placed _ J1) as [W P].
  destruct (CurrentTrack_len n W) as [E1 E2]. exists (track_len n), (route_len n).
  destruct (inv25_bounds _ _ P J2) as (L1 & L2 & L3). destruct J1 as [(_ & [Hd _] & _) _].
  rewrite Hd. repeat split; auto. lra.
Qed.
End S.
