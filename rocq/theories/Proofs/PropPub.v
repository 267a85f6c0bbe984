(** C82: properties of routes and tracks in the published state. *)
From Coq Require Import Lia.
From Verif.Model Require Import Base Num Geo Curve PropMap Types Pb TypesSnap Track Route Navigator Device.
From Verif.Spec Require Import ListSpec TrackSpec RouteSpec NavSpec NumLaws RealSpec TypesSpec DeviceSpec PropPubSpec.
From Verif.Proofs Require Import BaseLemmas NavLemmas NavSteps NavProofs NavProofs2 NavProofs3 TypesProofs DeviceLemmas DeviceProofs DeviceProofs2 DeviceProofs3.
Open Scope num_scope.

Lemma nth_error_set_nth_eq {A} i (y : A) : forall l x, nth_error l i = Some x -> nth_error (set_nth i y l) i = Some y.
Proof. induction i; intros [|a l] x; cbn; try discriminate; [reflexivity|apply IHi]. Qed.

Section D.
Context {T : Type} {N : Num T} {J : JsonLib T} {U : UtmLib T}.
Implicit Types (d : device T) (n : navigator T).

Definition rprops (r : route T) : string * Z * list (string * Z) :=
  (shown_props (rt_props r), map (fun t => shown_props (tk_props t)) (rt_tracks r)).
Definition nprops n := map rprops (n_routes n).
Definition pprops d := option_map (fun l => map (fun r => (pdr_props r, pdr_props_count r, map (fun t => (pdt_props t, pdt_props_count t)) (pdr_tracks r))) (pds_routes l))
  (pde_routes (d_state d)).

Lemma props_view d : props_published d <-> pprops d = Some (nprops (d_nav d)).
Proof.
  unfold props_published, pprops, nprops, rprops. destruct (pde_routes (d_state d)) as [l|]; cbn [option_map]; split.
  - intros (l' & E & H). injection E as <-. now rewrite H.
  - intros H. exists l. split; [reflexivity|]. now injection H.
  - intros (l' & E & _). discriminate.
  - discriminate.
Qed.

Lemma len_nonneg (p : props T) : (0 <= props_len p)%Z. Proof. unfold props_len. lia. Qed.
Lemma shown_state (p : props T) : shown_props (Some p) = (state_props p, props_len p).
Proof.
  unfold shown_props, state_props, marshal_props. pose proof (len_nonneg p).
  destruct (Z.eqb_spec (props_len p) 0), (Z.ltb_spec 0 (props_len p)); try lia; reflexivity.
Qed.
Lemma len_Make : props_len (T := T) props_Make = 0%Z. Proof. reflexivity. Qed.
Lemma shown_touch (p : option (props T)) :
  shown_props (Some (match p with Some m => m | None => props_Make end)) = shown_props p.
Proof. destruct p; [reflexivity|]. cbn [shown_props]. rewrite len_Make. reflexivity. Qed.
Lemma shown_track_touch (t : track T) : shown_props (tk_props (snd (track_Props t))) = shown_props (tk_props t).
Proof. unfold track_Props. destruct (tk_props t) as [p|] eqn:E; cbn [snd]; [now rewrite E|]. cbn [tk_props]. apply (shown_touch None). Qed.
Lemma touch_rprops (r : route T) : rprops (touch_props r) = rprops r.
Proof.
  unfold rprops, touch_props. f_equal.
  - unfold route_Props. destruct (rt_props r) as [p|] eqn:E; cbn; [now rewrite E|]. apply (shown_touch None).
  - assert (E : rt_tracks (snd (route_Props r)) = rt_tracks r) by (unfold route_Props; destruct (rt_props r); reflexivity).
    cbn. rewrite E, map_map. apply map_ext, shown_track_touch.
Qed.
Lemma touch_nprops n : nprops (set_routes n (map touch_props (n_routes n))) = nprops n.
Proof. unfold nprops. cbn. rewrite map_map. apply map_ext, touch_rprops. Qed.

Lemma track_shown (t : track T) : (state_props (fst (track_Props t)), props_len (fst (track_Props t))) = shown_props (tk_props t).
Proof. rewrite <- shown_state. rewrite <- (shown_touch (tk_props t)). unfold track_Props. destruct (tk_props t); reflexivity. Qed.
Lemma droute_rprops (r : route T) :
  (pdr_props (droute_of r), pdr_props_count (droute_of r), map (fun t => (pdt_props t, pdt_props_count t)) (pdr_tracks (droute_of r))) = rprops r.
Proof.
  unfold droute_of, rprops. cbn -[state_props]. f_equal.
  - rewrite <- shown_state. rewrite <- (shown_touch (rt_props r)). unfold route_Props. destruct (rt_props r); reflexivity.
  - rewrite map_map. apply map_ext. intros t. apply track_shown.
Qed.

Lemma refreshed d d' : updateRoutes d = Ret d' -> props_published d' /\ d_ns d' = nav_Sum (d_nav d').
Proof.
  intros H. apply updateRoutes_inv in H. destruct H as (_ & _ & _ & _ & _ & H1 & H2 & H3 & _). split; [|exact H3].
  apply props_view. rewrite H2, touch_nprops. unfold pprops. rewrite H1. cbn -[droute_of]. f_equal.
  rewrite map_map. apply map_ext. intros r. apply droute_rprops.
Qed.

Lemma C82_update_proof d d' : device_Update d = Ret d' -> props_published d'.
Proof.
  unfold device_Update. destruct (updateState d) as [d1| |] eqn:F; cbn [bind]; try discriminate.
  destruct (updateRoutes d1) as [d2| |] eqn:G; cbn [bind]; try discriminate. intros [= <-].
  apply refreshed in G. apply G.
Qed.

Lemma C82_refresh_proof d d' :
  device_Update d = Ret d' \/ (exists rs, AddRoute d rs = Ret (None, d')) \/ (exists id, RemoveRoute d id = Ret (true, d')) \/
  (exists rid tid, RemoveTrack d rid tid = Ret (true, d')) \/ ResetRoutes d = Ret (true, d') ->
  props_published d'.
Proof.
  assert (Pub : forall d1 A (z : A), (let* d2 := updateRoutes d1 in Ret (z, d2)) = Ret (z, d') -> props_published d').
  { intros d1 A z F. destruct (updateRoutes d1) as [d2| |] eqn:G; cbn in F; try discriminate.
    assert (d2 = d') as -> by congruence. apply refreshed in G. apply G. }
  intros [H|[(rs & H)|[(id & H)|[(rid & tid & H)|H]]]].
  - eapply C82_update_proof; eauto.
  - unfold AddRoute in H. destruct (nav_AddRoute _ _) as [[e|] n]; [discriminate|]. eauto.
  - unfold RemoveRoute in H. destruct (nav_RemoveRoute _ _) as [[] n]; [|discriminate]. eauto.
  - unfold RemoveTrack in H. destruct (nav_RemoveTrack _ _ _) as [[] n]; [|discriminate]. eauto.
  - unfold ResetRoutes in H. destruct (nav_ResetRoutes _) as [[] n]; [|discriminate]. eauto.
Qed.

(** ** what does not write properties leaves them alone or raises a version *)
Lemma route_op_props (r : route T) o : no_props_route_op o ->
  (rt_version (run_route r o) = rt_version r /\ tsum (run_route r o) = tsum r /\ rprops (run_route r o) = rprops r) \/
  (rt_version r < rt_version (run_route r o))%Z \/
  (rt_version (run_route r o) = rt_version r /\ tsum r < tsum (run_route r o))%Z.
Proof.
  intros Hn.
  assert (Up : forall i f, (forall t, tk_version (f t) = tk_version t /\ tk_props (f t) = tk_props t) \/
      (forall t, tk_version t < tk_version (f t))%Z ->
    let r' := upd_track r i f in
    (rt_version r' = rt_version r /\ tsum r' = tsum r /\ rprops r' = rprops r) \/
    (rt_version r < rt_version r')%Z \/ (rt_version r' = rt_version r /\ tsum r < tsum r')%Z).
  { intros i f Hf. cbn zeta. unfold upd_track. destruct (nth_error (rt_tracks r) i) as [t|] eqn:E; [|auto].
    unfold tsum. cbn. rewrite (zs_set_nth tk_version i t) by assumption.
    destruct Hf as [Hf|Hf].
    - left. destruct (Hf t) as [H1 H2]. split; [reflexivity|]. split; [lia|].
      unfold rprops. cbn. f_equal. apply (map_set_nth_same (fun t => shown_props (tk_props t)) i t); [exact E|]. now rewrite H2.
    - right. right. split; [reflexivity|]. specialize (Hf t). lia. }
  destruct o; cbn [run_route]; cbn [no_props_route_op] in Hn; try contradiction.
  - destruct t; cbn; [right; left; lia|auto].
  - unfold route_RemoveTrack. destruct (_ || _)%bool; [auto|].
    destruct (find_index _ _); cbn; [right; left; lia|auto].
  - unfold TrackByID. destruct (_ || _)%bool; [auto|].
    destruct (find _ _); cbn; [right; left; lia|auto].
  - unfold route_ChangeName. destruct (ParseName _); cbn; [right; left; lia|auto].
  - unfold route_ChangeColor. destruct hex; cbn; [right; left; lia|auto].
  - unfold track_ChangeName. destruct (ParseName name); apply Up; cbn; [right; intros; lia|left; auto].
  - unfold track_ChangeColor. destruct parsed; apply Up; cbn; [right; intros; lia|left; auto].
Qed.

Definition no_props_nav (o : nav_op T) : Prop := match o with NRouteOp _ o => no_props_route_op o | _ => True end.

Lemma nav_step_props n o n' : no_props_nav o -> run_nav n o = Ret n' ->
  (nav_Sum n' = nav_Sum n /\ nprops n' = nprops n) \/ lex_lt (nav_Sum n) (nav_Sum n').
Proof.
  intros Hn E. assert (Q : travels o \/ ~ travels o) by (destruct o; cbn; auto).
  rewrite !Sum_eq. destruct Q as [Q|Q].
  { left. unfold nprops.
    now rewrite (run_nav_stable _ stable_routes _ _ _ Q E), (run_nav_stable _ stable_ver _ _ _ Q E). }
  destruct o; cbn in Q; try tauto; cbn [run_nav] in E; injection E as <-.
  - destruct rs as [|x rs]; [now left|].
    destruct (C17_proof n (x :: rs)) as [_ G]. destruct G as (n' & G1 & G2 & G3 & G4); [discriminate|].
    rewrite G1. cbn [snd]. cbn zeta in *.
    destruct (fresh_routes (map rt_id (n_routes n)) (x :: rs)) eqn:F.
    + left. now rewrite G3.
    + right. destruct G4 as (_ & _ & _ & ->); [discriminate|]. left. lia.
  - unfold nav_ResetRoutes. destruct (n_routes n) eqn:F; [left; cbn; now rewrite F|right; left; cbn; lia].
  - destruct (C18_proof n id) as [(r & rest & _ & _ & _ & _ & n' & -> & _ & _ & _ & _ & G)|(_ & -> & _)].
    + right. left. cbn [snd]. lia.
    + now left.
  - unfold nav_RemoveTrack. destruct (_ || _)%bool; [now left|].
    destruct (find_index _ _) as [i|]; [|now left].
    destruct (nth_error _ i) as [x|]; [|now left].
    destruct (route_RemoveTrack x tid) as [[] x']; [|now left]. right. left. cbn. lia.
  - left. auto.
  - unfold nav_mutateRoute. destruct (nth_error _ i) as [x|] eqn:F; [|now left].
    cbn. rewrite (zs_set_nth rt_version i x), (zs_set_nth tsum i x) by assumption.
    destruct (route_op_props x o Hn) as [(H1 & H2 & H3)|[H|[H1 H2]]].
    + left. rewrite H1, H2. split; [f_equal; [f_equal|]; lia|].
      unfold nprops. cbn. now rewrite (map_set_nth_same rprops i x).
    + right. right. split; [reflexivity|]. left. lia.
    + right. right. split; [reflexivity|]. right. split; lia.
Qed.

Lemma nav_props ops : forall n n', Forall no_props_nav ops -> run_navs n ops = Ret n' ->
  (nav_Sum n' = nav_Sum n /\ nprops n' = nprops n) \/ lex_lt (nav_Sum n) (nav_Sum n').
Proof.
  induction ops as [|o ops IH]; intros n n' Ho E; cbn in E.
  - injection E as <-. auto.
  - destruct (run_nav n o) as [n1| |] eqn:F; cbn in E; try discriminate. inversion Ho as [|? ? Ho1 Ho2]; subst.
    apply (IH _ _ Ho2) in E. apply (nav_step_props _ _ _ Ho1) in F.
    destruct E as [[E1 E2]|E], F as [[F1 F2]|F].
    + left. split; congruence.
    + right. congruence.
    + right. congruence.
    + right. eapply lex_trans; eauto.
Qed.

(** ** devices *)
Definition fresh d : Prop := props_published d /\ d_ns d = nav_Sum (d_nav d) \/ lex_lt (d_ns d) (nav_Sum (d_nav d)).

Lemma carry d los d' : fresh d -> Forall no_props_nav los -> run_navs (d_nav d) los = Ret (d_nav d') ->
  pde_routes (d_state d') = pde_routes (d_state d) -> d_ns d' = d_ns d -> fresh d'.
Proof.
  intros H Ho E Ep Es. apply (nav_props _ _ _ Ho) in E.
  assert (Pv : pprops d' = pprops d) by (unfold pprops; now rewrite Ep).
  unfold fresh in *. rewrite props_view in *. rewrite Es, Pv.
  destruct E as [[E1 E2]|E].
  - rewrite E1, E2. exact H.
  - right. destruct H as [[_ H]|H].
    + rewrite H. exact E.
    + eapply lex_trans; eauto.
Qed.

(** the navigator calls of a step, but for the refreshing of the list *)
Lemma begin_nav d s x d3 t : next_begin d s x d3 t -> exists los, Forall travels los /\ run_navs (d_nav d) los = Ret (d_nav d3).
Proof.
  intros NB. pose proof (nb_nav _ _ _ _ _ NB) as E. destruct (battery_IsLow _).
  - exists [NToOffline (xd_low x)]. split; [repeat constructor|]. cbn. now rewrite E.
  - injection E as ->. exists []. split; [constructor|reflexivity].
Qed.

Lemma travels_quiet (los : list (nav_op T)) : Forall travels los -> Forall no_props_nav los.
Proof. apply Forall_impl. intros o H. destruct o; cbn in *; auto. contradiction. Qed.

Lemma next_cases d tick x b d' : Next_locked d tick x = Ret (b, d') ->
  (exists los, Forall travels los /\ run_navs (d_nav d) los = Ret (d_nav d') /\
     pde_routes (d_state d') = pde_routes (d_state d) /\ d_ns d' = d_ns d /\
     (b = true -> d_ns d' = nav_Sum (d_nav d'))) \/
  (exists los n1 d1 d2, Forall travels los /\ run_navs (d_nav d) los = Ret n1 /\ d_ns d <> nav_Sum n1 /\ d_nav d1 = n1 /\ updateRoutes d1 = Ret d2 /\
     d_nav d' = d_nav d2 /\ d_ns d' = d_ns d2 /\ pde_routes (d_state d') = pde_routes (d_state d2)).
Proof.
  intros E. destruct (n_routes (d_nav d)) eqn:Er.
  { unfold Next_locked in E. rewrite Er in E. injection E as <- <-. left. exists []. repeat split; auto; discriminate. }
  apply Next_locked_inv in E; [|congruence]. clear Er. destruct E as (d3 & t & NB & St).
  destruct (begin_nav _ _ _ _ _ NB) as (l1 & L1 & R1).
  destruct NB as [B1 B2 B3 B4 B5 B6 B7]. unfold frame in B1.
  assert (S3 : d_ns d3 = d_ns d) by congruence.
  assert (P3 : pde_routes (d_state d3) = pde_routes (d_state d)) by (rewrite B7; reflexivity).
  inversion St as [n2 n3 S1 S2 Eb Ed|n2 n3 n4 d4 d5 S1 S2 S4' S4 S5 S6 S7 S8 S9 Eb Ed|n2 n3 ss d4 d5 d6 S1 S2 S4 S4' S5 S6 Eb Ed]; subst.
  - left. eexists (l1 ++ [NNextLocation _ _ _; NIsFinish]). split; [apply Forall_app; split; [exact L1|repeat constructor]|].
    split; [|split; [exact P3|split; [exact S3|discriminate]]].
    eapply run_navs_cat; [exact R1|]. cbn [run_navs run_nav]. rewrite S1. cbn [bind]. rewrite S2. reflexivity.
  - left. eexists (l1 ++ [NNextLocation _ _ _; NIsFinish; NShuffleElevation _]). split; [apply Forall_app; split; [exact L1|repeat constructor]|].
    apply updateState_routes in S9. destruct S9 as (A1 & A2 & A3).
    split; [|split; [rewrite A1, S8; exact P3|split; [congruence|discriminate]]].
    eapply run_navs_cat; [exact R1|]. cbn [run_navs run_nav]. rewrite S1. cbn [bind]. rewrite S2. cbn [bind snd]. rewrite S4'. cbn [bind].
    now rewrite A3.
  - apply updateState_routes in S6. destruct S6 as (A1 & A2 & A3).
    assert (R2 : exists los, Forall travels los /\ run_navs (d_nav d) los = Ret n3).
    { eexists (l1 ++ [NNextLocation _ _ _; NNextElevation _]). split; [apply Forall_app; split; [exact L1|repeat constructor]|].
      eapply run_navs_cat; [exact R1|]. cbn [run_navs run_nav]. rewrite S1. cbn [bind]. rewrite S2. reflexivity. }
    destruct R2 as (l2 & L2 & R2). destruct S5 as [[-> S5]|[S5' S5]].
    + left. exists l2. cbn in A1, A2, A3. rewrite A3. split; [exact L2|]. split; [exact R2|]. split; [now rewrite A1|]. split; [congruence|]. intros _. congruence.
    + right. exists l2, n3, (dset_sensors (dset_nav d3 n3) ss), d5. repeat split; auto.
Qed.

Lemma next_props d tick x b d' : fresh d -> Next_locked d tick x = Ret (b, d') -> fresh d' /\ (b = true -> props_published d').
Proof.
  intros H E. destruct (next_cases _ _ _ _ _ E) as [(los & L & R & P & S & B)|(los & n1 & d1 & d2 & L & R & Ne & E1 & Up & E2 & E3 & E4)].
  - assert (F : fresh d') by exact (carry d los d' H (travels_quiet _ L) R P S). split; [exact F|].
    intros Hb. destruct F as [[F _]|F]; [exact F|]. rewrite (B Hb) in F. now apply lex_irrefl in F.
  - apply refreshed in Up. destruct Up as [Q1 Q2].
    assert (Q : props_published d').
    { rewrite props_view in *. unfold pprops in *. rewrite E4, E2. exact Q1. }
    split; [left; split; [exact Q|congruence]|auto].
Qed.

Lemma props_step d o d' : fresh d -> no_props_op o -> run_dev d o = Ret d' -> fresh d'.
Proof.
  intros H Hn E.
  assert (Id : d_nav d' = d_nav d -> pde_routes (d_state d') = pde_routes (d_state d) -> d_ns d' = d_ns d -> fresh d').
  { intros A B C. apply (carry d []); auto. rewrite A. reflexivity. }
  assert (One : forall lo, no_props_nav lo -> run_nav (d_nav d) lo = Ret (d_nav d') ->
     pde_routes (d_state d') = pde_routes (d_state d) -> d_ns d' = d_ns d -> fresh d').
  { intros lo A B C D. apply (carry d [lo]); auto. cbn. rewrite B. reflexivity. }
  assert (Pub : forall d1, updateRoutes d1 = Ret d' -> fresh d').
  { intros d1 F. apply refreshed in F. left. exact F. }
  destruct o; cbn [run_dev] in E;
    try (injection E as <-; apply Id; reflexivity).
  - injection E as <-. apply Id; unfold SetModel; destruct (NewModel m); reflexivity.
  - injection E as <-. apply Id; unfold SetColor; destruct hex; reflexivity.
  - injection E as <-. apply Id; unfold AddSensor; destruct (add_sensors _ _ _) as [? ok]; destruct (0 <? ok)%Z; reflexivity.
  - injection E as <-. apply Id; unfold RemoveSensor; (destruct (_ =? _)%Z; [reflexivity|]; destruct (find_index _ _); reflexivity).
  - destruct (nth_error _ _) eqn:F; [|injection E as <-; apply Id; reflexivity].
    destruct (run_sensor1 _ _) as [s'| |] eqn:G; try discriminate. injection E as <-. apply Id; reflexivity.
  - unfold AddRoute in E. destruct (nav_AddRoute _ _) as [[e|] n] eqn:A.
    + injection E as <-. apply (One (NAddRoute rs)); try exact I; try reflexivity. cbn. now rewrite A.
    + destruct (updateRoutes _) as [d1| |] eqn:F; cbn in E; try discriminate. injection E as <-. eauto.
  - unfold RemoveRoute in E. destruct (nav_RemoveRoute _ _) as [[] n] eqn:A.
    + destruct (updateRoutes _) as [d1| |] eqn:F; cbn in E; try discriminate. injection E as <-. eauto.
    + injection E as <-. apply (One (NRemoveRoute id)); try exact I; try reflexivity. cbn. now rewrite A.
  - unfold RemoveTrack in E. destruct (nav_RemoveTrack _ _ _) as [[] n] eqn:A.
    + destruct (updateRoutes _) as [d1| |] eqn:F; cbn in E; try discriminate. injection E as <-. eauto.
    + injection E as <-. apply (One (NRemoveTrack rid tid)); try exact I; try reflexivity. cbn. now rewrite A.
  - unfold ResetRoutes in E. destruct (nav_ResetRoutes _) as [[] n] eqn:A.
    + destruct (updateRoutes _) as [d1| |] eqn:F; cbn in E; try discriminate. injection E as <-. eauto.
    + injection E as <-. apply (One NResetRoutes); try exact I; try reflexivity. cbn. now rewrite A.
  - injection E as <-. apply (One (NRouteOp i o)); try reflexivity. exact Hn.
  - injection E as <-. apply (One NNextRoute); try exact I; unfold device_move; cbn; destruct (NextRoute _); reflexivity.
  - injection E as <-. apply (One NPrevRoute); try exact I; unfold device_move; cbn; destruct (PrevRoute _); reflexivity.
  - injection E as <-. apply (One (NMoveToRouteByID id)); try exact I; unfold device_move; cbn; destruct (MoveToRouteByID _ _); reflexivity.
  - injection E as <-. apply (One (NMoveToTrackByID rid tid)); try exact I; unfold device_move; cbn; destruct (MoveToTrackByID _ _ _); reflexivity.
  - injection E as <-. apply (One (NMoveToRoute r)); try exact I; unfold device_move; cbn; destruct (MoveToRoute _ _); reflexivity.
  - injection E as <-. apply (One (NMoveToTrack r t)); try exact I; unfold device_move; cbn; destruct (MoveToTrack _ _ _); reflexivity.
  - injection E as <-. apply (One (NMoveToSegment r t s)); try exact I; unfold device_move; cbn; destruct (MoveToSegment _ _ _ _); reflexivity.
  - injection E as <-. apply (One (NDestinationTo meters)); try exact I; unfold device_move; cbn; destruct (DestinationTo _ _); reflexivity.
  - unfold device_ToOffline in E. destruct (ToOffline _ _) as [n| |] eqn:A; try discriminate. injection E as <-.
    apply (One (NToOffline draw)); try exact I; try reflexivity. exact A.
  - injection E as <-. apply (One NReset); try exact I; reflexivity.
  - injection E as <-. apply (One NIsFinish); try exact I; unfold device_IsFinish; cbn; destruct (IsFinish _); reflexivity.
  - unfold device_Update in E. destruct (updateState d) as [d1| |] eqn:F; cbn [bind] in E; try discriminate.
    destruct (updateRoutes d1) as [d2| |] eqn:G; cbn [bind] in E; try discriminate. injection E as <-.
    apply refreshed in G. left. exact G.
  - unfold Next in E. destruct free.
    + destruct (Next_locked d tick x) as [[b d1]| |] eqn:F; cbn in E; try discriminate. injection E as <-.
      now apply (next_props _ _ _ _ _ H F).
    + injection E as <-. apply Id; reflexivity.
  - injection E as <-. apply Id; unfold mount; destruct (_ =? _)%Z; reflexivity.
  - injection E as <-. apply Id; unfold unmount; destruct (_ =? _)%Z; reflexivity.
  - destruct (run_nav _ _) as [q| |]; cbn [bind] in E; try discriminate.
    destruct (device_Snapshot d) as [q'| |]; cbn [bind] in E; try discriminate. injection E as <-. now apply Id.
Qed.

Lemma props_run ops : forall d d', fresh d -> Forall no_props_op ops -> run_devs d ops = Ret d' -> fresh d'.
Proof.
  induction ops as [|o ops IH]; intros d d' H Ho E; cbn in E; [now injection E as <-|].
  destruct (run_dev d o) as [d1| |] eqn:F; cbn in E; try discriminate. inversion Ho; subst.
  eapply IH; [|eassumption|exact E]. eapply props_step; eauto.
Qed.

(** a device whose list is current was refreshed at the present version, or its version has moved on *)
Lemma published_fresh opts x d0 ops d : built opts x d0 -> run_devs d0 ops = Ret d -> props_published d -> fresh d.
Proof.
  intros H E P. destruct (C64_history_proof _ _ _ _ _ H E) as [[_ Q]|Q]; [left; auto|right; exact Q].
Qed.

Lemma C82_step_proof opts x d0 ops1 d1 ops2 d tick y d' : built opts x d0 -> run_devs d0 ops1 = Ret d1 -> props_published d1 ->
  Forall no_props_op ops2 -> run_devs d1 ops2 = Ret d -> Next d true tick y = Ret (true, d') -> props_published d'.
Proof.
  intros H E1 P Ho E2 E. assert (F : fresh d) by (eapply props_run; [eapply published_fresh; eauto| |]; eauto).
  now apply (next_props _ _ _ _ _ F E).
Qed.

(** ** driving refreshes nothing *)
Lemma travels_sum los : forall n n', Forall travels los -> run_navs n los = Ret n' -> nav_Sum n' = nav_Sum n /\ n_routes n' = n_routes n.
Proof.
  induction los as [|o los IH]; intros n n' Ho E; cbn in E; [now injection E as <-|].
  destruct (run_nav n o) as [n1| |] eqn:F; cbn in E; try discriminate. inversion Ho as [|? ? A B]; subst.
  destruct (IH _ _ B E) as [I1 I2].
  assert (Er : n_routes n1 = n_routes n) by exact (run_nav_stable _ stable_routes _ _ _ A F).
  assert (Ev : n_ver n1 = n_ver n) by exact (run_nav_stable _ stable_ver _ _ _ A F).
  rewrite I1, I2, !Sum_eq, Er, Ev. auto.
Qed.

Lemma drive_step d o d' : driving o -> d_ns d = nav_Sum (d_nav d) -> run_dev d o = Ret d' ->
  d_ns d' = nav_Sum (d_nav d') /\ n_routes (d_nav d') = n_routes (d_nav d) /\ pde_routes (d_state d') = pde_routes (d_state d).
Proof.
  intros Hd H E.
  assert (Id : d_nav d' = d_nav d -> pde_routes (d_state d') = pde_routes (d_state d) -> d_ns d' = d_ns d ->
    d_ns d' = nav_Sum (d_nav d') /\ n_routes (d_nav d') = n_routes (d_nav d) /\ pde_routes (d_state d') = pde_routes (d_state d)).
  { intros A B C. rewrite A, B, C. auto. }
  assert (One : forall lo, travels lo -> run_nav (d_nav d) lo = Ret (d_nav d') ->
     pde_routes (d_state d') = pde_routes (d_state d) -> d_ns d' = d_ns d ->
     d_ns d' = nav_Sum (d_nav d') /\ n_routes (d_nav d') = n_routes (d_nav d) /\ pde_routes (d_state d') = pde_routes (d_state d)).
  { intros lo A B C D. destruct (travels_sum [lo] (d_nav d) (d_nav d')) as [S1 S2]; [repeat constructor; exact A|cbn; now rewrite B|].
    rewrite S1, S2, D, C. auto. }
  destruct o; cbn [driving] in Hd; try contradiction; cbn [run_dev] in E;
    try (injection E as <-; apply Id; reflexivity).
  - injection E as <-. apply Id; unfold SetModel; destruct (NewModel m); reflexivity.
  - injection E as <-. apply Id; unfold SetColor; destruct hex; reflexivity.
  - injection E as <-. apply Id; unfold AddSensor; destruct (add_sensors _ _ _) as [? ok]; destruct (0 <? ok)%Z; reflexivity.
  - injection E as <-. apply Id; unfold RemoveSensor; (destruct (_ =? _)%Z; [reflexivity|]; destruct (find_index _ _); reflexivity).
  - destruct (nth_error _ _) eqn:F; [|injection E as <-; apply Id; reflexivity].
    destruct (run_sensor1 _ _) as [s'| |] eqn:G; try discriminate. injection E as <-. apply Id; reflexivity.
  - injection E as <-. apply (One NNextRoute); try exact I; unfold device_move; cbn; destruct (NextRoute _); reflexivity.
  - injection E as <-. apply (One NPrevRoute); try exact I; unfold device_move; cbn; destruct (PrevRoute _); reflexivity.
  - injection E as <-. apply (One (NMoveToRouteByID id)); try exact I; unfold device_move; cbn; destruct (MoveToRouteByID _ _); reflexivity.
  - injection E as <-. apply (One (NMoveToTrackByID rid tid)); try exact I; unfold device_move; cbn; destruct (MoveToTrackByID _ _ _); reflexivity.
  - injection E as <-. apply (One (NMoveToRoute r)); try exact I; unfold device_move; cbn; destruct (MoveToRoute _ _); reflexivity.
  - injection E as <-. apply (One (NMoveToTrack r t)); try exact I; unfold device_move; cbn; destruct (MoveToTrack _ _ _); reflexivity.
  - injection E as <-. apply (One (NMoveToSegment r t s)); try exact I; unfold device_move; cbn; destruct (MoveToSegment _ _ _ _); reflexivity.
  - injection E as <-. apply (One (NDestinationTo meters)); try exact I; unfold device_move; cbn; destruct (DestinationTo _ _); reflexivity.
  - unfold device_ToOffline in E. destruct (ToOffline _ _) as [n| |] eqn:A; try discriminate. injection E as <-.
    apply (One (NToOffline draw)); try exact I; try reflexivity. exact A.
  - injection E as <-. unfold ResetNavigator. cbn. rewrite H. auto.
  - injection E as <-. apply (One NIsFinish); try exact I; unfold device_IsFinish; cbn; destruct (IsFinish _); reflexivity.
  - unfold Next in E. destruct free.
    + destruct (Next_locked d tick x) as [[b d1]| |] eqn:F; cbn in E; try discriminate. injection E as <-.
      destruct (next_cases _ _ _ _ _ F) as [(los & L & R & P & S & B)|(los & n1 & d2 & d3 & L & R & Ne & _)].
      * destruct (travels_sum _ _ _ L R) as [S1 S2]. rewrite S, P, S1, S2. auto.
      * destruct (travels_sum _ _ _ L R) as [S1 S2]. exfalso. apply Ne. now rewrite S1.
    + injection E as <-. apply Id; reflexivity.
  - injection E as <-. apply Id; unfold mount; destruct (_ =? _)%Z; reflexivity.
  - injection E as <-. apply Id; unfold unmount; destruct (_ =? _)%Z; reflexivity.
  - destruct (run_nav _ _) as [q| |]; cbn [bind] in E; try discriminate.
    destruct (device_Snapshot d) as [q'| |]; cbn [bind] in E; try discriminate. injection E as <-. now apply Id.
Qed.

Lemma drive ops : forall d d', Forall driving ops -> d_ns d = nav_Sum (d_nav d) -> run_devs d ops = Ret d' ->
  n_routes (d_nav d') = n_routes (d_nav d) /\ pde_routes (d_state d') = pde_routes (d_state d).
Proof.
  induction ops as [|o ops IH]; intros d d' Ho H E; cbn in E; [now injection E as <-|].
  destruct (run_dev d o) as [d1| |] eqn:F; cbn in E; try discriminate. inversion Ho as [|? ? A B]; subst.
  destruct (drive_step _ _ _ A H F) as (S1 & S2 & S3). destruct (IH _ _ B S1 E) as [I1 I2].
  rewrite I1, I2, S2, S3. auto.
Qed.

(** after AddRoute, a property that is written changes nothing of what is published *)
Lemma C82_stale_proof opts x d0 ops0 d1 rs e d2 i r p ops d : built opts x d0 -> run_devs d0 ops0 = Ret d1 ->
  AddRoute d1 rs = Ret (e, d2) -> e = None -> nth_error (n_routes (d_nav d2)) i = Some r ->
  Forall driving ops -> run_devs d2 (DRouteOp i (RSetProps p) :: ops) = Ret d ->
  pde_routes (d_state d) = pde_routes (d_state d2) /\
  (exists r', nth_error (n_routes (d_nav d)) i = Some r' /\ rt_props r' = Some p) /\
  (props_published d <-> shown_props (Some p) = shown_props (rt_props r)).
Proof.
  intros H E1 Ea -> Hr Ho E.
  assert (F2 : props_published d2 /\ d_ns d2 = nav_Sum (d_nav d2)).
  { unfold AddRoute in Ea. destruct (nav_AddRoute _ _) as [[e|] n]; [discriminate|].
    destruct (updateRoutes _) as [d3| |] eqn:F; cbn in Ea; try discriminate.
    assert (d3 = d2) as -> by congruence. now apply refreshed in F. }
  destruct F2 as [P2 S2]. cbn [run_devs run_dev bind] in E.
  set (d3 := dset_nav d2 _) in E.
  assert (Er : n_routes (d_nav d3) = set_nth i (run_route r (RSetProps p)) (n_routes (d_nav d2))).
  { unfold d3. cbn [dset_nav d_nav]. unfold nav_mutateRoute. rewrite Hr. reflexivity. }
  assert (S3 : d_ns d3 = nav_Sum (d_nav d3)).
  { change (d_ns d3) with (d_ns d2). rewrite S2.
    assert (V1 : rt_version (run_route r (RSetProps p)) = rt_version r) by (cbn; unfold route_Props; destruct (rt_props r); reflexivity).
    assert (V2 : tsum (run_route r (RSetProps p)) = tsum r) by (unfold tsum; cbn; unfold route_Props; destruct (rt_props r); reflexivity).
    rewrite !Sum_eq, Er. replace (n_ver (d_nav d3)) with (n_ver (d_nav d2)) by (unfold d3; cbn; unfold nav_mutateRoute; rewrite Hr; reflexivity).
    rewrite (zs_set_nth rt_version i r), (zs_set_nth tsum i r) by exact Hr.
    rewrite V1, V2. f_equal; [f_equal|]; lia. }
  destruct (drive _ _ _ Ho S3 E) as [D1 D2].
  assert (Ps : pde_routes (d_state d) = pde_routes (d_state d2)) by (rewrite D2; reflexivity).
  assert (Rp : rt_props (run_route r (RSetProps p)) = Some p) by reflexivity.
  split; [exact Ps|]. split.
  - rewrite D1, Er. exists (run_route r (RSetProps p)). split; [|exact Rp].
    exact (nth_error_set_nth_eq i _ _ r Hr).
  - rewrite props_view in *. unfold pprops in *. rewrite Ps, P2. unfold nprops. rewrite D1, Er.
    assert (Ts : rt_tracks (run_route r (RSetProps p)) = rt_tracks r) by (cbn; unfold route_Props; destruct (rt_props r); reflexivity).
    split.
    + intros Q. assert (Q' : map rprops (n_routes (d_nav d2)) = map rprops (set_nth i (run_route r (RSetProps p)) (n_routes (d_nav d2)))) by congruence.
      apply (f_equal (fun l => nth_error l i)) in Q'. rewrite !nth_error_map, Hr in Q'.
      rewrite (nth_error_set_nth_eq i _ _ r Hr) in Q'. cbn [option_map] in Q'. unfold rprops in Q'. rewrite Rp in Q'. congruence.
    + intros Q. f_equal. symmetry. apply (map_set_nth_same rprops i r); [exact Hr|].
      unfold rprops. rewrite Rp, Ts, Q. reflexivity.
Qed.
End D.
