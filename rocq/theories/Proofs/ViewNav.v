(** The navigator never looks at properties (nor at the offline range in skip-offline mode): all its
    calls commute with [view_nav]. *)
From Coq Require Import Lia.
From Verif.Model Require Import Base Num Utf8 Geo Curve PropMap Types Pb TypesSnap Track Route Navigator Device.
From Verif.Spec Require Import ListSpec TrackSpec RouteSpec NavSpec TypesSpec DeviceSpec SnapSpec RestoreSpec.
From Verif.Proofs Require Import BaseLemmas.
Open Scope num_scope.

Definition rmap {A B} (f : A -> B) (m : res A) : res B := let* x := m in Ret (f x).
Lemma rmap_id {A} (m : res A) : rmap (fun x => x) m = m.
Proof. now destruct m. Qed.
Lemma bind_rmap {A B C} (f : A -> B) (m : res A) (k : B -> res C) : bind (rmap f m) k = bind m (fun x => k (f x)).
Proof. now destruct m. Qed.
Lemma rmap_bind {A B C} (f : B -> C) (m : res A) (k : A -> res B) : rmap f (bind m k) = bind m (fun x => rmap f (k x)).
Proof. now destruct m. Qed.
Lemma bind_ext {A B} (m : res A) (k k' : A -> res B) : (forall x, k x = k' x) -> bind m k = bind m k'.
Proof. intros H. destruct m; cbn; auto. Qed.
Lemma rmap_rmap {A B C} (f : A -> B) (g : B -> C) m : rmap g (rmap f m) = rmap (fun x => g (f x)) m.
Proof. now destruct m. Qed.

Lemma find_index_from_map {A B} (f : A -> B) p l : forall i, find_index_from p (map f l) i = find_index_from (fun x => p (f x)) l i.
Proof. induction l as [|x l IH]; intros i; cbn; [reflexivity|]. destruct (p (f x)); auto. Qed.
Lemma find_index_map {A B} (f : A -> B) p l : find_index p (map f l) = find_index (fun x => p (f x)) l.
Proof. apply find_index_from_map. Qed.
Lemma map_del_nth {A B} (f : A -> B) l : forall i, map f (del_nth i l) = del_nth i (map f l).
Proof. induction l as [|x l IH]; intros [|i]; cbn; try reflexivity. now rewrite IH. Qed.
Lemma map_set_nth {A B} (f : A -> B) l : forall i x, map f (set_nth i x l) = set_nth i (f x) (map f l).
Proof. induction l as [|y l IH]; intros [|i] x; cbn; try reflexivity. now rewrite IH. Qed.
Lemma fold_left_map' {A B C} (g : A -> B) (f : C -> B -> C) l : forall a, fold_left f (map g l) a = fold_left (fun c x => f c (g x)) l a.
Proof. induction l; cbn; auto. Qed.

Section ViewNav.
Context {T : Type} {N : Num T} {J : JsonLib T} {U : UtmLib T} (keep : bool).
Notation vt := (view_track keep).
Notation vr := (view_route keep).
Notation vn := (view_nav keep).

Lemma vp_idem (p : option (props T)) : view_props keep (view_props keep p) = view_props keep p.
Proof. unfold view_props. now destruct keep. Qed.
Lemma vt_idem (t : track T) : vt (vt t) = vt t.
Proof. unfold view_track. cbn. now rewrite vp_idem. Qed.
Lemma vr_idem (r : route T) : vr (vr r) = vr r.
Proof. unfold view_route. cbn. rewrite vp_idem, map_map. f_equal. apply map_ext, vt_idem. Qed.
Lemma vts_idem (l : list (track T)) : map vt (map vt l) = map vt l.
Proof. rewrite map_map. apply map_ext, vt_idem. Qed.
Lemma vrs_idem (l : list (route T)) : map vr (map vr l) = map vr l.
Proof. rewrite map_map. apply map_ext, vr_idem. Qed.
Lemma vn_idem (n : navigator T) : vn (vn n) = vn n.
Proof.
  unfold view_nav. cbn. rewrite map_map. f_equal; [apply map_ext, vr_idem|]. now destruct (n_skip n).
Qed.

Lemma TrackAt_view (r : route T) i : TrackAt (vr r) i = option_map vt (TrackAt r i).
Proof. unfold TrackAt. cbn. rewrite zlen_map, zget_map. now destruct (_ || _)%bool. Qed.
Lemma zlen_routes (n : navigator T) : zlen (n_routes (vn n)) = zlen (n_routes n).
Proof. apply zlen_map. Qed.
Lemma zget_routes (n : navigator T) i : zget (n_routes (vn n)) i = option_map vr (zget (n_routes n) i).
Proof. apply zget_map. Qed.

Lemma CurrentRoute_view (n : navigator T) : CurrentRoute (vn n) = rmap (option_map vr) (CurrentRoute n).
Proof.
  unfold CurrentRoute. destruct (n_routes n) as [|r l] eqn:E.
  - change (n_routes (vn n)) with (map vr (n_routes n)). rewrite E. reflexivity.
  - rewrite zget_routes. rewrite E. change (n_routes (vn n)) with (map vr (n_routes n)). rewrite E. cbn [map].
    change (n_ri (vn n)) with (n_ri n). now destruct (zget (r :: l) (n_ri n)).
Qed.
Lemma CurrentTrack_view (n : navigator T) : CurrentTrack (vn n) = rmap (option_map vt) (CurrentTrack n).
Proof.
  unfold CurrentTrack. rewrite CurrentRoute_view, bind_rmap, rmap_bind. apply bind_ext. intros [r|]; [|reflexivity].
  cbn. now rewrite TrackAt_view.
Qed.
Lemma CurrentSegment_view (n : navigator T) : CurrentSegment (vn n) = CurrentSegment n.
Proof.
  unfold CurrentSegment. rewrite CurrentRoute_view, bind_rmap. apply bind_ext. intros [r|]; [|reflexivity].
  cbn. rewrite TrackAt_view. now destruct (TrackAt r (n_ti n)).
Qed.
Lemma CurrentBearing_view (n : navigator T) : CurrentBearing (vn n) = CurrentBearing n.
Proof. unfold CurrentBearing. now rewrite CurrentSegment_view. Qed.
Lemma RouteDistance_view (n : navigator T) : RouteDistance (vn n) = RouteDistance n.
Proof. unfold RouteDistance. rewrite CurrentRoute_view, bind_rmap. apply bind_ext. now intros [r|]. Qed.
Lemma TrackDistance_view (n : navigator T) : TrackDistance (vn n) = TrackDistance n.
Proof. unfold TrackDistance. rewrite CurrentTrack_view, bind_rmap. apply bind_ext. now intros [r|]. Qed.
Lemma SegmentDistance_view (n : navigator T) : SegmentDistance (vn n) = SegmentDistance n.
Proof. unfold SegmentDistance. now rewrite CurrentSegment_view. Qed.

Definition pv {A} (x : A * navigator T) : A * navigator T := (fst x, vn (snd x)).

Lemma IsFinish_view (n : navigator T) : IsFinish (vn n) = pv (IsFinish n).
Proof. unfold IsFinish. cbn. destruct (_ && _)%bool; reflexivity. Qed.
Lemma calc_view (n : navigator T) : calcRouteDistance (vn n) = vn (calcRouteDistance n).
Proof. unfold calcRouteDistance. change (n_routes (vn n)) with (map vr (n_routes n)). rewrite fold_left_map'. reflexivity. Qed.
Lemma Reset_view (n : navigator T) : nav_Reset (vn n) = vn (nav_Reset n).
Proof. unfold nav_Reset. change (resetIndexes (vn n)) with (vn (resetIndexes n)). apply calc_view. Qed.
Lemma Sum_view (n : navigator T) : nav_Sum (vn n) = nav_Sum n.
Proof.
  unfold nav_Sum. change (n_routes (vn n)) with (map vr (n_routes n)). rewrite !fold_left_map'. cbn. f_equal.
  generalize 0%Z. induction (n_routes n) as [|r l IH]; intros z; cbn; [reflexivity|]. rewrite fold_left_map'. cbn. apply IH.
Qed.
Lemma Sum_eq (n n' : navigator T) : vn n = vn n' -> nav_Sum n = nav_Sum n'.
Proof. intros H. rewrite <- (Sum_view n), H. apply Sum_view. Qed.

Lemma MoveToSegment_view (n : navigator T) r t s : MoveToSegment (vn n) r t s = pv (MoveToSegment n r t s).
Proof.
  unfold MoveToSegment. rewrite zlen_routes, zget_routes.
  change (n_ri (vn n)) with (n_ri n). change (n_ti (vn n)) with (n_ti n). change (n_si (vn n)) with (n_si n).
  destruct (_ =? 0)%Z; [reflexivity|]. destruct (_ && _)%bool; [reflexivity|]. destruct (_ || _)%bool; [reflexivity|].
  destruct (zget (n_routes n) r) as [x|]; [|reflexivity]. cbn [option_map]. change (rt_tracks (vr x)) with (map vt (rt_tracks x)).
  rewrite zlen_map, TrackAt_view. destruct (_ =? 0)%Z; [reflexivity|]. destruct (_ || _)%bool; [reflexivity|].
  destruct (TrackAt x t) as [tk|]; [|reflexivity]. cbn [option_map]. change (tk_segments (vt tk)) with (tk_segments tk).
  destruct (_ || _)%bool; [reflexivity|]. change (SegmentAt (vt tk) s) with (SegmentAt tk s).
  destruct (t =? n_ti n)%Z, (r =? n_ri n)%Z; reflexivity.
Qed.
Lemma NextRoute_view (n : navigator T) : NextRoute (vn n) = pv (NextRoute n).
Proof. unfold NextRoute. rewrite zlen_routes. change (n_ri (vn n)) with (n_ri n). destruct (_ <? _)%Z; [apply MoveToSegment_view|reflexivity]. Qed.
Lemma PrevRoute_view (n : navigator T) : PrevRoute (vn n) = pv (PrevRoute n).
Proof. unfold PrevRoute. change (n_ri (vn n)) with (n_ri n). destruct (_ <? _)%Z; [apply MoveToSegment_view|reflexivity]. Qed.
Lemma indexRoute_view (n : navigator T) id : indexRoute (vn n) id = indexRoute n id.
Proof. unfold indexRoute. change (n_routes (vn n)) with (map vr (n_routes n)). now rewrite find_index_map. Qed.
Lemma indexTrack_view (r : route T) id : indexTrack (vr r) id = indexTrack r id.
Proof. unfold indexTrack. change (rt_tracks (vr r)) with (map vt (rt_tracks r)). now rewrite find_index_map. Qed.
Lemma MoveToRouteByID_view (n : navigator T) id : MoveToRouteByID (vn n) id = pv (MoveToRouteByID n id).
Proof. unfold MoveToRouteByID. rewrite indexRoute_view. destruct (_ =? _)%Z; [reflexivity|apply MoveToSegment_view]. Qed.
Lemma MoveToTrackByID_view (n : navigator T) r t : MoveToTrackByID (vn n) r t = pv (MoveToTrackByID n r t).
Proof.
  unfold MoveToTrackByID. rewrite indexRoute_view. destruct (_ =? _)%Z; [reflexivity|]. rewrite zget_routes.
  destruct (zget _ _) as [x|]; [|reflexivity]. cbn [option_map]. rewrite indexTrack_view.
  destruct (_ =? _)%Z; [reflexivity|apply MoveToSegment_view].
Qed.

Lemma jump_routes_view (d : T) l : forall i cur ri rd,
  jump_routes d i (map vr l) (option_map vr cur) ri rd =
  (option_map vr (fst (fst (jump_routes d i l cur ri rd))), snd (fst (jump_routes d i l cur ri rd)), snd (jump_routes d i l cur ri rd)).
Proof.
  induction l as [|r l IH]; intros i cur ri rd; cbn [jump_routes map]; [reflexivity|].
  change (rt_dist (vr r)) with (rt_dist r). destruct (_ >? _); [reflexivity|]. apply (IH _ (Some r)).
Qed.
Lemma jump_tracks_view (d : T) l : forall i cur ti crd rd,
  jump_tracks d i (map vt l) (option_map vt cur) ti crd rd =
  let '(t, a, b, c) := jump_tracks d i l cur ti crd rd in (option_map vt t, a, b, c).
Proof.
  induction l as [|r l IH]; intros i cur ti crd rd; cbn [jump_tracks map]; [reflexivity|].
  change (tk_dist (vt r)) with (tk_dist r). destruct (_ >? _); [reflexivity|]. apply (IH _ (Some r)).
Qed.
Lemma DestinationTo_view (n : navigator T) m : DestinationTo (vn n) m = pv (DestinationTo n m).
Proof.
  unfold DestinationTo. change (n_dist (vn n)) with (n_dist n). cbv zeta.
  set (distance := if m >? n_dist n then n_dist n else m). destruct (distance <? f1); [reflexivity|].
  change (n_routes (vn n)) with (map vr (n_routes n)).
  rewrite (jump_routes_view distance (n_routes n) 0 None). destruct (jump_routes _ _ _ _ _ _) as [[[r|] ri] rd]; [|reflexivity].
  cbn [fst snd option_map]. change (rt_tracks (vr r)) with (map vt (rt_tracks r)).
  rewrite (jump_tracks_view distance (rt_tracks r) 0 None). destruct (jump_tracks _ _ _ _ _ _ _) as [[[[t|] ti] crd] rd']; [|reflexivity].
  cbn [option_map]. change (tk_segments (vt t)) with (tk_segments t).
  destruct (jump_segments _ _ _ _ _ _ _ _) as [[[[s si] rd2] crd2] ctd]. destruct (segment_IsEmpty s); reflexivity.
Qed.

Lemma ToOffline_view (n : navigator T) d : ToOffline (vn n) d = rmap vn (ToOffline n d).
Proof.
  unfold ToOffline. change (n_skip (vn n)) with (n_skip n). destruct (n_skip n) eqn:E; [reflexivity|].
  assert (F : n_rnd (vn n) = n_rnd n) by (cbn; now rewrite E). rewrite F. now destruct (n_rnd n).
Qed.
Lemma NextElevation_view (n : navigator T) t : NextElevation (vn n) t = rmap vn (NextElevation n t).
Proof.
  unfold NextElevation. change (n_elev (vn n)) with (n_elev n). destruct (n_elev n) as [e|]; [|reflexivity]. cbn [deref bind].
  rewrite rmap_bind. apply bind_ext. reflexivity.
Qed.
Lemma ShuffleElevation_view (n : navigator T) d : ShuffleElevation (vn n) d = rmap vn (ShuffleElevation n d).
Proof. unfold ShuffleElevation. change (n_elev (vn n)) with (n_elev n). now destruct (n_elev n). Qed.

Lemma nextOffline_view (n : navigator T) : nextOffline (vn n) = pv (nextOffline n).
Proof. unfold nextOffline. change (n_skip (vn n)) with (n_skip n). change (n_off (vn n)) with (n_off n). destruct (n_skip n); [reflexivity|]. now destruct (_ <? _)%Z. Qed.
Lemma nextSegment_view (n : navigator T) : nextSegment (vn n) = rmap pv (nextSegment n).
Proof.
  unfold nextSegment. rewrite CurrentTrack_view, bind_rmap, rmap_bind. apply bind_ext. intros [t|]; [|reflexivity].
  cbn [option_map]. change (NumSegments (vt t)) with (NumSegments t). change (n_si (vn n)) with (n_si n). destruct (_ =? _)%Z; [reflexivity|].
  rewrite CurrentSegment_view, rmap_bind. apply bind_ext. reflexivity.
Qed.
Lemma nextTrack_view (n : navigator T) : nextTrack (vn n) = rmap pv (nextTrack n).
Proof.
  unfold nextTrack. cbv zeta.
  set (m := set_idx (set_cur n f0 (n_crd n) (n_ctd n) (n_cd n)) (n_ri n) (n_ti n) 0).
  change (set_idx (set_cur (vn n) f0 (n_crd (vn n)) (n_ctd (vn n)) (n_cd (vn n))) (n_ri (vn n)) (n_ti (vn n)) 0) with (vn m).
  rewrite CurrentRoute_view, bind_rmap, rmap_bind. apply bind_ext. intros [r|]; [|reflexivity].
  cbn [option_map]. unfold NumTracks. change (rt_tracks (vr r)) with (map vt (rt_tracks r)). rewrite zlen_map.
  cbn. destruct (_ <? _)%Z; reflexivity.
Qed.
Lemma nextRoute_view (n : navigator T) : nextRoute (vn n) = vn (nextRoute n).
Proof.
  unfold nextRoute. cbv zeta.
  change (zlen (n_routes (set_cur (vn n) (n_csd (vn n)) f0 (n_ctd (vn n)) (n_cd (vn n))))) with (zlen (n_routes (vn n))). rewrite zlen_routes.
  change (n_ri (set_cur (vn n) (n_csd (vn n)) f0 (n_ctd (vn n)) (n_cd (vn n)))) with (n_ri n).
  change (zlen (n_routes (set_cur n (n_csd n) f0 (n_ctd n) (n_cd n)))) with (zlen (n_routes n)).
  change (n_ri (set_cur n (n_csd n) f0 (n_ctd n) (n_cd n))) with (n_ri n).
  destruct (_ <? _)%Z; reflexivity.
Qed.
Lemma isValidDistance_view (n : navigator T) d : isValidDistance (vn n) d = isValidDistance n d.
Proof. unfold isValidDistance. now rewrite CurrentSegment_view. Qed.

Lemma next_loop_view d draw fuel : forall n, next_loop fuel (vn n) d draw = rmap pv (next_loop fuel n d draw).
Proof.
  induction fuel as [|fuel IH]; intros n; cbn [next_loop]; [reflexivity|].
  rewrite isValidDistance_view, rmap_bind. apply bind_ext. intros [|].
  - change (updateDist (vn n) d) with (vn (updateDist n d)). cbv zeta. rewrite CurrentSegment_view, rmap_bind. apply bind_ext. intros s.
    change (isStartSegment (vn n)) with (isStartSegment n).
    destruct (segment_IsEmpty s); [reflexivity|]. destruct (isStartSegment n); reflexivity.
  - rewrite nextSegment_view, bind_rmap, rmap_bind. apply bind_ext. intros [seg m]. cbn [pv fst snd].
    destruct (segment_IsEmpty seg).
    + rewrite nextTrack_view, bind_rmap, rmap_bind. apply bind_ext. intros [mv k]. cbn [pv fst snd]. cbv zeta.
      assert (E : (if mv then vn k else nextRoute (vn k)) = vn (if mv then k else nextRoute k)) by (destruct mv; [reflexivity|apply nextRoute_view]).
      rewrite E, ToOffline_view, bind_rmap, rmap_bind. apply bind_ext. reflexivity.
    + destruct (segment_hasRelation seg); [apply IH|]. rewrite ToOffline_view, bind_rmap, rmap_bind. apply bind_ext. reflexivity.
Qed.
Lemma fuel_view (n : navigator T) : nav_fuel (vn n) = nav_fuel n.
Proof.
  unfold nav_fuel. f_equal. change (n_routes (vn n)) with (map vr (n_routes n)).
  induction (n_routes n) as [|r l IH]; cbn [map fold_right]; [reflexivity|]. rewrite IH.
  change (rt_tracks (vr r)) with (map vt (rt_tracks r)). generalize (fold_right (fun r m => fold_right (fun t m => Nat.max (List.length (tk_segments t)) m) m (rt_tracks r)) O l).
  intros k. induction (rt_tracks r) as [|t ts IHt]; cbn [map fold_right]; [reflexivity|]. now rewrite IHt.
Qed.
Lemma NextLocation_view (n : navigator T) tick speed draw : NextLocation (vn n) tick speed draw = rmap pv (NextLocation n tick speed draw).
Proof.
  unfold NextLocation. change (n_routes (vn n)) with (map vr (n_routes n)). destruct (n_routes n) as [|r l]; [reflexivity|]. cbn [map].
  rewrite nextOffline_view. destruct (nextOffline n) as [off m]. cbn [pv fst snd]. destruct off; [reflexivity|].
  rewrite fuel_view. apply next_loop_view.
Qed.

(** the published state *)
Lemma nav_Update_view (n : navigator T) st : nav_Update (vn n) (view_state keep st) = rmap (view_state keep) (nav_Update n st).
Proof.
  unfold nav_Update. cbv zeta. rewrite RouteDistance_view, TrackDistance_view, SegmentDistance_view, CurrentRoute_view, CurrentTrack_view, CurrentBearing_view.
  change (normalizeDeviceState (view_state keep st)) with (view_state keep (normalizeDeviceState st)).
  set (d := normalizeDeviceState st). clearbody d.
  change (pde_navigator (view_state keep d)) with (pde_navigator d). change (pde_location (view_state keep d)) with (pde_location d).
  change (n_elev (vn n)) with (n_elev n).
  rewrite rmap_bind. apply bind_ext. intros rd. rewrite rmap_bind. apply bind_ext. intros td. rewrite rmap_bind. apply bind_ext. intros sd.
  rewrite rmap_bind. apply bind_ext. intros nv. rewrite bind_rmap, rmap_bind. apply bind_ext. intros r. rewrite bind_rmap, rmap_bind. apply bind_ext. intros t.
  rewrite rmap_bind. apply bind_ext. intros loc. rewrite rmap_bind. apply bind_ext. intros b. rewrite rmap_bind. apply bind_ext. intros e.
  rewrite rmap_bind. apply bind_ext. intros u. rewrite rmap_bind. apply bind_ext. intros l1. rewrite rmap_bind. apply bind_ext. intros l2.
  destruct r, t; reflexivity.
Qed.

(** ** calls that change the routes *)
Lemma hasRoute_view (l : list (route T)) id : hasRoute (map vr l) id = hasRoute l id.
Proof. unfold hasRoute. induction l as [|r l IH]; cbn; [reflexivity|]. now rewrite IH. Qed.
Lemma hasRoute_eq (l l' : list (route T)) id : map vr l = map vr l' -> hasRoute l id = hasRoute l' id.
Proof. intros H. rewrite <- (hasRoute_view l), H. apply hasRoute_view. Qed.
Lemma add_routes_eq (rs : list (option (route T))) : forall l l' ok, map vr l = map vr l' ->
  map vr (fst (add_routes l rs ok)) = map vr (fst (add_routes l' rs ok)) /\ snd (add_routes l rs ok) = snd (add_routes l' rs ok).
Proof.
  induction rs as [|[x|] rs IH]; intros l l' ok H; cbn [add_routes]; [now split| |now apply IH].
  rewrite (hasRoute_eq l l' (rt_id x) H). destruct (hasRoute l' (rt_id x)); apply IH; [exact H|]. rewrite !map_app. now rewrite H.
Qed.
Lemma AddRoute_view (n : navigator T) rs : pv (nav_AddRoute (vn n) rs) = pv (nav_AddRoute n rs).
Proof.
  unfold nav_AddRoute. destruct rs as [|x rs]; [unfold pv; cbn; now rewrite vn_idem|].
  assert (H : map vr (n_routes (vn n)) = map vr (n_routes n)) by (cbn; rewrite map_map; apply map_ext, vr_idem).
  destruct (add_routes_eq (x :: rs) _ _ 0 H) as [H1 H2].
  destruct (add_routes (n_routes (vn n)) (x :: rs) 0) as [l ok], (add_routes (n_routes n) (x :: rs) 0) as [l' ok']. cbn in H1, H2. subst ok'.
  assert (E : vn (set_routes (vn n) l) = vn (set_routes n l')).
  { unfold view_nav, set_routes. cbn. rewrite H1. now destruct (n_skip n). }
  unfold pv. cbn [fst snd]. destruct (0 <? ok)%Z; [|now rewrite E].
  f_equal. unfold nav_nextVersion. change (vn (set_ver (nav_Reset (set_routes (vn n) l)) (n_ver (nav_Reset (set_routes (vn n) l)) + 1)))
    with (set_ver (vn (nav_Reset (set_routes (vn n) l))) (n_ver n + 1)).
  change (vn (set_ver (nav_Reset (set_routes n l')) (n_ver (nav_Reset (set_routes n l')) + 1)))
    with (set_ver (vn (nav_Reset (set_routes n l'))) (n_ver n + 1)).
  now rewrite <- !Reset_view, E.
Qed.
Lemma ResetRoutes_view (n : navigator T) : nav_ResetRoutes (vn n) = pv (nav_ResetRoutes n).
Proof. unfold nav_ResetRoutes. change (n_routes (vn n)) with (map vr (n_routes n)). now destruct (n_routes n). Qed.
Lemma RemoveRoute_view (n : navigator T) id : nav_RemoveRoute (vn n) id = pv (nav_RemoveRoute n id).
Proof.
  unfold nav_RemoveRoute. destruct (_ || _)%bool; [reflexivity|]. change (n_routes (vn n)) with (map vr (n_routes n)). rewrite find_index_map.
  change (fun x => String.eqb (rt_id (vr x)) id) with (fun x : route T => String.eqb (rt_id x) id).
  destruct (find_index _ _) as [i|]; [|reflexivity]. unfold pv. cbn [fst snd]. rewrite <- Reset_view. do 2 f_equal.
  unfold nav_nextVersion, set_ver, set_routes, view_nav. cbn. now rewrite map_del_nth.
Qed.
Lemma route_RemoveTrack_view (r : route T) id :
  route_RemoveTrack (vr r) id = (fst (route_RemoveTrack r id), vr (snd (route_RemoveTrack r id))).
Proof.
  unfold route_RemoveTrack. destruct (_ || _)%bool; [reflexivity|]. change (rt_tracks (vr r)) with (map vt (rt_tracks r)). rewrite find_index_map.
  change (fun x => String.eqb (tk_id (vt x)) id) with (fun x : track T => String.eqb (tk_id x) id).
  destruct (find_index _ _) as [i|]; [|reflexivity]. cbn [fst snd]. f_equal.
  unfold route_nextVersion, route_updateState, route_setTracks, view_route. cbn. rewrite map_del_nth, <- (map_del_nth vt), fold_left_map'. reflexivity.
Qed.
Lemma RemoveTrack_view (n : navigator T) r t : nav_RemoveTrack (vn n) r t = pv (nav_RemoveTrack n r t).
Proof.
  unfold nav_RemoveTrack. destruct (_ || _)%bool; [reflexivity|]. change (n_routes (vn n)) with (map vr (n_routes n)). rewrite find_index_map.
  change (fun x => String.eqb (rt_id (vr x)) r) with (fun x : route T => String.eqb (rt_id x) r).
  destruct (find_index _ _) as [i|]; [|reflexivity]. rewrite nth_error_map. destruct (nth_error _ i) as [x|]; [|reflexivity]. cbn [option_map].
  rewrite route_RemoveTrack_view. destruct (route_RemoveTrack x t) as [[] x']; [|reflexivity]. cbn [fst snd].
  unfold pv. cbn [fst snd]. f_equal. unfold nav_nextVersion, set_ver, set_routes, view_nav. cbn. now rewrite map_set_nth.
Qed.

Lemma upd_track_view (r : route T) i f : (forall t, vt (f (vt t)) = vt (f t)) -> vr (upd_track (vr r) i f) = vr (upd_track r i f).
Proof.
  intros H. unfold upd_track. change (rt_tracks (vr r)) with (map vt (rt_tracks r)). rewrite nth_error_map.
  destruct (nth_error (rt_tracks r) i) as [t|]; [|apply vr_idem]. cbn [option_map].
  unfold view_route. cbn. rewrite vp_idem. f_equal. rewrite !map_set_nth, H. f_equal. rewrite map_map. apply map_ext, vt_idem.
Qed.
Lemma run_route_view (r : route T) o : vr (run_route (vr r) o) = vr (run_route r o).
Proof.
  destruct o; cbn [run_route].
  - destruct t as [t|]; [|apply vr_idem]. unfold AddTrack, route_nextVersion, route_updateState, route_setTracks, view_route. cbn.
    rewrite vp_idem. rewrite !map_app, map_map. cbn. rewrite !fold_left_app, fold_left_map'. cbn. do 2 f_equal.
    apply map_ext, vt_idem.
  - rewrite route_RemoveTrack_view. cbn [snd]. apply vr_idem.
  - unfold TrackByID. destruct (_ || _)%bool; [apply vr_idem|]. change (rt_tracks (vr r)) with (map vt (rt_tracks r)).
    assert (E : find (fun t => String.eqb (tk_id t) id) (map vt (rt_tracks r)) = option_map vt (find (fun t => String.eqb (tk_id t) id) (rt_tracks r))).
    { induction (rt_tracks r) as [|t l IH]; cbn; [reflexivity|]. now destruct (String.eqb _ _). }
    rewrite E. clear E. destruct (find _ (rt_tracks r)); [|apply vr_idem]. cbn [snd option_map].
    unfold route_nextVersion, view_route. cbn [rt_id rt_dist rt_color rt_name rt_tracks rt_props rt_version]. now rewrite vp_idem, vts_idem.
  - unfold route_ChangeName. destruct (ParseName name); [|apply vr_idem]. cbn [snd option_map].
    unfold route_nextVersion, view_route. cbn [rt_id rt_dist rt_color rt_name rt_tracks rt_props rt_version]. now rewrite vp_idem, vts_idem.
  - unfold route_ChangeColor. destruct hex; [|apply vr_idem]. cbn [snd option_map].
    unfold route_nextVersion, view_route. cbn [rt_id rt_dist rt_color rt_name rt_tracks rt_props rt_version]. now rewrite vp_idem, vts_idem.
  - unfold route_Props at 1. cbn. unfold route_Props, view_route, route_setProps. cbn. rewrite vts_idem. now destruct (rt_props r).
  - apply upd_track_view. intros t. unfold track_ChangeName. destruct (ParseName name); [|apply vt_idem]. unfold view_track. cbn. now rewrite vp_idem.
  - apply upd_track_view. intros t. unfold track_ChangeColor. destruct parsed; [|apply vt_idem]. unfold view_track. cbn. now rewrite vp_idem.
  - apply upd_track_view. intros t. unfold track_Props. cbn. destruct (tk_props t); reflexivity.
Qed.
Lemma mutate_view (n : navigator T) i o : vn (nav_mutateRoute (vn n) i (fun r => run_route r o)) = vn (nav_mutateRoute n i (fun r => run_route r o)).
Proof.
  unfold nav_mutateRoute. change (n_routes (vn n)) with (map vr (n_routes n)). rewrite nth_error_map.
  destruct (nth_error _ i) as [r|]; [|apply vn_idem]. cbn [option_map]. 
  unfold view_nav, set_routes. cbn. f_equal; [|now destruct (n_skip n)]. rewrite !map_set_nth, run_route_view. now rewrite vrs_idem.
Qed.
End ViewNav.
