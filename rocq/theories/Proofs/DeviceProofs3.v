(** Device: published state, sensors, battery, routes list, model. *)
From Coq Require Import Lia.
From Verif.Model Require Import Base Num Geo Curve PropMap Types Pb TypesSnap Track Route Navigator Device.
From Verif.Spec Require Import ListSpec TrackSpec RouteSpec NavSpec NumLaws RealSpec TypesSpec DeviceSpec.
From Verif.Proofs Require Import BaseLemmas NavLemmas NavSteps NavProofs NavProofs2 NavProofs3 TypesProofs DeviceLemmas DeviceProofs DeviceProofs2.
Open Scope num_scope.

Section D.
Context {T : Type} {N : Num T} {J : JsonLib T} {U : UtmLib T}.
Implicit Types (d : device T) (n : navigator T).

(** ** sensors *)

Definition keys (l : list (sensor T)) := map (fun s => (s_id s, s_name s)) l.
Lemma keys_ids (l : list (sensor T)) : map (@s_id T) l = map fst (keys l).
Proof. unfold keys. rewrite map_map. reflexivity. Qed.

Lemma keys_Next t (l l' : list (sensor T)) : mapM (fun s => sensor_Next s t) l = Ret l' -> keys l' = keys l.
Proof.
  revert l'. induction l as [|s l IH]; intros l'; cbn [mapM]; [now intros [= <-]|].
  unfold sensor_Next at 1. destruct (curve_Point (s_gen s) t) as [[p g]| |]; cbn [bind]; try discriminate.
  destruct (mapM _ l) as [r| |]; cbn [bind]; try discriminate. intros [= <-]. cbn. f_equal. now apply IH.
Qed.
Lemma keys_Shuffle dr (l : list (sensor T)) : forall i, keys (shuffle_sensors i l dr) = keys l.
Proof. induction l as [|s l IH]; intros i; cbn; [reflexivity|]. f_equal. apply IH. Qed.

Lemma keys_op (s s' : sensor T) o : run_sensor1 s o = Ret s' -> (s_id s', s_name s') = (s_id s, s_name s).
Proof.
  unfold run_sensor1. destruct o; cbn.
  - now intros [= <-].
  - unfold sensor_Next. destruct (curve_Point _ _) as [[p g]| |]; cbn; try discriminate. now intros [= <-].
Qed.
Lemma keys_set_nth (l : list (sensor T)) s s' : forall i, nth_error l i = Some s -> (s_id s', s_name s') = (s_id s, s_name s) ->
  keys (set_nth i s' l) = keys l.
Proof.
  induction l as [|a l IH]; intros [|i] H K; cbn in *; try discriminate; auto.
  - injection H as ->. now rewrite K.
  - f_equal. eapply IH; eauto.
Qed.

Lemma updateRoutes_sens d d' : updateRoutes d = Ret d' ->
  d_sensors d' = d_sensors d /\ pde_sensors (d_state d') = pde_sensors (d_state d).
Proof. intros H. apply updateRoutes_inv in H. destruct H as (_ & _ & _ & H1 & _ & H2 & _). rewrite H1, H2. auto. Qed.

Lemma Next_keys d tick x b d' : Next_locked d tick x = Ret (b, d') ->
  keys (d_sensors d') = keys (d_sensors d) /\ (entries_match d -> entries_match d').
Proof.
  intros E. destruct (n_routes (d_nav d)) eqn:Er.
  { unfold Next_locked in E. rewrite Er in E. injection E as <- <-. auto. }
  apply Next_locked_inv in E; [|congruence]. clear Er. destruct E as (d3 & t & NB & St).
  destruct NB as [B1 B2 B3 B4 B5 B6 B7]. unfold frame in B1.
  assert (S3 : d_sensors d3 = d_sensors d) by congruence.
  assert (P3 : pde_sensors (d_state d3) = pde_sensors (d_state d)) by (rewrite B7; reflexivity).
  inversion St as [n2 n3 S1 S2 Eb Ed|n2 n3 n4 d4 d5 S1 S2 S4' S4 S5 S6 S7 S8 S9 Eb Ed|n2 n3 ss d4 d5 d6 S1 S2 S4 S4' S5 S6 Eb Ed]; subst.
  - cbn. unfold entries_match. cbn. rewrite S3, P3. auto.
  - apply updateState_inv in S9. pose proof (rf_same _ _ S9) as Q.
    assert (K : keys (d_sensors d4) = keys (d_sensors d)) by (rewrite S5, keys_Shuffle; now rewrite S3).
    split; [rewrite Q; exact K|]. intros M. eapply refreshed_entries; [exact S9|].
    unfold entries_match in *. fold (keys (d_sensors d4)). rewrite K, S8. cbn. rewrite P3. exact M.
  - apply updateState_inv in S6. pose proof (rf_same _ _ S6) as Q.
    pose proof (keys_Next _ _ _ S4) as K.
    assert (A : d_sensors d5 = ss /\ pde_sensors (d_state d5) = pde_sensors (d_state d)).
    { destruct S5 as [[-> _]|[_ S5]]; [split; [reflexivity|exact P3]|]. apply updateRoutes_sens in S5.
      destruct S5 as [-> ->]. split; [reflexivity|exact P3]. }
    destruct A as [A1 A2].
    split; [rewrite Q; cbn; now rewrite A1|]. intros M. eapply refreshed_entries; [exact S6|].
    unfold entries_match in *. fold (keys (d_sensors d5)). rewrite A1, K, A2. exact M.
Qed.

Lemma add_sensors_spec l : forall (cur : list (sensor T)) ok, exists k, (0 <= k)%Z /\
  add_sensors cur l ok = (cur ++ unseen (map (@s_id T) cur) l, (ok + k)%Z) /\
  (k = 0%Z -> unseen (map (@s_id T) cur) l = []).
Proof.
  assert (Ext : forall l ids ids', (forall i, In i ids <-> In i ids') -> unseen ids l = unseen (T:=T) ids' l).
  { clear. induction l as [|[s|] l IH]; intros ids ids' H; cbn; auto.
    destruct (in_dec _ _ ids) as [i|i], (in_dec _ _ ids') as [j|j].
    - now apply IH.
    - exfalso. apply j, H, i.
    - exfalso. apply i, H, j.
    - f_equal. apply IH. intros a. cbn. rewrite H. tauto. }
  induction l as [|[s|] l IH]; intros cur ok; cbn.
  - exists 0%Z. rewrite app_nil_r. repeat split; try lia. do 2 f_equal. lia.
  - assert (H : hasSensor cur (s_id s) = true <-> In (s_id s) (map (@s_id T) cur)).
    { unfold hasSensor. rewrite existsb_exists. split.
      - intros (y & Y1 & Y2). apply String.eqb_eq in Y2. rewrite <- Y2. now apply in_map.
      - intros H. apply in_map_iff in H. destruct H as (y & Y1 & Y2). exists y. split; auto. apply String.eqb_eq. exact Y1. }
    destruct (in_dec _ _ _) as [i|i].
    + rewrite (proj2 H i). apply IH.
    + destruct (hasSensor cur (s_id s)) eqn:Hs; [exfalso; apply i, H; reflexivity|].
      destruct (IH (cur ++ [s]) (ok + 1)%Z) as (k & K1 & K2 & K3). exists (k + 1)%Z. split; [lia|].
      assert (Ex : unseen (map (@s_id T) (cur ++ [s])) l = unseen (s_id s :: map (@s_id T) cur) l).
      { apply Ext. intros a. rewrite map_app. rewrite in_app_iff. cbn. tauto. }
      rewrite K2, Ex, <- app_assoc. cbn. split; [f_equal; lia|lia].
  - apply IH.
Qed.

Lemma unseen_NoDup l : forall ids : list string, NoDup ids -> NoDup (ids ++ map (@s_id T) (unseen ids l)).
Proof.
  induction l as [|[s|] l IH]; intros ids H; cbn; [now rewrite app_nil_r| |apply IH, H].
  destruct (in_dec _ _ ids) as [i|i]; [apply IH, H|]. cbn.
  specialize (IH (s_id s :: ids)). cbn in IH.
  apply NoDup_Add with (a := s_id s) (l := ids ++ map (@s_id T) (unseen (s_id s :: ids) l)); [apply Add_app|].
  specialize (IH (NoDup_cons _ i H)). inversion IH; auto.
Qed.

Lemma C45_add_proof d l : d_sensors (AddSensor d l) = d_sensors d ++ unseen (sensor_ids d) l.
Proof.
  unfold AddSensor. destruct (add_sensors_spec l (d_sensors d) 0) as (k & K1 & K2 & K3). rewrite K2.
  destruct (0 <? _)%Z; reflexivity.
Qed.

Lemma AddSensor_entries d l : entries_match d -> entries_match (AddSensor d l).
Proof.
  unfold AddSensor. destruct (add_sensors_spec l (d_sensors d) 0) as (k & K1 & K2 & K3). rewrite K2.
  destruct (0 <? _)%Z eqn:E.
  - intros _. unfold entries_match, updateSensors. cbn. rewrite map_map. reflexivity.
  - apply Z.ltb_ge in E. rewrite K3 by lia. rewrite app_nil_r. intros H. exact H.
Qed.

Lemma filter_all {A} (f : A -> bool) l : (forall x, In x l -> f x = true) -> filter f l = l.
Proof. induction l as [|a l IH]; cbn; intros H; [reflexivity|]. rewrite H by auto. f_equal. apply IH. auto. Qed.

Lemma del_first_filter id (l : list (sensor T)) : NoDup (map (@s_id T) l) ->
  match find_index (fun s => String.eqb (s_id s) id) l with
  | None => ~ In id (map (@s_id T) l)
  | Some i => In id (map (@s_id T) l) /\ del_nth i l = filter (other_id id) l
  end.
Proof.
  assert (Sh : forall (l : list (sensor T)) i, find_index_from (fun s => String.eqb (s_id s) id) l (S i) =
     option_map S (find_index_from (fun s => String.eqb (s_id s) id) l i)).
  { induction l0 as [|a l0 IH0]; intros i; cbn; [reflexivity|]. destruct (String.eqb _ _); [reflexivity|apply IH0]. }
  unfold find_index. induction l as [|s l IH]; cbn; intros H; [auto|]. inversion H as [|a b H1 H2]; subst.
  rewrite Sh. unfold other_id at 1. destruct (String.eqb_spec (s_id s) id) as [E|E]; cbn.
  - subst id. split; [auto|]. symmetry. apply filter_all. intros x Hx. unfold other_id.
    destruct (String.eqb_spec (s_id x) (s_id s)) as [F|F]; [|reflexivity]. exfalso. apply H1. rewrite <- F. now apply in_map.
  - specialize (IH H2). destruct (find_index_from _ l 0) as [i|]; cbn.
    + destruct IH as [I1 I2]. split; [auto|]. now rewrite I2.
    + intros [K|K]; auto.
Qed.

Lemma C45_remove_proof d id : NoDup (sensor_ids d) ->
  (fst (RemoveSensor d id) = true <-> id <> ""%string /\ In id (sensor_ids d)) /\
  d_sensors (snd (RemoveSensor d id)) =
    (if fst (RemoveSensor d id) then filter (other_id id) (d_sensors d) else d_sensors d) /\
  d_nav (snd (RemoveSensor d id)) = d_nav d.
Proof.
  intros H. unfold RemoveSensor. pose proof (del_first_filter id _ H) as Q.
  destruct (slen id =? 0)%Z eqn:E.
  - cbn. split; [|auto]. split; [discriminate|]. intros [K _]. exfalso. apply K.
    apply Z.eqb_eq in E. destruct id; [reflexivity|discriminate].
  - assert (K : id <> ""%string) by (intros ->; discriminate).
    destruct (find_index _ _) as [i|]; cbn.
    + destruct Q as [Q1 Q2]. rewrite Q2. tauto.
    + split; [|auto]. split; [discriminate|]. intros [_ K']. now destruct Q.
Qed.

Lemma C45_by_id_proof d id s : NoDup (sensor_ids d) ->
  SensorByID d id = Some s <-> In s (d_sensors d) /\ s_id s = id.
Proof.
  unfold sensor_ids, SensorByID. induction (d_sensors d) as [|a l IH]; cbn; intros H.
  - split; [discriminate|tauto].
  - inversion H as [|p q H1 H2]; subst. destruct (String.eqb_spec (s_id a) id) as [E|E].
    + split; [intros [= ->]; auto|]. intros [[->|K] F]; [reflexivity|]. subst id.
      exfalso. apply H1. rewrite <- F. now apply in_map.
    + rewrite IH by assumption. intuition congruence.
Qed.

Lemma sensors_step d o d' : run_dev d o = Ret d' -> entries_match d -> NoDup (sensor_ids d) ->
  entries_match d' /\ NoDup (sensor_ids d') /\
  match o with
  | DAddSensor l => keys (d_sensors d') = keys (d_sensors d) ++ keys (unseen (sensor_ids d) l)
  | DResetSensors => keys (d_sensors d') = []
  | DRemoveSensor id => True
  | _ => keys (d_sensors d') = keys (d_sensors d)
  end.
Proof.
  intros E M K.
  assert (Same : d_sensors d' = d_sensors d -> pde_sensors (d_state d') = pde_sensors (d_state d) ->
     entries_match d' /\ NoDup (sensor_ids d') /\ keys (d_sensors d') = keys (d_sensors d)).
  { intros A B. unfold entries_match, sensor_ids in *. rewrite A, B. auto. }
  assert (Keys : forall e, keys (d_sensors e) = keys (d_sensors d) -> (entries_match d -> entries_match e) ->
     entries_match e /\ NoDup (sensor_ids e) /\ keys (d_sensors e) = keys (d_sensors d)).
  { intros e A B. split; [auto|]. split; [|exact A]. unfold sensor_ids in *. rewrite keys_ids in *. now rewrite A. }
  destruct o; cbn [run_dev] in E;
    try (injection E as <-; apply Same; reflexivity).
  - injection E as <-. apply Same; unfold SetModel; destruct (NewModel m); reflexivity.
  - injection E as <-. apply Same; unfold SetColor; destruct hex; reflexivity.
  - injection E as <-. split; [now apply AddSensor_entries|]. unfold sensor_ids at 1.
    rewrite C45_add_proof. split; [|apply map_app]. rewrite map_app. now apply unseen_NoDup.
  - injection E as <-. split; [reflexivity|]. split; [constructor|reflexivity].
  - injection E as <-. destruct (C45_remove_proof d id K) as (_ & R2 & _). split; [|split; [|exact I]].
    + unfold RemoveSensor. destruct (_ =? _)%Z; [exact M|]. destruct (find_index _ _); [|exact M].
      unfold entries_match, updateSensors. cbn. rewrite map_map. reflexivity.
    + unfold sensor_ids at 1. rewrite R2. destruct (fst _); [|exact K].
      clear R2 Same Keys M. unfold sensor_ids in K. induction (d_sensors d) as [|a l IH]; cbn; [constructor|].
      inversion K as [|p q K1 K2]; subst. destruct (other_id id a); [|auto]. cbn. constructor; [|auto].
      intros F. apply K1. apply in_map_iff in F. destruct F as (y & Y1 & Y2). apply filter_In in Y2.
      rewrite <- Y1. apply in_map. tauto.
  - destruct (nth_error _ _) eqn:F; [|injection E as <-; apply Same; reflexivity].
    destruct (run_sensor1 _ _) as [s'| |] eqn:G; try discriminate. injection E as <-.
    pose proof (keys_set_nth _ _ _ _ F (keys_op _ _ _ G)) as Q.
    apply Keys; [exact Q|]. intros _. unfold entries_match in *. cbn.
    fold (keys (set_nth i s' (d_sensors d))). rewrite Q. exact M.
  - unfold AddRoute in E. destruct (nav_AddRoute _ _) as [[e|] n] eqn:A.
    + injection E as <-. apply Same; reflexivity.
    + destruct (updateRoutes _) as [d1| |] eqn:F; cbn in E; try discriminate. injection E as <-.
      apply updateRoutes_sens in F. destruct F as [F1 F2]. now apply Same.
  - unfold RemoveRoute in E. destruct (nav_RemoveRoute _ _) as [[] n] eqn:A.
    + destruct (updateRoutes _) as [d1| |] eqn:F; cbn in E; try discriminate. injection E as <-.
      apply updateRoutes_sens in F. destruct F as [F1 F2]. now apply Same.
    + injection E as <-. apply Same; reflexivity.
  - unfold RemoveTrack in E. destruct (nav_RemoveTrack _ _ _) as [[] n] eqn:A.
    + destruct (updateRoutes _) as [d1| |] eqn:F; cbn in E; try discriminate. injection E as <-.
      apply updateRoutes_sens in F. destruct F as [F1 F2]. now apply Same.
    + injection E as <-. apply Same; reflexivity.
  - unfold ResetRoutes in E. destruct (nav_ResetRoutes _) as [[] n] eqn:A.
    + destruct (updateRoutes _) as [d1| |] eqn:F; cbn in E; try discriminate. injection E as <-.
      apply updateRoutes_sens in F. destruct F as [F1 F2]. now apply Same.
    + injection E as <-. apply Same; reflexivity.
  - injection E as <-. apply Same; unfold device_move; destruct (NextRoute _); reflexivity.
  - injection E as <-. apply Same; unfold device_move; destruct (PrevRoute _); reflexivity.
  - injection E as <-. apply Same; unfold device_move; destruct (MoveToRouteByID _ _); reflexivity.
  - injection E as <-. apply Same; unfold device_move; destruct (MoveToTrackByID _ _ _); reflexivity.
  - injection E as <-. apply Same; unfold device_move; destruct (MoveToRoute _ _); reflexivity.
  - injection E as <-. apply Same; unfold device_move; destruct (MoveToTrack _ _ _); reflexivity.
  - injection E as <-. apply Same; unfold device_move; destruct (MoveToSegment _ _ _ _); reflexivity.
  - injection E as <-. apply Same; unfold device_move; destruct (DestinationTo _ _); reflexivity.
  - unfold device_ToOffline in E. destruct (ToOffline _ _) as [n| |] eqn:A; try discriminate. injection E as <-.
    apply Same; reflexivity.
  - injection E as <-. apply Same; unfold device_IsFinish; destruct (IsFinish _); reflexivity.
  - unfold device_Update in E. destruct (updateState d) as [d1| |] eqn:F; cbn [bind] in E; try discriminate.
    destruct (updateRoutes d1) as [d2| |] eqn:G; cbn [bind] in E; try discriminate. injection E as <-.
    apply updateRoutes_sens in G. destruct G as [G1 G2]. apply updateState_inv in F.
    apply Keys; [|intros _; unfold entries_match, updateSensors; cbn; rewrite map_map; reflexivity].
    cbn. rewrite G1. rewrite (rf_same _ _ F). reflexivity.
  - unfold Next in E. destruct free.
    + destruct (Next_locked d tick x) as [[b d1]| |] eqn:F; cbn in E; try discriminate. injection E as <-.
      apply Next_keys in F. apply Keys; apply F.
    + injection E as <-. apply Same; reflexivity.
  - injection E as <-. apply Same; unfold mount; destruct (_ =? _)%Z; reflexivity.
  - injection E as <-. apply Same; unfold unmount; destruct (_ =? _)%Z; reflexivity.
  - destruct (run_nav _ _) as [q| |]; cbn [bind] in E; try discriminate.
    destruct (device_Snapshot d) as [q'| |]; cbn [bind] in E; try discriminate. injection E as <-. now apply Same.
Qed.

(** induction over a successful history *)
Lemma run_devs_inv (P : device T -> Prop) : (forall d o d', P d -> run_dev d o = Ret d' -> P d') ->
  forall ops d d', P d -> run_devs d ops = Ret d' -> P d'.
Proof.
  intros S0. induction ops as [|o ops IH]; intros d d' H E; cbn in E; [now injection E as <-|].
  destruct (run_dev d o) as [d1| |] eqn:F; try discriminate. cbn in E. eauto.
Qed.

Lemma C45_history_proof opts x d0 ops d : built opts x d0 -> run_devs d0 ops = Ret d ->
  NoDup (sensor_ids d) /\ entries_match d.
Proof.
  intros H. apply (run_devs_inv (fun d => NoDup (sensor_ids d) /\ entries_match d)).
  - intros e o e' [A B] E. destruct (sensors_step _ _ _ E B A) as (C & D & _). auto.
  - split.
    + apply built_inv in H. destruct H as (o & nav & sp & b & st & o' & -> & _). constructor.
    + apply (dk_entries _ (built_ok _ _ _ H)).
Qed.

(** ** published state *)

Lemma C44_next_proof d tick x d' : entries_match d -> Next d true tick x = Ret (true, d') ->
  navigator_published d' /\ ids_published (fun _ => True) d' /\ battery_published d' /\ sensors_published d' /\
  pde_speed (d_state d') = speed_Value (d_speed d').
Proof.
  intros M E. pose proof (Next_keys _ _ _ _ _ E) as [K1 K2].
  assert (Hr : n_routes (d_nav d) <> []).
  { intros H. rewrite C42_proof in E by exact H. discriminate. }
  destruct (Next_time _ _ _ _ _ Hr E) as (_ & _ & Sp & _).
  apply Next_locked_inv in E; [|exact Hr]. destruct E as (d3 & t & NB & St).
  inversion St as [|?|n2 n3 ss d4 d5 d6 S1 S2 S4 S4' S5 S6 Eb Ed]; subst.
  apply updateState_inv in S6. split; [apply S6|]. split; [apply S6|]. split; [apply S6|]. split; [|exact Sp].
  apply (rf_sens _ _ S6). unfold entries_match.
  assert (A : d_sensors d5 = ss /\ pde_sensors (d_state d5) = pde_sensors (d_state d)).
  { assert (P3 : pde_sensors (d_state d3) = pde_sensors (d_state d)) by (rewrite (nb_state _ _ _ _ _ NB); reflexivity).
    destruct S5 as [[-> _]|[_ S5]]; [split; [reflexivity|exact P3]|]. apply updateRoutes_sens in S5.
    destruct S5 as [-> ->]. split; [reflexivity|exact P3]. }
  destruct A as [-> ->]. fold (keys ss). rewrite (keys_Next _ _ _ S4). exact M.
Qed.

Lemma touch_view (r : route T) : route_struct (touch_props r) = route_struct r.
Proof.
  unfold touch_props, route_Props. destruct r as [a b c e f [p|] g]; cbn; unfold route_struct; cbn; f_equal;
  rewrite map_map; apply map_ext; intros t; unfold track_Props, track_struct; destruct (tk_props t); reflexivity.
Qed.

Lemma touch_struct n : nav_struct (set_routes n (map touch_props (n_routes n))) = nav_struct n.
Proof. unfold nav_struct. cbn. rewrite map_map. apply map_ext, touch_view. Qed.

(** what is published is a function of the structure *)
Definition view_of (l : list (string * string * string * T * list (string * string * string * T * list (segment T)))) :=
  map (fun r => let '(i, _, c, s, ts) := r in
         (i, s, c, map (fun t => let '(i, _, c, s, l) := t in (i, s, zlen l, c)) ts)) l.
Lemma view_struct n :
  map (fun r => (rt_id r, rt_dist r, rt_color r,
         map (fun t => (tk_id t, tk_dist t, zlen (tk_segments t), tk_color t)) (rt_tracks r))) (n_routes n) =
  view_of (nav_struct n).
Proof.
  unfold view_of, nav_struct. rewrite map_map. apply map_ext. intros r. unfold route_struct. cbn.
  rewrite map_map. reflexivity.
Qed.

Definition pview d := match pde_routes (d_state d) with
  | Some l => Some (map (fun r => (pdr_route_id r, pdr_distance r, pdr_color r,
           map (fun t => (pdt_track_id t, pdt_distance t, pdt_num_segments t, pdt_color t)) (pdr_tracks r)))
        (pds_routes l))
  | None => None end.
Lemma published_view d : routes_published d <-> pview d = Some (view_of (nav_struct (d_nav d))).
Proof.
  unfold routes_published, pview. rewrite view_struct. split.
  - intros (l & -> & ->). reflexivity.
  - destruct (pde_routes (d_state d)) as [l|]; [|discriminate]. intros [= H]. eauto.
Qed.

Lemma updateRoutes_published d d' : updateRoutes d = Ret d' -> routes_published d' /\ d_ns d' = nav_Sum (d_nav d').
Proof.
  intros H. apply updateRoutes_inv in H. destruct H as (_ & _ & _ & _ & _ & H1 & H2 & H3 & _). split; [|exact H3].
  apply published_view. rewrite H2, touch_struct. unfold pview. rewrite H1. cbn. f_equal.
  rewrite <- view_struct, map_map. apply map_ext. intros r. unfold droute_of. cbn. f_equal. rewrite map_map. reflexivity.
Qed.

(** [ns] is the version at which the list was last published *)
Definition fresh_or_behind d : Prop :=
  routes_published d /\ d_ns d = nav_Sum (d_nav d) \/ lex_lt (d_ns d) (nav_Sum (d_nav d)).

Lemma carried d los d' : fresh_or_behind d -> run_navs (d_nav d) los = Ret (d_nav d') ->
  pde_routes (d_state d') = pde_routes (d_state d) -> d_ns d' = d_ns d -> fresh_or_behind d'.
Proof.
  intros H E Ep Es. apply C33_mono_proof in E.
  assert (Pv : pview d' = pview d) by (unfold pview; now rewrite Ep).
  unfold fresh_or_behind in *. rewrite published_view in *. rewrite Es, Pv.
  destruct E as [[E1 E2]|E].
  - rewrite E1, E2. exact H.
  - right. destruct H as [[_ H]|H].
    + rewrite H. exact E.
    + eapply lex_trans; eauto.
Qed.

Lemma updateState_routes d d' : updateState d = Ret d' ->
  pde_routes (d_state d') = pde_routes (d_state d) /\ d_ns d' = d_ns d /\ d_nav d' = d_nav d.
Proof.
  intros F. apply updateState_inv in F. pose proof (rf_ident _ _ F) as Q. unfold ident in Q.
  injection Q as _ _ _ _ _ _ Q _ _. rewrite Q. rewrite (rf_same _ _ F). auto.
Qed.

Lemma Next_routes d tick x b d' : fresh_or_behind d -> Next_locked d tick x = Ret (b, d') ->
  fresh_or_behind d' /\ (b = true -> routes_published d').
Proof.
  intros H E. destruct (next_trace _ _ _ _ _ E) as (los & _ & Tr).
  destruct (n_routes (d_nav d)) eqn:Er.
  { unfold Next_locked in E. rewrite Er in E. injection E as <- <-. split; [exact H|discriminate]. }
  apply Next_locked_inv in E; [|congruence]. clear Er. destruct E as (d3 & t & NB & St).
  destruct NB as [B1 B2 B3 B4 B5 B6 B7]. unfold frame in B1.
  assert (S3 : d_ns d3 = d_ns d) by congruence.
  assert (P3 : pde_routes (d_state d3) = pde_routes (d_state d)) by (rewrite B7; reflexivity).
  inversion St as [n2 n3 S1 S2 Eb Ed|n2 n3 n4 d4 d5 S1 S2 S4' S4 S5 S6 S7 S8 S9 Eb Ed|n2 n3 ss d4 d5 d6 S1 S2 S4 S4' S5 S6 Eb Ed]; subst.
  - split; [|discriminate]. eapply carried; eauto.
  - split; [|discriminate]. apply updateState_routes in S9. destruct S9 as (A1 & A2 & A3).
    eapply carried; eauto.
    + rewrite A1, S8. exact P3.
    + congruence.
  - apply updateState_routes in S6. destruct S6 as (A1 & A2 & A3).
    assert (Ok : routes_published d' /\ d_ns d' = nav_Sum (d_nav d')).
    { destruct S5 as [[-> S5]|[_ S5]].
      - cbn in A1, A2, A3.
        assert (Q : fresh_or_behind d') by (eapply carried; eauto; congruence).
        destruct Q as [Q|Q]; [exact Q|]. exfalso. rewrite A2, S3, S5, A3 in Q. now apply lex_irrefl in Q.
      - apply updateRoutes_published in S5. rewrite A2, A3. destruct S5 as [Q1 Q2]. split; [|exact Q2].
        rewrite published_view in *. rewrite A3, <- Q1. unfold pview. now rewrite A1. }
    split; [left; exact Ok|]. intros _. apply Ok.
Qed.

Lemma routes_step d o d' : fresh_or_behind d -> run_dev d o = Ret d' -> fresh_or_behind d'.
Proof.
  intros H E. destruct (trace _ _ _ E) as (los & _ & Tr).
  assert (Same : pde_routes (d_state d') = pde_routes (d_state d) -> d_ns d' = d_ns d -> fresh_or_behind d').
  { intros A B. eapply carried; eauto. }
  assert (Pub : forall d1, updateRoutes d1 = Ret d' -> fresh_or_behind d').
  { intros d1 F. apply updateRoutes_published in F. left. exact F. }
  destruct o; cbn [run_dev] in E;
    try (injection E as <-; apply Same; reflexivity).
  - injection E as <-. apply Same; unfold SetModel; destruct (NewModel m); reflexivity.
  - injection E as <-. apply Same; unfold SetColor; destruct hex; reflexivity.
  - injection E as <-. apply Same; unfold AddSensor; destruct (add_sensors _ _ _) as [? ok]; destruct (0 <? ok)%Z; reflexivity.
  - injection E as <-. apply Same; unfold RemoveSensor; (destruct (_ =? _)%Z; [reflexivity|]; destruct (find_index _ _); reflexivity).
  - destruct (nth_error _ _) eqn:F; [|injection E as <-; apply Same; reflexivity].
    destruct (run_sensor1 _ _) as [s'| |] eqn:G; try discriminate. injection E as <-. apply Same; reflexivity.
  - unfold AddRoute in E. destruct (nav_AddRoute _ _) as [[e|] n] eqn:A.
    + injection E as <-. apply Same; reflexivity.
    + destruct (updateRoutes _) as [d1| |] eqn:F; cbn in E; try discriminate. injection E as <-. eauto.
  - unfold RemoveRoute in E. destruct (nav_RemoveRoute _ _) as [[] n] eqn:A.
    + destruct (updateRoutes _) as [d1| |] eqn:F; cbn in E; try discriminate. injection E as <-. eauto.
    + injection E as <-. apply Same; reflexivity.
  - unfold RemoveTrack in E. destruct (nav_RemoveTrack _ _ _) as [[] n] eqn:A.
    + destruct (updateRoutes _) as [d1| |] eqn:F; cbn in E; try discriminate. injection E as <-. eauto.
    + injection E as <-. apply Same; reflexivity.
  - unfold ResetRoutes in E. destruct (nav_ResetRoutes _) as [[] n] eqn:A.
    + destruct (updateRoutes _) as [d1| |] eqn:F; cbn in E; try discriminate. injection E as <-. eauto.
    + injection E as <-. apply Same; reflexivity.
  - injection E as <-. apply Same; unfold device_move; destruct (NextRoute _); reflexivity.
  - injection E as <-. apply Same; unfold device_move; destruct (PrevRoute _); reflexivity.
  - injection E as <-. apply Same; unfold device_move; destruct (MoveToRouteByID _ _); reflexivity.
  - injection E as <-. apply Same; unfold device_move; destruct (MoveToTrackByID _ _ _); reflexivity.
  - injection E as <-. apply Same; unfold device_move; destruct (MoveToRoute _ _); reflexivity.
  - injection E as <-. apply Same; unfold device_move; destruct (MoveToTrack _ _ _); reflexivity.
  - injection E as <-. apply Same; unfold device_move; destruct (MoveToSegment _ _ _ _); reflexivity.
  - injection E as <-. apply Same; unfold device_move; destruct (DestinationTo _ _); reflexivity.
  - unfold device_ToOffline in E. destruct (ToOffline _ _) as [n| |] eqn:A; try discriminate. injection E as <-.
    apply Same; reflexivity.
  - injection E as <-. apply Same; unfold device_IsFinish; destruct (IsFinish _); reflexivity.
  - unfold device_Update in E. destruct (updateState d) as [d1| |] eqn:F; cbn [bind] in E; try discriminate.
    destruct (updateRoutes d1) as [d2| |] eqn:G; cbn [bind] in E; try discriminate. injection E as <-.
    apply updateRoutes_published in G. left. exact G.
  - unfold Next in E. destruct free.
    + destruct (Next_locked d tick x) as [[b d1]| |] eqn:F; cbn in E; try discriminate. injection E as <-.
      now apply (Next_routes _ _ _ _ _ H F).
    + injection E as <-. apply Same; reflexivity.
  - injection E as <-. apply Same; unfold mount; destruct (_ =? _)%Z; reflexivity.
  - injection E as <-. apply Same; unfold unmount; destruct (_ =? _)%Z; reflexivity.
  - destruct (run_nav _ _) as [q| |]; cbn [bind] in E; try discriminate.
    destruct (device_Snapshot d) as [q'| |]; cbn [bind] in E; try discriminate. injection E as <-. now apply Same.
Qed.

Lemma New_empty opts uuid draws n : navigator_New opts uuid draws = GOk n -> n_routes n = [] /\ n_ver n = 0%Z.
Proof.
  unfold navigator_New. destruct (validateOffline _ _) as [[lo hi]|]; [|discriminate].
  destruct (validateElevation _ _) as [[lo' hi']|]; [|discriminate].
  destruct (NewSensor _ _ _ _ _ _ _); [|discriminate]. intros [= <-]. auto.
Qed.

Lemma applyFor_inv o x (st : pbDevice T) o' : applyFor o initDeviceState x = (GOk st, o') ->
  exists i u m e c, st = st_ident initDeviceState i u m e c /\
   (NewModel (do_model o) = GOk m \/ m = ("Device-" ++ nd_model x)%string).
Proof.
  unfold applyFor. destruct (0 <? slen (do_model o))%Z.
  - destruct (NewModel (do_model o)) as [m|] eqn:Em; [|discriminate].
    match goal with |- context [match ?q with GErr _ => _ | GOk _ => _ end] => destruct q as [c|]; [|discriminate] end.
    intros [= <- _]. eauto 10.
  - match goal with |- context [match ?q with GErr _ => _ | GOk _ => _ end] => destruct q as [c|]; [|discriminate] end.
    intros [= <- _]. eauto 10.
Qed.

Lemma built_fresh opts x d : built opts x d -> fresh_or_behind d.
Proof.
  intros H. apply built_inv in H. destruct H as (o & nav & sp & b & st & o' & -> & _ & E1 & _ & _ & E).
  apply New_empty in E1. destruct E1 as [E1 E2]. apply applyFor_inv in E. destruct E as (i & u & m & e & c & -> & _).
  left. split.
  - exists (mkPbDRoutes []). split; [reflexivity|]. cbn. now rewrite E1.
  - cbn. unfold nav_Sum. now rewrite E1, E2.
Qed.

Lemma C64_history_proof opts x d0 ops d : built opts x d0 -> run_devs d0 ops = Ret d -> fresh_or_behind d.
Proof. intros H. apply run_devs_inv; [apply routes_step|]. eapply built_fresh; eauto. Qed.

Lemma C64_next_proof opts x d0 ops d tick y d' : built opts x d0 -> run_devs d0 ops = Ret d ->
  Next d true tick y = Ret (true, d') -> routes_published d'.
Proof. intros H H1 E. eapply Next_routes; [eapply C64_history_proof; eauto|exact E|reflexivity]. Qed.

Lemma C64_update_proof d d' : device_Update d = Ret d' -> routes_published d'.
Proof.
  unfold device_Update. destruct (updateState d) as [d1| |] eqn:F; cbn [bind]; try discriminate.
  destruct (updateRoutes d1) as [d2| |] eqn:G; cbn [bind]; try discriminate. intros [= <-].
  apply updateRoutes_published in G. apply G.
Qed.

Section Touch.
Variable n : navigator T.
Let n' := set_routes n (map touch_props (n_routes n)).
Let tt (t : track T) := snd (track_Props t).

Lemma touch_zget {A B} (f : A -> B) l i : zget (map f l) i = option_map f (zget l i).
Proof. unfold zget. destruct (i <? 0)%Z; [reflexivity|]. apply nth_error_map. Qed.
Lemma touch_CurrentRoute : CurrentRoute n' = let* r := CurrentRoute n in Ret (option_map touch_props r).
Proof.
  unfold CurrentRoute, n'. cbn [set_routes n_routes n_ri]. destruct (n_routes n) as [|r l]; [reflexivity|].
  rewrite touch_zget. change (map touch_props (r :: l)) with (touch_props r :: map touch_props l). cbn [map].
  destruct (zget (r :: l) (n_ri n)); reflexivity.
Qed.
Lemma touch_TrackAt r i : TrackAt (touch_props r) i = option_map tt (TrackAt r i).
Proof.
  assert (E : rt_tracks (touch_props r) = map tt (rt_tracks r)).
  { unfold touch_props, route_Props. destruct r as [a b c e f [p|] g]; reflexivity. }
  unfold TrackAt, NumTracks. rewrite E. unfold zlen. rewrite map_length.
  destruct (_ || _)%bool; [reflexivity|]. apply touch_zget.
Qed.
Lemma touch_CurrentTrack : CurrentTrack n' = let* t := CurrentTrack n in Ret (option_map tt t).
Proof.
  unfold CurrentTrack. rewrite touch_CurrentRoute. destruct (CurrentRoute n) as [[r|]| |]; try reflexivity.
  cbn. f_equal. apply touch_TrackAt.
Qed.
Lemma touch_SegmentAt t i : SegmentAt (tt t) i = SegmentAt t i.
Proof. unfold tt, track_Props. destruct (tk_props t); reflexivity. Qed.
Lemma touch_CurrentSegment : CurrentSegment n' = CurrentSegment n.
Proof.
  unfold CurrentSegment. rewrite touch_CurrentRoute. destruct (CurrentRoute n) as [[r|]| |]; try reflexivity.
  cbn. f_equal. rewrite touch_TrackAt. destruct (TrackAt r (n_ti n)) as [t|]; [|reflexivity]. cbn [option_map].
  now rewrite touch_SegmentAt.
Qed.
Lemma touch_RouteDistance : RouteDistance n' = RouteDistance n.
Proof.
  unfold RouteDistance. rewrite touch_CurrentRoute. destruct (CurrentRoute n) as [[r|]| |]; try reflexivity.
  cbn. f_equal. unfold touch_props, route_Props. destruct r as [a b c e f [p|] g]; reflexivity.
Qed.
Lemma touch_TrackDistance : TrackDistance n' = TrackDistance n.
Proof.
  unfold TrackDistance. rewrite touch_CurrentTrack. destruct (CurrentTrack n) as [[t|]| |]; try reflexivity.
  cbn. f_equal. unfold tt, track_Props. destruct (tk_props t); reflexivity.
Qed.
Lemma touch_SegmentDistance : SegmentDistance n' = SegmentDistance n.
Proof. unfold SegmentDistance. now rewrite touch_CurrentSegment. Qed.
Lemma touch_CurrentBearing : CurrentBearing n' = CurrentBearing n.
Proof. unfold CurrentBearing. now rewrite touch_CurrentSegment. Qed.
Lemma touch_tid t : tk_id (tt t) = tk_id t.
Proof. unfold tt, track_Props. destruct (tk_props t); reflexivity. Qed.
Lemma touch_rid (r : route T) : rt_id (touch_props r) = rt_id r.
Proof. unfold touch_props, route_Props. destruct r as [a b c e f [p|] g]; reflexivity. Qed.
End Touch.

Lemma updateRoutes_keeps d d' none : updateRoutes d = Ret d' ->
  navigator_published d -> ids_published none d -> battery_published d ->
  navigator_published d' /\ ids_published none d' /\ battery_published d'.
Proof.
  intros G (V1 & V2 & V3 & V4) V5 V6. apply updateRoutes_inv in G. destruct G as (_ & _ & G1 & _ & _ & G2 & G3 & _).
  unfold navigator_published, ids_published, battery_published. rewrite G1, G2, G3.
  split; [|split].
  - split; [exact V1|]. split; [|split; [|exact V4]].
    + destruct V2 as (x & X1 & X2 & X3 & X4 & X5 & X6 & X7 & X8 & X9). exists x. cbn zeta.
      rewrite touch_RouteDistance, touch_TrackDistance, touch_SegmentDistance. repeat split; auto.
    + destruct V3 as (l & e & L1 & L2 & L3 & L4 & L5 & L6). exists l, e. cbn zeta.
      rewrite touch_CurrentBearing. repeat split; auto; apply L6.
  - destruct V5 as (v & r & t & W1 & W2 & W3 & W4 & W5). exists v, (option_map touch_props r), (option_map (fun t => snd (track_Props t)) t).
    rewrite touch_CurrentRoute, touch_CurrentTrack, W2, W3. repeat split; auto.
    + destruct r as [r|]; [|exact W4]. cbn [option_map]. rewrite touch_rid. exact W4.
    + destruct t as [t|]; [|exact W5]. cbn [option_map]. rewrite touch_tid. exact W5.
  - exact V6.
Qed.

Lemma C44_update_proof d d' : device_Update d = Ret d' ->
  navigator_published d' /\ ids_published (fun _ => True) d' /\ battery_published d' /\ sensors_published d'.
Proof.
  unfold device_Update. destruct (updateState d) as [d1| |] eqn:F; cbn [bind]; try discriminate.
  destruct (updateRoutes d1) as [d2| |] eqn:G; cbn [bind]; try discriminate. intros [= <-].
  apply updateState_inv in F.
  destruct (updateRoutes_keeps _ _ _ G (rf_nav _ _ F) (rf_ids _ _ F) (rf_bat _ _ F)) as (A & B & C).
  split; [exact A|]. split; [exact B|]. split; [exact C|]. reflexivity.
Qed.

(** ** battery *)

Lemma Next_battery d tick x b d' : n_routes (d_nav d) <> [] -> Next d true tick x = Ret (b, d') ->
  d_battery d' = (if drains d tick then battery_Reset else fun b => b) (battery_Next (d_battery d) (amount d tick)).
Proof.
  intros Hr E. apply Next_locked_inv in E; [|exact Hr]. destruct E as (d3 & t & NB & St).
  destruct NB as [B1 B2 B3 B4 B5 B6 B7].
  assert (K : d_battery d3 = (if drains d tick then battery_Reset else fun b => b) (battery_Next (d_battery d) (amount d tick))).
  { rewrite B3. unfold drains, amount, owed. now destruct (battery_IsLow _). }
  rewrite <- K.
  inversion St as [n2 n3 S1 S2 Eb Ed|n2 n3 n4 d4 d5 S1 S2 S4' S4 S5 S6 S7 S8 S9 Eb Ed|n2 n3 ss d4 d5 d6 S1 S2 S4 S4' S5 S6 Eb Ed]; subst.
  - reflexivity.
  - apply updateState_inv in S9. rewrite (rf_same _ _ S9). cbn. congruence.
  - apply updateState_inv in S6. rewrite (rf_same _ _ S6). cbn.
    destruct S5 as [[-> _]|[_ S5]]; [reflexivity|]. apply updateRoutes_inv in S5. destruct S5 as (_ & _ & S5 & _). exact S5.
Qed.

Lemma trace_devs ops : forall d d', run_devs d ops = Ret d' ->
  exists loss, Forall2 (fun o los => Forall (calls o) los) ops loss /\
    run_navs (d_nav d) (List.concat loss) = Ret (d_nav d').
Proof.
  induction ops as [|o ops IH]; intros d d' E; cbn in E.
  - injection E as <-. exists []. split; [constructor|reflexivity].
  - destruct (run_dev d o) as [d1| |] eqn:F; try discriminate. cbn in E.
    destruct (trace _ _ _ F) as (los & L1 & L2). destruct (IH _ _ E) as (loss & M1 & M2).
    exists (los :: loss). split; [constructor; auto|]. cbn. eapply run_navs_cat; eauto.
Qed.

Lemma navOpts_offline (o : deviceOptions T) dflt : eff_offline (navOpts o) dflt = (do_offMin o, do_offMax o).
Proof. unfold navOpts. cbn. destruct (do_skipOffline o); reflexivity. Qed.
Lemma navOpts_skip (o : deviceOptions T) : In SkipOfflineMode (navOpts o) <-> do_skipOffline o = true.
Proof. unfold navOpts. destruct (do_skipOffline o); cbn; intuition discriminate. Qed.

Lemma C46_proof opts x0 d0 ops d tick x b d' : built opts x0 d0 -> run_devs d0 ops = Ret d ->
  n_routes (d_nav d) <> [] -> uint32 (xd_low x) -> Next d true tick x = Ret (b, d') ->
  if drains d tick then
    d_battery d' = battery_Reset (d_battery d) /\
    let o := options_of opts in let '(lo, hi) := offline_interval (do_offMin o) (do_offMax o) in
    (do_skipOffline o = false -> exists k, (lo <= k <= hi)%Z /\ ((0 < k)%Z ->
       b = false /\ n_off (d_nav d') = (k - 1)%Z /\
       n_point (d_nav d') = n_point (d_nav d) /\ position (d_nav d') = position (d_nav d) /\
       pde_is_offline (d_state d') = (1 <? k)%Z /\ pde_offline_duration (d_state d') = (k - 1)%Z))
  else d_battery d' = battery_Next (d_battery d) (amount d tick) /\ battery_IsLow (d_battery d') = false.
Proof.
  intros Hb Hd Hr Hu E. pose proof (Next_battery _ _ _ _ _ Hr E) as Eb.
  destruct (drains d tick) eqn:D; [|split; [exact Eb|rewrite Eb; exact D]].
  split; [rewrite Eb; reflexivity|]. cbv zeta.
  destruct (trace_devs _ _ _ Hd) as (loss & _ & Tr).
  pose proof Hb as Hb'. apply built_inv in Hb'. destruct Hb' as (o & nav & sp & b0 & st & o' & -> & Eo & E1 & _ & _ & _).
  fold (options_of opts) in Eo. cbn [d_nav] in Tr.
  pose proof (C13_proof _ _ _ _ _ _ (xd_low x) E1 Tr Hu) as Q. rewrite navOpts_offline in Q.
  subst o. destruct (offline_interval _ _) as [lo hi]. destruct Q as (n1 & Q1 & _ & Q3).
  intros Hs. destruct Q3 as (Q4 & Q5 & _); [rewrite navOpts_skip; congruence|].
  exists (n_off n1). split; [exact Q5|]. intros Hk.
  assert (Hskip : n_skip (d_nav d) = false).
  { pose proof (proj1 (run_settings _ _ _ Tr)) as Z1. rewrite Z1. apply New_offline in E1.
    destruct E1 as [[_ K]|[K _]]; [|exact K]. apply navOpts_skip in K. congruence. }
  apply Next_locked_inv in E; [|exact Hr]. destruct E as (d3 & t & NB & St).
  destruct NB as [B1 B2 B3 B4 B5 B6 B7].
  unfold drains, amount, owed in D. rewrite D in B4. rewrite Q1 in B4. injection B4 as B4.
  assert (NL : forall s v y, NextLocation (d_nav d3) s v y = Ret (false, set_off n1 (n_off n1 - 1)%Z)).
  { intros s v y. rewrite <- B4. unfold NextLocation.
    replace (n_routes n1) with (n_routes (d_nav d)) by (rewrite Q4; reflexivity).
    destruct (n_routes (d_nav d)); [congruence|]. unfold nextOffline.
    replace (n_skip n1) with (n_skip (d_nav d)) by (rewrite Q4; reflexivity). rewrite Hskip.
    apply Z.ltb_lt in Hk. rewrite Hk. reflexivity. }
  assert (F : forall m m' c, IsFinish m = (c, m') -> n_off m' = n_off m /\ n_point m' = n_point m /\ position m' = position m).
  { intros m m' c. unfold IsFinish. destruct (_ && _)%bool; intros [= _ <-]; repeat split. }
  assert (P1 : n_point n1 = n_point (d_nav d) /\ position n1 = position (d_nav d)) by (rewrite Q4; split; reflexivity).
  destruct P1 as [P1 P2].
  assert (G : forall m, m = n_off n1 -> (0 <? m - 1)%Z = (1 <? m)%Z).
  { intros m _. destruct (Z.ltb_spec 0 (m - 1)), (Z.ltb_spec 1 m); auto; lia. }
  inversion St as [n2 n3 S1 S2 Eb' Ed|n2 n3 n4 d4 d5 S1 S2 S4' S4 S5 S6 S7 S8 S9 Eb' Ed|n2 n3 ss d4 d5 d6 S1 S2 S4 S4' S5 S6 Eb' Ed]; subst;
    rewrite NL in S1; try discriminate.
  - injection S1 as <-. apply F in S2. destruct S2 as (F1 & F2 & F3). split; [reflexivity|].
    cbn. rewrite F1, F2. split; [reflexivity|]. split; [exact P1|]. split; [rewrite F3; exact P2|].
    split; [|reflexivity]. unfold nav_IsOffline. cbn. now apply G.
  - injection S1 as <-. apply F in S2. destruct S2 as (F1 & F2 & F3). split; [reflexivity|].
    assert (Sh : n_off (d_nav d4) = n_off n3 /\ n_point (d_nav d4) = n_point n3 /\ position (d_nav d4) = position n3).
    { unfold ShuffleElevation in S4'. destruct (n_elev n3); cbn in S4'; try discriminate. injection S4' as <-. repeat split. }
    destruct Sh as (H1 & H2 & H3).
    apply updateState_inv in S9. destruct (rf_nav _ _ S9) as (_ & _ & _ & V1 & V2). rewrite V1, V2.
    assert (Q : d_nav d' = d_nav d4) by (rewrite (rf_same _ _ S9); reflexivity). rewrite Q.
    unfold nav_IsOffline. rewrite H1, H2, H3, F1, F2, F3.
    split; [reflexivity|]. split; [exact P1|]. split; [exact P2|]. split; [|reflexivity]. now apply G.
Qed.

Lemma C46_never_low_proof opts x0 d0 ops d : built opts x0 d0 -> run_devs d0 ops = Ret d ->
  b_val (d_battery d) = f0 \/ battery_IsLow (d_battery d) = false.
Proof.
  intros Hb. apply (run_devs_inv (fun d => b_val (d_battery d) = f0 \/ battery_IsLow (d_battery d) = false)).
  - intros e o e' H E.
    assert (Dec : not_next o \/ exists free s x, o = DNext free s x) by (destruct o; cbn; eauto).
    destruct Dec as [Hn|(free & s & x & ->)].
    + destruct (other_time _ _ _ Hn E) as (_ & _ & _ & _ & _ & A). now rewrite A.
    + cbn [run_dev] in E. destruct free.
      * assert (Dr : n_routes (d_nav e) = [] \/ n_routes (d_nav e) <> []) by (destruct (n_routes (d_nav e)); [left|right]; congruence).
        destruct Dr as [Dr|Dr]; [rewrite C42_proof in E by assumption; cbn in E; now injection E as <-|].
        destruct (Next e true s x) as [[b e1]| |] eqn:K; cbn in E; try discriminate. injection E as <-.
        apply Next_battery in K; [|exact Dr]. rewrite K. destruct (drains e s) eqn:D; [left; reflexivity|right; exact D].
      * cbn in E. injection E as <-. exact H.
  - left. apply built_inv in Hb. destruct Hb as (o & nav & sp & b & st & o' & -> & _ & _ & _ & E & _). cbn.
    unfold NewBattery in E. destruct (_ <? _); [discriminate|]. destruct (_ >? _); [discriminate|].
    injection E as <-. reflexivity.
Qed.

(** ** model *)

Lemma NewModel_spec m : (forall m', NewModel m = GOk m' -> m' = m /\ (3 <= slen m <= 64)%Z) /\
  ((3 <= slen m <= 64)%Z -> NewModel m = GOk m).
Proof.
  unfold NewModel. destruct (Z.ltb_spec (slen m) 3); [split; [discriminate|lia]|].
  destruct (Z.ltb_spec 64 (slen m)); [split; [discriminate|lia]|].
  split; [intros m' [= <-]; auto with zarith|auto].
Qed.

Lemma updateRoutes_model d d' : updateRoutes d = Ret d' -> pde_model (d_state d') = pde_model (d_state d).
Proof. intros H. apply updateRoutes_inv in H. destruct H as (_ & _ & _ & _ & _ & H2 & _). now rewrite H2. Qed.
Lemma updateState_model d d' : updateState d = Ret d' -> pde_model (d_state d') = pde_model (d_state d).
Proof. intros H. apply updateState_inv in H. pose proof (rf_ident _ _ H) as Q. unfold ident in Q. now injection Q as _ _ _ _ Q _ _ _ _. Qed.

Lemma Next_model d tick x b d' : Next_locked d tick x = Ret (b, d') -> pde_model (d_state d') = pde_model (d_state d).
Proof.
  intros E. destruct (n_routes (d_nav d)) eqn:Er.
  { unfold Next_locked in E. rewrite Er in E. injection E as <- <-. auto. }
  apply Next_locked_inv in E; [|congruence]. clear Er. destruct E as (d3 & t & NB & St).
  pose proof (nb_state _ _ _ _ _ NB) as B7.
  assert (P3 : pde_model (d_state d3) = pde_model (d_state d)) by (rewrite B7; reflexivity). rewrite <- P3.
  inversion St as [n2 n3 S1 S2 Eb Ed|n2 n3 n4 d4 d5 S1 S2 S4' S4 S5 S6 S7 S8 S9 Eb Ed|n2 n3 ss d4 d5 d6 S1 S2 S4 S4' S5 S6 Eb Ed]; subst.
  - reflexivity.
  - rewrite (updateState_model _ _ S9), S8. reflexivity.
  - rewrite (updateState_model _ _ S6). destruct S5 as [[-> _]|[_ S5]]; [reflexivity|].
    rewrite (updateRoutes_model _ _ S5). reflexivity.
Qed.

Lemma model_step d o d' : run_dev d o = Ret d' ->
  pde_model (d_state d') = match o with
                           | DSetModel m => if ((3 <=? slen m) && (slen m <=? 64))%Z then m else pde_model (d_state d)
                           | _ => pde_model (d_state d)
                           end.
Proof.
  intros E. destruct o; cbn [run_dev] in E;
    try (injection E as <-; reflexivity).
  - injection E as <-. unfold SetModel, NewModel.
    destruct (Z.ltb_spec (slen m) 3), (Z.leb_spec 3 (slen m)); try lia; try reflexivity.
    destruct (Z.ltb_spec 64 (slen m)), (Z.leb_spec (slen m) 64); try lia; reflexivity.
  - injection E as <-. unfold SetColor; destruct hex; reflexivity.
  - injection E as <-. unfold AddSensor; destruct (add_sensors _ _ _) as [? ok]; destruct (0 <? ok)%Z; reflexivity.
  - injection E as <-. unfold RemoveSensor; (destruct (_ =? _)%Z; [reflexivity|]; destruct (find_index _ _); reflexivity).
  - destruct (nth_error _ _) eqn:F; [|injection E as <-; reflexivity].
    destruct (run_sensor1 _ _) as [s'| |] eqn:G; try discriminate. injection E as <-. reflexivity.
  - unfold AddRoute in E. destruct (nav_AddRoute _ _) as [[e|] n] eqn:A.
    + injection E as <-. reflexivity.
    + destruct (updateRoutes _) as [d1| |] eqn:F; cbn in E; try discriminate. injection E as <-. now apply updateRoutes_model in F.
  - unfold RemoveRoute in E. destruct (nav_RemoveRoute _ _) as [[] n] eqn:A.
    + destruct (updateRoutes _) as [d1| |] eqn:F; cbn in E; try discriminate. injection E as <-. now apply updateRoutes_model in F.
    + injection E as <-. reflexivity.
  - unfold RemoveTrack in E. destruct (nav_RemoveTrack _ _ _) as [[] n] eqn:A.
    + destruct (updateRoutes _) as [d1| |] eqn:F; cbn in E; try discriminate. injection E as <-. now apply updateRoutes_model in F.
    + injection E as <-. reflexivity.
  - unfold ResetRoutes in E. destruct (nav_ResetRoutes _) as [[] n] eqn:A.
    + destruct (updateRoutes _) as [d1| |] eqn:F; cbn in E; try discriminate. injection E as <-. now apply updateRoutes_model in F.
    + injection E as <-. reflexivity.
  - injection E as <-. unfold device_move; destruct (NextRoute _); reflexivity.
  - injection E as <-. unfold device_move; destruct (PrevRoute _); reflexivity.
  - injection E as <-. unfold device_move; destruct (MoveToRouteByID _ _); reflexivity.
  - injection E as <-. unfold device_move; destruct (MoveToTrackByID _ _ _); reflexivity.
  - injection E as <-. unfold device_move; destruct (MoveToRoute _ _); reflexivity.
  - injection E as <-. unfold device_move; destruct (MoveToTrack _ _ _); reflexivity.
  - injection E as <-. unfold device_move; destruct (MoveToSegment _ _ _ _); reflexivity.
  - injection E as <-. unfold device_move; destruct (DestinationTo _ _); reflexivity.
  - unfold device_ToOffline in E. destruct (ToOffline _ _) as [n| |] eqn:A; try discriminate. injection E as <-. reflexivity.
  - injection E as <-. unfold device_IsFinish; destruct (IsFinish _); reflexivity.
  - unfold device_Update in E. destruct (updateState d) as [d1| |] eqn:F; cbn [bind] in E; try discriminate.
    destruct (updateRoutes d1) as [d2| |] eqn:G; cbn [bind] in E; try discriminate. injection E as <-.
    apply updateRoutes_model in G. apply updateState_model in F. cbn. congruence.
  - unfold Next in E. destruct free.
    + destruct (Next_locked d tick x) as [[b d1]| |] eqn:F; cbn in E; try discriminate. injection E as <-.
      now apply Next_model in F.
    + injection E as <-. reflexivity.
  - injection E as <-. unfold mount; destruct (_ =? _)%Z; reflexivity.
  - injection E as <-. unfold unmount; destruct (_ =? _)%Z; reflexivity.
  - destruct (run_nav _ _) as [q| |]; cbn [bind] in E; try discriminate.
    destruct (device_Snapshot d) as [q'| |]; cbn [bind] in E; try discriminate. injection E as <-. reflexivity.
Qed.

Lemma slen_app (a b : string) : slen (a ++ b)%string = (slen a + slen b)%Z.
Proof.
  unfold slen. rewrite <- Nat2Z.inj_add. f_equal. induction a as [|c a IH]; [reflexivity|].
  change (S (String.length (a ++ b)) = S (String.length a + String.length b))%nat. now rewrite IH.
Qed.

Lemma C58_history_proof opts x d0 ops d : built opts x d0 -> slen (nd_model x) = 6%Z -> run_devs d0 ops = Ret d ->
  (3 <= slen (pde_model (d_state d)) <= 64)%Z.
Proof.
  intros Hb Hx. apply (run_devs_inv (fun d => (3 <= slen (pde_model (d_state d)) <= 64)%Z)).
  - intros e o e' H E. apply model_step in E. rewrite E. destruct o; auto.
    destruct (_ && _)%bool eqn:B; [|exact H]. apply andb_true_iff in B. destruct B as [B1 B2].
    apply Z.leb_le in B1, B2. lia.
  - apply built_inv in Hb. destruct Hb as (o & nav & sp & b & st & o' & -> & _ & _ & _ & _ & E).
    apply applyFor_inv in E. destruct E as (i & u & m & e & c & -> & [Em|Em]); cbn.
    + apply NewModel_spec in Em. destruct Em as [-> Em]. exact Em.
    + rewrite Em, slen_app, Hx. change (slen "Device-") with 7%Z. lia.
Qed.

End D.
