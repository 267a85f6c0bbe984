(** C35: snapshots lose nothing. *)
From Coq Require Import Lia.
From Verif.Model Require Import Base Num Utf8 Geo Curve PropMap Types Pb TypesSnap Track Route Navigator Device.
From Verif.Spec Require Import ListSpec TrackSpec RouteSpec NavSpec TypesSpec DeviceSpec SnapSpec.
From Verif.Proofs Require Import BaseLemmas NavLemmas NavSteps NavProofs NavReal DeviceProofs2.
Open Scope num_scope.

Section SnapProofs.
Context {T : Type} {N : Num T} {J : JsonLib T}.

Lemma mapM_map_eq {A B C} (f : B -> res C) (g : A -> B) (h : A -> C) l :
  (forall x, f (g x) = Ret (h x)) -> mapM f (map g l) = Ret (map h l).
Proof. intros H. induction l as [|x l IH]; cbn; [reflexivity|]. rewrite H. cbn. rewrite IH. reflexivity. Qed.
Lemma mapM_map_id {A B} (f : B -> res A) (g : A -> B) l : (forall x, f (g x) = Ret x) -> mapM f (map g l) = Ret l.
Proof. intros H. rewrite (mapM_map_eq f g (fun x => x)) by exact H. now rewrite map_id. Qed.
Lemma mapM_map_rel {A B} (f : B -> res A) (g : A -> B) (P : A -> A -> Prop) l :
  (forall x, In x l -> exists y, f (g x) = Ret y /\ P x y) -> exists l', mapM f (map g l) = Ret l' /\ Forall2 P l l'.
Proof.
  induction l as [|x l IH]; intros H; cbn; [eauto|].
  destruct (H x (or_introl eq_refl)) as (y & -> & Hy). destruct IH as (l' & -> & Hl); [intros z Hz; apply H; now right|].
  exists (y :: l'). cbn. auto.
Qed.

Lemma curve_snap (c : curve T) : curve_FromSnapshot (Some (curve_Snapshot c)) = Ret c.
Proof.
  unfold curve_FromSnapshot, curve_Snapshot. cbn [deref bind pcv_points pcv_mode pcv_min pcv_max].
  rewrite mapM_map_id by (intros [[] []]; reflexivity). cbn. now destruct c.
Qed.
Lemma speed_snap (s : speed T) : speed_FromSnapshot (Some (speed_Snapshot s)) = Ret s.
Proof. unfold speed_FromSnapshot, speed_Snapshot. cbn [deref bind pco_gen]. rewrite curve_snap. cbn. now destruct s. Qed.
Lemma battery_snap (b : battery T) : battery_FromSnapshot (Some (battery_Snapshot b)) = Ret b.
Proof. now destruct b. Qed.
Lemma sensor_snap (s : sensor T) : sensor_FromSnapshot (Some (sensor_Snapshot s)) = Ret s.
Proof. unfold sensor_FromSnapshot, sensor_Snapshot. cbn [deref bind pse_gen]. rewrite curve_snap. cbn. now destruct s. Qed.
Lemma segment_snap (s : segment T) : SegmentFromSnapshot (segment_Snapshot s) = Ret s.
Proof. destruct s as [[] [] ]; reflexivity. Qed.

(** Route names come from ParseName: 3 to 256 bytes, or still unset. *)
Definition proper_name (r : route T) : Prop := rt_name r = ""%string \/ (3 <= slen (rt_name r) <= 256)%Z.
Lemma ParseName_proper s n : ParseName s = GOk n -> n = s /\ (3 <= slen s <= 256)%Z.
Proof.
  unfold ParseName. destruct (Z.ltb_spec (slen s) 3); [discriminate|]. destruct (Z.ltb_spec 256 (slen s)); [discriminate|].
  intros [= <-]. split; [reflexivity|lia].
Qed.
Lemma run_route_proper r o : proper_name r -> proper_name (run_route r o).
Proof.
  intros H. destruct o; cbn [run_route]; try exact H.
  - destruct t; exact H.
  - unfold route_RemoveTrack. destruct (_ || _)%bool; [exact H|]. now destruct (find_index _ _).
  - unfold TrackByID. destruct (_ || _)%bool; [exact H|]. now destruct (find _ _).
  - unfold route_ChangeName. destruct (ParseName name) as [m|] eqn:E; [|exact H]. apply ParseName_proper in E as [-> E]. right. exact E.
  - unfold route_ChangeColor. now destruct hex.
  - unfold route_Props. now destruct (rt_props r).
  - unfold upd_track. now destruct (nth_error _ _).
  - unfold upd_track. now destruct (nth_error _ _).
  - unfold upd_track. now destruct (nth_error _ _).
Qed.
Lemma decoded_proper s e r : RouteFromSnapshot route_zero s = Ret (e, r) -> proper_name r.
Proof.
  unfold RouteFromSnapshot. destruct (mapM _ _) as [ts| |]; cbn [bind]; try discriminate.
  destruct (if (0 <? slen (pro_props s))%Z then _ else _) as [p|]; [|intros [= <- <-]; now left].
  destruct (0 <? slen (pro_name s))%Z; [|intros [= <- <-]; now left].
  destruct (ParseName _) as [m|] eqn:E; intros [= <- <-]; [|now left].
  apply ParseName_proper in E as [-> E]. right. exact E.
Qed.
Lemma made_proper r : made_route r -> proper_name r.
Proof. induction 1; [now left|now left|eapply decoded_proper; eassumption|now apply run_route_proper]. Qed.

Section Law.
Context (L : json_law T).

Lemma track_props_restored p : restored_props p (track_props_of (marshal_props p)).
Proof.
  destruct p as [q|]; [|reflexivity]. unfold restored_props, marshal_props. split.
  - intros H. destruct (law_able L q H) as (b & p' & E1 & E2 & H'). destruct (law_text L q b E1) as [H0 _].
    rewrite E1. unfold track_props_of. destruct (Z.ltb_spec 0 (slen b)); [|lia]. rewrite E2. eauto.
  - intros H. rewrite (law_unable L q H). reflexivity.
Qed.
Lemma route_props_restored p : exists p', (if (0 <? slen (marshal_props p))%Z then json_unmarshal (marshal_props p) else Some None) = Some p' /\ restored_props p p'.
Proof.
  destruct p as [q|]; [|exists None; split; reflexivity]. unfold restored_props, marshal_props.
  destruct (json_marshal q) as [b|] eqn:E.
  - destruct (law_text L q b E) as (H0 & p' & Ep). destruct (Z.ltb_spec 0 (slen b)); [|lia]. rewrite Ep. exists (Some p'). split; [reflexivity|]. split.
    + intros H1. destruct (law_able L q H1) as (b1 & p1 & E1 & E2 & H'). assert (b1 = b) by congruence. subst b1.
      exists p1. split; [congruence|exact H'].
    + intros H1. rewrite (law_unable L q H1) in E. discriminate.
  - exists None. split; [reflexivity|]. split; [|reflexivity]. intros H1. destruct (law_able L q H1) as (b1 & p1 & E1 & _). congruence.
Qed.

Lemma track_snap (t : track T) : exists t', TrackFromSnapshot (track_Snapshot t) = Ret t' /\ restored_track t t'.
Proof.
  unfold TrackFromSnapshot, track_Snapshot. cbn [ptr_segments]. rewrite mapM_map_id by apply segment_snap. cbn [bind].
  eexists. split; [reflexivity|]. unfold restored_track. cbn. repeat (split; [reflexivity|]). apply track_props_restored.
Qed.
Lemma route_snap (r : route T) : proper_name r ->
  exists r', RouteFromSnapshot route_zero (route_Snapshot r) = Ret (None, r') /\ restored_route r r'.
Proof.
  intros Hn. unfold RouteFromSnapshot, route_Snapshot. cbn [pro_tracks pro_props pro_name pro_id pro_distance pro_color pro_version].
  destruct (mapM_map_rel TrackFromSnapshot track_Snapshot restored_track (rt_tracks r)) as (ts & -> & Ht); [intros t _; apply track_snap|].
  cbn [bind]. destruct (route_props_restored (rt_props r)) as (p' & -> & Hp). cbv zeta iota.
  destruct Hn as [Hn|Hn].
  - rewrite Hn. cbn. eexists. split; [reflexivity|]. unfold restored_route. cbn. rewrite Hn. auto 10.
  - destruct (Z.ltb_spec 0 (slen (rt_name r))); [|lia]. unfold ParseName.
    destruct (Z.ltb_spec (slen (rt_name r)) 3); [lia|]. destruct (Z.ltb_spec 256 (slen (rt_name r))); [lia|].
    eexists. split; [reflexivity|]. unfold restored_route. cbn. auto 10.
Qed.

(** the offline range is one NewRandom produces *)
Definition offline_made (n : navigator T) : Prop := n_skip n = false -> exists a b, n_rnd n = Some (NewRandom a b).
Lemma NewRandom_idem a b : NewRandom (r_min (NewRandom a b)) (r_max (NewRandom a b)) = NewRandom a b.
Proof.
  unfold NewRandom.
  destruct (Z.ltb_spec b 0); cbn [andb].
  - change ((0 =? 0)%Z && (1 =? 0)%Z)%bool with false. cbn [r_min r_max].
    destruct (a <? 0)%Z; reflexivity.
  - destruct (Z.ltb_spec a 0) as [H1|H1].
    + cbn [Z.eqb andb r_min r_max]. destruct (Z.eqb_spec b 0) as [->|Hb]; cbn [r_min r_max].
      * reflexivity.
      * cbn. destruct (Z.ltb_spec b 0); [lia|]. destruct (Z.eqb_spec b 0); [lia|]. reflexivity.
    + destruct ((a =? 0)%Z && (b =? 0)%Z) eqn:E; cbn [r_min r_max].
      * apply andb_true_iff in E. destruct E as [E1 E2]. apply Z.eqb_eq in E1. subst a. reflexivity.
      * destruct (Z.ltb_spec a 0); [lia|]. destruct (Z.ltb_spec b 0); [lia|]. rewrite E. reflexivity.
Qed.

Definition snap_inv (n : navigator T) : Prop :=
  Forall proper_name (n_routes n) /\ offline_made n /\ exists e, n_elev n = Some e.

Lemma fresh_In' (rs : list (option (route T))) : forall ids r, In r (fresh_routes ids rs) -> In (Some r) rs.
Proof.
  induction rs as [|[x|] rs IH]; intros ids r H; cbn in *; [tauto| |right; eauto].
  destruct (in_dec _ _ _); [right; eauto|]. destruct H as [->|H]; [now left|right; eauto].
Qed.
Lemma proper_step n o n' : adds_made_routes o ->
  Forall proper_name (n_routes n) -> run_nav n o = Ret n' -> Forall proper_name (n_routes n').
Proof.
  intros Ho Hm H.
  assert (Q : travels o \/ ~ travels o) by (destruct o; cbn; auto).
  destruct Q as [Q|Q]; [rewrite (run_nav_stable n_routes stable_routes n _ n' Q H); exact Hm|].
  destruct o; cbn in Q; try tauto; cbn in H; injection H as <-.
  - destruct (C17_proof n rs) as [P1 P2].
    destruct rs as [|x rs]; [now rewrite (P1 eq_refl)|].
    destruct P2 as (n' & E & E1 & _); [discriminate|]. rewrite E. cbn. rewrite E1.
    apply Forall_app. split; [exact Hm|]. apply Forall_forall. intros r Hr. apply made_proper, Ho.
    eapply fresh_In', Hr.
  - unfold nav_ResetRoutes. destruct (n_routes n) eqn:E; cbn; [now rewrite E|constructor].
  - unfold nav_RemoveRoute. destruct (_ || _)%bool; [exact Hm|].
    destruct (find_index _ _); [|exact Hm]. cbn. now apply del_nth_Forall.
  - unfold nav_RemoveTrack. destruct (_ || _)%bool; [exact Hm|].
    destruct (find_index _ _) as [i|]; [|exact Hm].
    destruct (nth_error _ i) as [x|] eqn:F; [|exact Hm].
    pose proof (run_route_proper x (RRemoveTrack tid)) as G. cbn in G.
    destruct (route_RemoveTrack x tid) as [[] x'] eqn:F'; [|exact Hm]. cbn in *.
    apply set_nth_Forall; [exact Hm|]. apply G. eapply Forall_forall; [exact Hm|eapply nth_error_In; exact F].
  - exact Hm.
  - unfold nav_mutateRoute. destruct (nth_error _ i) as [x|] eqn:F; [|exact Hm].
    cbn. apply set_nth_Forall; [exact Hm|]. apply run_route_proper. eapply Forall_forall; [exact Hm|eapply nth_error_In; exact F].
Qed.
Lemma kept_step n o n' : run_nav n o = Ret n' ->
  n_skip n' = n_skip n /\ n_rnd n' = n_rnd n /\ ((exists e, n_elev n = Some e) -> exists e, n_elev n' = Some e).
Proof.
  intros H. assert (Q : travels o \/ ~ travels o) by (destruct o; cbn; auto).
  destruct Q as [Q|Q].
  - split; [exact (run_nav_stable n_skip stable_skip n _ n' Q H)|]. split; [exact (run_nav_stable n_rnd stable_rnd n _ n' Q H)|].
    intros [e He]. assert (K : n_elev n' = n_elev n \/ exists e', n_elev n' = Some e').
    { destruct o; try (left; refine (run_nav_stable0 n_elev _ n _ n' Q _ H); [repeat constructor|right; exact I]); right.
      - cbn in H. unfold NextElevation in H. rewrite He in H. cbn in H. destruct (sensor_Next e tick) as [e'| |]; cbn in H; try discriminate.
        injection H as <-. exists e'. reflexivity.
      - cbn in H. unfold ShuffleElevation in H. rewrite He in H. cbn in H. injection H as <-. eexists; reflexivity. }
    destruct K as [->|K]; eauto.
  - destruct o; cbn in Q; try tauto; cbn in H; injection H as <-.
    + unfold nav_AddRoute. destruct rs; [auto|]. destruct (add_routes _ _ _). cbn. destruct (0 <? z)%Z; cbn; auto.
    + unfold nav_ResetRoutes. destruct (n_routes n); cbn; auto.
    + unfold nav_RemoveRoute. destruct (_ || _)%bool; [auto|]. destruct (find_index _ _); cbn; auto.
    + unfold nav_RemoveTrack. destruct (_ || _)%bool; [auto|]. destruct (find_index _ _); [|auto]. destruct (nth_error _ _); [|auto].
      destruct (route_RemoveTrack _ _) as [[] ?]; cbn; auto.
    + auto.
    + unfold nav_mutateRoute. destruct (nth_error _ _); cbn; auto.
Qed.
Lemma snap_inv_step n o n' : adds_made_routes o -> snap_inv n -> run_nav n o = Ret n' -> snap_inv n'.
Proof.
  intros Ho (H1 & H2 & H3) H. destruct (kept_step _ _ _ H) as (K1 & K2 & K3). split; [eapply proper_step; eauto|].
  split; [|auto]. unfold offline_made. rewrite K1, K2. exact H2.
Qed.
Lemma snap_inv_steps ops : forall n n', Forall adds_made_routes ops -> snap_inv n -> run_navs n ops = Ret n' -> snap_inv n'.
Proof.
  induction ops as [|o ops IH]; intros n n' Ho Hn E; cbn in E; [now injection E as <-|].
  destruct (run_nav n o) as [n1| |] eqn:F; cbn in E; try discriminate. inversion Ho; subst.
  eapply IH; [assumption| |exact E]. eapply snap_inv_step; eauto.
Qed.
Lemma snap_inv_start opts uuid draws n : navigator_New opts uuid draws = GOk n -> snap_inv n.
Proof.
  unfold navigator_New. set (o := fold_left _ _ _).
  destruct (validateOffline _ _) as [[mino maxo]|]; [|discriminate].
  destruct (validateElevation _ _) as [[mine maxe]|]; [|discriminate].
  destruct (NewSensor _ _ _ _ _ _ _) as [s|] eqn:E; [|discriminate].
  intros [= <-]. unfold snap_inv, offline_made. cbn. split; [constructor|]. split; [|eauto].
  destruct (o_skip o); [discriminate|eauto].
Qed.

Lemma nav_snap (n : navigator T) e : n_elev n = Some e -> Forall proper_name (n_routes n) -> offline_made n ->
  exists s n', nav_Snapshot n = Ret s /\ nav_FromSnapshot nav_zero (Some s) = Ret n' /\ restored_nav n n'.
Proof.
  intros He Hr Ho. unfold nav_Snapshot. rewrite He. cbn [deref bind].
  destruct (match n_rnd n with Some r => (r_min r, r_max r) | None => (0%Z, 0%Z) end) as [omin omax] eqn:Er.
  destruct (mapM_map_rel (fun r => let* er := RouteFromSnapshot route_zero r in Ret (snd er)) route_Snapshot restored_route (n_routes n)) as (rs & Ers & Hrs).
  { intros r Hin. rewrite Forall_forall in Hr. destruct (route_snap r (Hr r Hin)) as (r' & -> & H'). exists r'. split; [reflexivity|exact H']. }
  eexists. eexists. split; [reflexivity|]. unfold nav_FromSnapshot. cbn [pna_routes pna_point pna_elevation]. rewrite Ers. cbn [bind deref]. rewrite sensor_snap. cbn [bind].
  split; [reflexivity|]. unfold restored_nav. cbn. destruct (n_point n) eqn:Ep. cbn. repeat (split; [first [assumption|reflexivity|now rewrite He]|]).
  intros Hs. destruct (Ho Hs) as (a & b & E). rewrite E in Er. injection Er as <- <-. now rewrite NewRandom_idem, E.
Qed.

Lemma nav_snap_inv n : snap_inv n ->
  exists s n', nav_Snapshot n = Ret s /\ nav_FromSnapshot nav_zero (Some s) = Ret n' /\ restored_nav n n'.
Proof. intros (H1 & H2 & e & H3). eapply nav_snap; eauto. Qed.

Lemma C35_nav_proof opts uuid draws n0 ops n : navigator_New opts uuid draws = GOk n0 -> Forall adds_made_routes ops ->
  run_navs n0 ops = Ret n ->
  exists s n', nav_Snapshot n = Ret s /\ nav_FromSnapshot nav_zero (Some s) = Ret n' /\ restored_nav n n'.
Proof. intros H0 Ho H. apply nav_snap_inv. eapply snap_inv_steps; [exact Ho|eapply snap_inv_start; exact H0|exact H]. Qed.
End Law.
End SnapProofs.
