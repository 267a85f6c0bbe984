(** Pointers into a heap; what a device call does to the objects it is run on. *)
From Coq Require Import Lia.
From Verif.Model Require Import Base Num Utf8 Geo Curve PropMap Types Pb TypesSnap Track Route Navigator Device Shared.
From Verif.Spec Require Import ListSpec TrackSpec RouteSpec NavSpec TypesSpec DeviceSpec SnapSpec RestoreSpec SharedSpec.
From Verif.Proofs Require Import BaseLemmas ViewNav ViewDev DeviceProofs.

(** ** the heap *)
Section Heap.
Context {A : Type}.
Implicit Types (h v : list A) (l : list nat).

Definition valid h l : Prop := Forall (fun a => (a < List.length h)%nat) l.

Lemma set_nth_length i (x : A) h : List.length (set_nth i x h) = List.length h.
Proof. revert i. induction h as [|y h IH]; intros [|i]; cbn; auto. Qed.
Lemma put_length l : forall h v, List.length (put h l v) = List.length h.
Proof. induction l as [|a l IH]; intros h [|x v]; cbn; auto. rewrite IH. apply set_nth_length. Qed.
Lemma nth_set_eq i (x : A) h : (i < List.length h)%nat -> nth_error (set_nth i x h) i = Some x.
Proof. revert i. induction h as [|y h IH]; intros [|i] H; cbn in *; try lia; auto. apply IH. lia. Qed.
Lemma nth_set_ne i j (x : A) h : i <> j -> nth_error (set_nth i x h) j = nth_error h j.
Proof. revert i j. induction h as [|y h IH]; intros [|i] [|j] H; cbn; auto; try lia. Qed.

Lemma pick_cons h a l : (a < List.length h)%nat -> exists x, nth_error h a = Some x /\ pick h (a :: l) = x :: pick h l.
Proof.
  intros H. destruct (nth_error h a) as [x|] eqn:E; [|apply nth_error_None in E; lia]. exists x. split; [reflexivity|].
  unfold pick. cbn. now rewrite E.
Qed.
Lemma pick_app h l l' : pick h (l ++ l') = pick h l ++ pick h l'.
Proof. apply flat_map_app. Qed.
Lemma pick_length h l : valid h l -> List.length (pick h l) = List.length l.
Proof.
  induction 1 as [|a l H Hl IH]; [reflexivity|]. destruct (pick_cons h a l H) as (x & _ & ->). cbn. now rewrite IH.
Qed.
Lemma pick_ext h h' l : (forall a, In a l -> nth_error h a = nth_error h' a) -> pick h l = pick h' l.
Proof.
  induction l as [|a l IH]; intros H; [reflexivity|]. unfold pick. cbn. rewrite (H a) by now left. f_equal. apply IH. intros b Hb. apply H. now right.
Qed.
Lemma nth_put_ne l : forall h v a, ~ In a l -> nth_error (put h l v) a = nth_error h a.
Proof.
  induction l as [|b l IH]; intros h [|x v] a H; cbn; auto. rewrite IH by (intros K; apply H; now right).
  apply nth_set_ne. intros ->. apply H. now left.
Qed.
Lemma pick_put l : forall h v, NoDup l -> valid h l -> List.length v = List.length l -> pick (put h l v) l = v.
Proof.
  induction l as [|a l IH]; intros h [|x v] D V E; try discriminate; [reflexivity|].
  inversion D as [|? ? Da Dl]; inversion V as [|? ? Va Vl]; subst. cbn [put].
  assert (K : nth_error (put (set_nth a x h) l v) a = Some x).
  { rewrite nth_put_ne by exact Da. now apply nth_set_eq. }
  unfold pick. cbn [flat_map]. rewrite K. cbn. f_equal. apply IH; auto.
  unfold valid. now rewrite set_nth_length.
Qed.

(** what happens to the whole heap *)
Lemma put_Forall2 (P : A -> A -> Prop) l : (forall x, P x x) -> forall h v, NoDup l -> valid h l -> Forall2 P (pick h l) v -> Forall2 P h (put h l v).
Proof.
  intros R. assert (Rh : forall h, Forall2 P h h) by (induction h; auto).
  assert (S : forall h a x y, nth_error h a = Some x -> P x y -> Forall2 P h (set_nth a y h)).
  { induction h as [|z h IH]; intros [|a] x y E Hp; cbn in *; try discriminate; constructor; auto.
    - injection E as ->. exact Hp.
    - eapply IH; eauto. }
  assert (G : forall l h0 h v, NoDup l -> valid h l -> Forall2 P h0 h -> (forall a, In a l -> nth_error h0 a = nth_error h a) -> Forall2 P (pick h l) v -> Forall2 P h0 (put h l v)).
  { clear l. induction l as [|a l IH]; intros h0 h v D V H0 E F.
    - now cbn.
    - inversion D as [|? ? Da Dl]; inversion V as [|? ? Va Vl]; subst.
      destruct (pick_cons h a l Va) as (x & Ex & Ep). rewrite Ep in F. inversion F as [|? y ? v' Hp F']; subst. cbn [put].
      apply IH; auto.
      + unfold valid. now rewrite set_nth_length.
      + clear - H0 Ex Hp E S. assert (E0 : nth_error h0 a = Some x) by (rewrite E; [exact Ex|now left]). clear E Ex.
        revert a E0. induction H0 as [|u w h0 h Hu H0 IH]; intros [|a] E0; cbn in *; try discriminate; constructor; auto.
        injection E0 as ->. exact Hp.
      + intros b Hb. rewrite nth_set_ne by (intros ->; contradiction). apply E. now right.
      + erewrite pick_ext; [exact F'|]. intros b Hb. apply nth_set_ne. intros ->. contradiction. }
  intros h v D V F. apply G; auto.
Qed.
Lemma pick_Forall2 (P : A -> A -> Prop) h h' l : Forall2 P h h' -> Forall2 P (pick h l) (pick h' l).
Proof.
  intros F. induction l as [|a l IH]; [constructor|]. unfold pick. cbn. apply Forall2_app; [|exact IH].
  clear IH. revert a. induction F as [|x y h h' Hp F IH]; intros [|a]; cbn; auto.
Qed.
End Heap.

Lemma pick_map {A B} (f : A -> B) h l : pick (map f h) l = map f (pick h l).
Proof.
  induction l as [|a l IH]; [reflexivity|]. unfold pick. cbn. rewrite map_app. f_equal; [|exact IH]. rewrite nth_error_map. now destruct (nth_error h a).
Qed.
Lemma put_map {A B} (f : A -> B) l : forall h v, put (map f h) l (map f v) = map f (put h l v).
Proof. induction l as [|a l IH]; intros h [|x v]; cbn; auto. now rewrite <- map_set_nth, IH. Qed.

Section Frame.
Context {T : Type} {N : Num T} {J : JsonLib T} {U : UtmLib T}.
Implicit Types (n : navigator T) (r : route T) (s : sensor T).

(** what one device does to a route and to a sensor *)
Definition touched r r' : Prop := r' = r \/ r' = touch_props r.
Definition rstep r r' : Prop := exists ops, r' = fold_left run_route ops r.
Definition sstep s s' : Prop := exists ops, run_sensor s ops = Ret s'.

Definition base_routes (l : list (route T)) (o : dev_op T) : list (route T) :=
  match o with
  | DAddRoute rs => fst (add_routes l rs 0)
  | DResetRoutes => []
  | DRemoveRoute id =>
      if ((slen id =? 0) || (36 <? slen id))%Z then l
      else match find_index (fun r => String.eqb (rt_id r) id) l with Some i => del_nth i l | None => l end
  | _ => l
  end.
Definition base_sensors (l : list (sensor T)) (o : dev_op T) : list (sensor T) :=
  match o with
  | DAddSensor new => fst (add_sensors l new 0)
  | DResetSensors => []
  | DRemoveSensor id =>
      if (slen id =? 0)%Z then l
      else match find_index (fun s => String.eqb (s_id s) id) l with Some i => del_nth i l | None => l end
  | _ => l
  end.

Lemma rstep_refl r : rstep r r.
Proof. now exists []. Qed.
Lemma sstep_refl s : sstep s s.
Proof. now exists []. Qed.
Lemma touched_refl r : touched r r.
Proof. now left. Qed.
Lemma rstep_trans r r' r'' : rstep r r' -> rstep r' r'' -> rstep r r''.
Proof. intros [o ->] [o' ->]. exists (o ++ o'). now rewrite fold_left_app. Qed.
Lemma touched_view r r' : touched r r' -> view_route true r' = view_route true r.
Proof. intros [->| ->]; [reflexivity|apply view_touch]. Qed.

(** touching a route is writing its properties back *)
Lemma touch_rstep r : rstep r (touch_props r).
Proof.
  unfold touch_props. cbv zeta.
  assert (H : rstep r (snd (route_Props r))).
  { exists [RSetProps (fst (route_Props r))]. cbn. unfold route_Props. destruct r as [? ? ? ? ? [p|] ?]; reflexivity. }
  eapply rstep_trans; [exact H|]. generalize (snd (route_Props r)). clear. intros r.
  assert (G : forall l done, rstep (route_setTracks r (done ++ l)) (route_setTracks r (done ++ map (fun t => snd (track_Props t)) l))).
  { induction l as [|t l IH]; intros done; [apply rstep_refl|]. cbn [map].
    eapply rstep_trans; [|specialize (IH (done ++ [snd (track_Props t)])); rewrite <- !app_assoc in IH; exact IH].
    exists [RTrackSetProps (List.length done) (fst (track_Props t))]. cbn. unfold upd_track. cbn [rt_tracks route_setTracks].
    rewrite nth_error_app2, Nat.sub_diag by lia. cbn [nth_error].
    assert (E : set_nth (List.length done) (track_setProps (snd (track_Props t)) (fst (track_Props t))) (done ++ t :: l) = done ++ snd (track_Props t) :: l).
    { clear IH. induction done as [|x done IH]; cbn; [|now rewrite IH]. f_equal. unfold track_Props. destruct t as [? ? ? ? [p|] ? ? ?]; reflexivity. }
    rewrite E. reflexivity. }
  specialize (G (rt_tracks r) []). cbn in G. destruct r. exact G.
Qed.
Lemma touched_rstep r r' : touched r r' -> rstep r r'.
Proof. intros [->| ->]; [apply rstep_refl|apply touch_rstep]. Qed.

(** *** navigators keep their routes *)
Lemma MoveToSegment_keeps n (a b c : Z) : n_routes (snd (MoveToSegment n a b c)) = n_routes n.
Proof.
  unfold MoveToSegment. repeat match goal with |- context [if ?b then _ else _] => destruct b; try reflexivity | |- context [match ?m with Some _ => _ | None => _ end] => destruct m; try reflexivity end.
Qed.
Lemma DestinationTo_keeps n m : n_routes (snd (DestinationTo n m)) = n_routes n.
Proof.
  unfold DestinationTo. repeat first [reflexivity | rewrite MoveToSegment_keeps | match goal with |- context [match ?m with _ => _ end] => destruct m; cbn [snd] end].
Qed.
Lemma ToOffline_keeps n d n' : ToOffline n d = Ret n' -> n_routes n' = n_routes n.
Proof. unfold ToOffline. destruct (n_skip n); [now intros [= <-]|]. destruct (n_rnd n); cbn; [|discriminate]. now intros [= <-]. Qed.
Lemma NextElevation_keeps n d n' : NextElevation n d = Ret n' -> n_routes n' = n_routes n.
Proof. unfold NextElevation. destruct (n_elev n); cbn; [|discriminate]. destruct (sensor_Next _ _); cbn; try discriminate. now intros [= <-]. Qed.
Lemma ShuffleElevation_keeps n d n' : ShuffleElevation n d = Ret n' -> n_routes n' = n_routes n.
Proof. unfold ShuffleElevation. destruct (n_elev n); cbn; [|discriminate]. now intros [= <-]. Qed.
Lemma IsFinish_keeps n : n_routes (snd (IsFinish n)) = n_routes n.
Proof. unfold IsFinish. now destruct (_ && _)%bool. Qed.
Lemma nextOffline_keeps n : n_routes (snd (nextOffline n)) = n_routes n.
Proof. unfold nextOffline. destruct (n_skip n); [reflexivity|]. now destruct (0 <? n_off n)%Z. Qed.
Lemma nextSegment_keeps n x n' : nextSegment n = Ret (x, n') -> n_routes n' = n_routes n.
Proof.
  unfold nextSegment. destruct (CurrentTrack n) as [[t|]| |]; cbn [bind]; try discriminate; [|now intros [= <- <-]].
  destruct (_ =? _)%Z; [now intros [= <- <-]|]. destruct (CurrentSegment n); cbn [bind]; try discriminate. now intros [= <- <-].
Qed.
Lemma nextTrack_keeps n x n' : nextTrack n = Ret (x, n') -> n_routes n' = n_routes n.
Proof.
  unfold nextTrack. cbv zeta. destruct (CurrentRoute _) as [[t|]| |]; cbn [bind]; try discriminate; [|now intros [= <- <-]].
  destruct (_ <? _)%Z; now intros [= <- <-].
Qed.
Lemma nextRoute_keeps n : n_routes (nextRoute n) = n_routes n.
Proof. unfold nextRoute. cbv zeta. now destruct (_ <? _)%Z. Qed.
Lemma next_loop_keeps fuel : forall n (d : T) draw b n', next_loop fuel n d draw = Ret (b, n') -> n_routes n' = n_routes n.
Proof.
  induction fuel as [|fuel IH]; intros n d draw b n' H; cbn [next_loop] in H; [discriminate|].
  destruct (isValidDistance n d) as [[]| |]; cbn [bind] in H; try discriminate.
  - destruct (CurrentSegment _) as [s| |]; cbn [bind] in H; try discriminate.
    destruct (segment_IsEmpty s); injection H as _ <-; reflexivity.
  - destruct (nextSegment n) as [[seg n1]| |] eqn:E1; cbn [bind] in H; try discriminate. apply nextSegment_keeps in E1. rewrite <- E1.
    destruct (segment_IsEmpty seg).
    + destruct (nextTrack n1) as [[mv n2]| |] eqn:E2; cbn [bind] in H; try discriminate. apply nextTrack_keeps in E2. rewrite <- E2.
      destruct (ToOffline _ draw) as [n3| |] eqn:E3; cbn [bind] in H; try discriminate. injection H as _ <-.
      apply ToOffline_keeps in E3. rewrite E3. destruct mv; [reflexivity|apply nextRoute_keeps].
    + destruct (segment_hasRelation seg); [now apply IH in H|].
      destruct (ToOffline _ draw) as [n3| |] eqn:E3; cbn [bind] in H; try discriminate. injection H as _ <-. now apply ToOffline_keeps in E3.
Qed.
Lemma NextLocation_keeps n t sp draw b n' : NextLocation n t sp draw = Ret (b, n') -> n_routes n' = n_routes n.
Proof.
  unfold NextLocation. destruct (n_routes n) eqn:E; [intros [= <- <-]; exact E|]. rewrite <- E.
  pose proof (nextOffline_keeps n) as K. destruct (nextOffline n) as [[] n1]; cbn [snd] in K.
  - now intros [= <- <-].
  - intros H. apply next_loop_keeps in H. congruence.
Qed.

(** *** devices *)
Definition kept (d d' : device T) : Prop :=
  Forall2 touched (n_routes (d_nav d)) (n_routes (d_nav d')) /\ d_sensors d' = d_sensors d.
Lemma touched_list_refl (l : list (route T)) : Forall2 touched l l.
Proof. induction l; constructor; auto using touched_refl. Qed.
Lemma touched_list_map (l : list (route T)) : Forall2 touched l (map touch_props l).
Proof. induction l; constructor; auto. now right. Qed.
Lemma updateRoutes_kept (d d' : device T) : updateRoutes d = Ret d' ->
  n_routes (d_nav d') = map touch_props (n_routes (d_nav d)) /\ d_sensors d' = d_sensors d.
Proof. unfold updateRoutes. destruct (deref _); cbn [bind]; try discriminate. now intros [= <-]. Qed.
Lemma updateState_kept (d d' : device T) : updateState d = Ret d' -> d_nav d' = d_nav d /\ d_sensors d' = d_sensors d.
Proof.
  unfold updateState. destruct (nav_Update _ _) as [st| |]; cbn [bind]; try discriminate.
  destruct (deref (pde_battery st)); cbn [bind]; try discriminate. destruct (deref (pde_distance st)); cbn [bind]; try discriminate.
  cbv zeta. destruct (_ =? _)%Z; now intros [= <-].
Qed.

Lemma shuffle_sstep dr (l : list (sensor T)) : forall i, Forall2 sstep l (shuffle_sensors i l dr).
Proof. induction l as [|s l IH]; intros i; cbn; constructor; auto. now exists [GShuffle (dr i)]. Qed.
Lemma next_sstep t (l : list (sensor T)) : forall l', mapM (fun s => sensor_Next s t) l = Ret l' -> Forall2 sstep l l'.
Proof.
  induction l as [|s l IH]; intros l' H; cbn [mapM] in H; [injection H as <-; constructor|].
  destruct (sensor_Next s t) as [s'| |] eqn:E; cbn [bind] in H; try discriminate.
  destruct (mapM _ l) as [l''| |] eqn:E'; cbn [bind] in H; try discriminate. injection H as <-. constructor; auto.
  exists [GNext t]. cbn. now rewrite E.
Qed.
Lemma sstep_list_refl (l : list (sensor T)) : Forall2 sstep l l.
Proof. induction l; constructor; auto using sstep_refl. Qed.

Lemma Next_frame (d : device T) tick x b d' : Next_locked d tick x = Ret (b, d') ->
  Forall2 touched (n_routes (d_nav d)) (n_routes (d_nav d')) /\ Forall2 sstep (d_sensors d) (d_sensors d').
Proof.
  unfold Next_locked. destruct (n_routes (d_nav d)) eqn:E0; [intros [= <- <-]; rewrite E0; split; [constructor|apply sstep_list_refl]|]. rewrite <- E0. clear E0.
  cbv zeta. set (d0 := next_account d _). assert (K0 : n_routes (d_nav d0) = n_routes (d_nav d) /\ d_sensors d0 = d_sensors d) by (split; reflexivity).
  clearbody d0. intros H. destruct (next_lowBattery d0 x) as [d1| |] eqn:E1; cbn [bind] in H; try discriminate.
  assert (K1 : n_routes (d_nav d1) = n_routes (d_nav d) /\ d_sensors d1 = d_sensors d).
  { revert E1. unfold next_lowBattery. destruct (battery_IsLow _); [|now intros [= <-]].
    destruct (ToOffline _ _) as [n| |] eqn:E; cbn [bind]; try discriminate. intros [= <-]. apply ToOffline_keeps in E. cbn. now rewrite E. }
  destruct (next_speed d1 _) as [d2| |] eqn:E2; cbn [bind] in H; try discriminate.
  assert (K2 : n_routes (d_nav d2) = n_routes (d_nav d) /\ d_sensors d2 = d_sensors d).
  { revert E2. unfold next_speed. destruct (speed_Next _ _); cbn [bind]; try discriminate. intros [= <-]. exact K1. }
  destruct (NextLocation _ _ _ _) as [[ok n]| |] eqn:E3; cbn [bind] in H; try discriminate. apply NextLocation_keeps in E3.
  assert (K3 : n_routes (d_nav (dset_nav d2 n)) = n_routes (d_nav d) /\ d_sensors (dset_nav d2 n) = d_sensors d) by (cbn; rewrite E3; exact K2).
  revert H. generalize (dset_nav d2 n) K3. clear - N J U. intros d3 [<- <-]. generalize (nextT d1 (fofZ (d_tick d) + tick)%num). intros t.
  destruct ok.
  - unfold next_moved. destruct (NextElevation _ _) as [n1| |] eqn:E; cbn [bind]; try discriminate. apply NextElevation_keeps in E.
    destruct (mapM _ _) as [ss| |] eqn:F; cbn [bind]; try discriminate. cbn [dset_nav d_sensors] in F. apply next_sstep in F.
    match goal with |- context [ns_eqb ?a ?b] => destruct (ns_eqb a b) end; cbn [bind].
    + destruct (updateState _) as [d4| |] eqn:G; cbn [bind]; try discriminate. intros [= <- <-]. apply updateState_kept in G as [-> ->]. cbn. rewrite E.
      split; [apply touched_list_refl|exact F].
    + destruct (updateRoutes _) as [d5| |] eqn:G5; cbn [bind]; try discriminate. apply updateRoutes_kept in G5 as [R5 S5].
      destruct (updateState _) as [d4| |] eqn:G; cbn [bind]; try discriminate. intros [= <- <-]. apply updateState_kept in G as [-> ->]. rewrite R5, S5. cbn. rewrite E.
      split; [apply touched_list_map|exact F].
  - unfold next_stopped. cbv zeta. pose proof (IsFinish_keeps (d_nav (updateOfflineState d3))) as E. destruct (IsFinish _) as [[] n1]; cbn [snd] in E.
    + match goal with |- context [ShuffleElevation ?a ?b] => destruct (ShuffleElevation a b) as [n2| |] eqn:E2 end; cbn [bind]; try discriminate.
      apply ShuffleElevation_keeps in E2. cbn in E2. rewrite E in E2.
      destruct (updateState _) as [d4| |] eqn:G; cbn [bind]; try discriminate. intros [= <- <-]. apply updateState_kept in G as [-> ->]. cbn. rewrite E2.
      split; [apply touched_list_refl|apply shuffle_sstep].
    + intros [= <- <-]. cbn. rewrite E. split; [apply touched_list_refl|apply sstep_list_refl].
Qed.

Definition removes_track (o : dev_op T) : Prop := match o with DRemoveTrack _ _ => True | _ => False end.

Lemma move_frame (d : device T) m : (forall n, n_routes (snd (m n)) = n_routes n) ->
  Forall2 touched (n_routes (d_nav d)) (n_routes (d_nav (snd (device_move d m)))) /\ Forall2 sstep (d_sensors d) (d_sensors (snd (device_move d m))).
Proof.
  intros H. unfold device_move. specialize (H (d_nav d)). destruct (m (d_nav d)) as [b n]. cbn in *. rewrite H. split; [apply touched_list_refl|apply sstep_list_refl].
Qed.

Lemma frame (d : device T) o d' : match o with DRouteOp _ _ | DSensorOp _ _ => False | _ => True end -> run_dev d o = Ret d' ->
  Forall2 rstep (base_routes (n_routes (d_nav d)) o) (n_routes (d_nav d')) /\
  (~ removes_track o -> Forall2 touched (base_routes (n_routes (d_nav d)) o) (n_routes (d_nav d'))) /\
  Forall2 sstep (base_sensors (d_sensors d) o) (d_sensors d').
Proof.
  intros P H.
  assert (G : Forall2 touched (base_routes (n_routes (d_nav d)) o) (n_routes (d_nav d')) /\ Forall2 sstep (base_sensors (d_sensors d) o) (d_sensors d') ->
    Forall2 rstep (base_routes (n_routes (d_nav d)) o) (n_routes (d_nav d')) /\
    (~ removes_track o -> Forall2 touched (base_routes (n_routes (d_nav d)) o) (n_routes (d_nav d'))) /\
    Forall2 sstep (base_sensors (d_sensors d) o) (d_sensors d')).
  { intros [A B]. repeat split; auto. clear - A. induction A; constructor; auto using touched_rstep. }
  destruct o; cbn [run_dev base_routes base_sensors] in *; try contradiction.
  - apply G. clear G. injection H as <-. unfold SetModel. destruct (NewModel m); split; first [apply touched_list_refl|apply sstep_list_refl].
  - apply G. clear G. injection H as <-. split; first [apply touched_list_refl|apply sstep_list_refl].
  - apply G. clear G. injection H as <-. split; first [apply touched_list_refl|apply sstep_list_refl].
  - apply G. clear G. injection H as <-. unfold SetColor. destruct hex; split; first [apply touched_list_refl|apply sstep_list_refl].
  - apply G. clear G. injection H as <-. unfold AddSensor. destruct (add_sensors (d_sensors d) l 0) as [l' ok]. cbn [fst].
    destruct (0 <? ok)%Z; split; first [apply touched_list_refl|apply sstep_list_refl].
  - apply G. clear G. injection H as <-. split; first [apply touched_list_refl|apply sstep_list_refl].
  - apply G. clear G. injection H as <-. unfold RemoveSensor. destruct (_ =? _)%Z; [split; first [apply touched_list_refl|apply sstep_list_refl]|].
    destruct (find_index _ _); split; first [apply touched_list_refl|apply sstep_list_refl].
  - apply G. clear G. unfold AddRoute, nav_AddRoute in H. destruct rs as [|r0 rs].
    { cbn in H. injection H as <-. split; first [apply touched_list_refl|apply sstep_list_refl]. }
    destruct (add_routes (n_routes (d_nav d)) (r0 :: rs) 0) as [l ok]. cbn [fst].
    destruct (updateRoutes _) as [d1| |] eqn:E; cbn [bind] in H; try discriminate. injection H as <-. apply updateRoutes_kept in E as [-> ->].
    cbn [dset_nav d_nav d_sensors]. split; [|apply sstep_list_refl]. destruct (0 <? ok)%Z; apply touched_list_map.
  - apply G. clear G. unfold RemoveRoute, nav_RemoveRoute in H. destruct (_ || _)%bool; [cbn in H; injection H as <-; split; first [apply touched_list_refl|apply sstep_list_refl]|].
    destruct (find_index _ _) as [i|]; [|cbn in H; injection H as <-; split; first [apply touched_list_refl|apply sstep_list_refl]].
    destruct (updateRoutes _) as [d1| |] eqn:E; cbn [bind] in H; try discriminate. injection H as <-. apply updateRoutes_kept in E as [-> ->].
    split; [apply touched_list_map|apply sstep_list_refl].
  - clear G. split; [|split; [intros K; now destruct K|]].
    + unfold RemoveTrack, nav_RemoveTrack in H. destruct (_ || _)%bool; [cbn in H; injection H as <-; cbn; clear; induction (n_routes (d_nav d)); constructor; auto using rstep_refl|].
      destruct (find_index _ _) as [i|]; [|cbn in H; injection H as <-; cbn; clear; induction (n_routes (d_nav d)); constructor; auto using rstep_refl].
      destruct (nth_error _ i) as [r|] eqn:Er; [|cbn in H; injection H as <-; cbn; clear; induction (n_routes (d_nav d)); constructor; auto using rstep_refl].
      destruct (route_RemoveTrack r tid) as [[] r'] eqn:Ek; [|cbn in H; injection H as <-; cbn; clear; induction (n_routes (d_nav d)); constructor; auto using rstep_refl].
      destruct (updateRoutes _) as [d1| |] eqn:E; cbn [bind] in H; try discriminate. injection H as <-. apply updateRoutes_kept in E as [-> _].
      cbn [dset_nav d_nav nav_nextVersion set_ver n_routes set_routes].
      assert (K : rstep r (touch_props r')).
      { eapply rstep_trans; [|apply touch_rstep]. exists [RRemoveTrack tid]. cbn. now rewrite Ek. }
      clear - Er K. revert i Er. induction (n_routes (d_nav d)) as [|y l IH]; intros [|i] Er; cbn in *; try discriminate.
      * injection Er as ->. constructor; [exact K|]. clear. induction l; constructor; auto using touch_rstep.
      * constructor; [apply touch_rstep|]. now apply IH.
    + unfold RemoveTrack in H. destruct (nav_RemoveTrack _ _ _) as [[] n]; [|cbn in H; injection H as <-; apply sstep_list_refl].
      destruct (updateRoutes _) as [d1| |] eqn:E; cbn [bind] in H; try discriminate. injection H as <-. apply updateRoutes_kept in E as [_ ->]. apply sstep_list_refl.
  - apply G. clear G. unfold ResetRoutes, nav_ResetRoutes in H. destruct (n_routes (d_nav d)) eqn:E0; [cbn in H; injection H as <-; cbn; rewrite E0; split; [constructor|apply sstep_list_refl]|].
    destruct (updateRoutes _) as [d1| |] eqn:E; cbn [bind] in H; try discriminate. injection H as <-. apply updateRoutes_kept in E as [-> ->].
    split; [constructor|apply sstep_list_refl].
  - apply G. clear G. injection H as <-. apply move_frame. intros n. unfold NextRoute. destruct (_ <? _)%Z; [apply MoveToSegment_keeps|reflexivity].
  - apply G. clear G. injection H as <-. apply move_frame. intros n. unfold PrevRoute. destruct (_ <? _)%Z; [apply MoveToSegment_keeps|reflexivity].
  - apply G. clear G. injection H as <-. apply move_frame. intros n. unfold MoveToRouteByID. cbv zeta.
    repeat first [reflexivity|apply MoveToSegment_keeps|match goal with |- context [match ?m with _ => _ end] => destruct m end].
  - apply G. clear G. injection H as <-. apply move_frame. intros n. unfold MoveToTrackByID. cbv zeta.
    repeat first [reflexivity|apply MoveToSegment_keeps|match goal with |- context [match ?m with _ => _ end] => destruct m end].
  - apply G. clear G. injection H as <-. apply move_frame. intros n. apply MoveToSegment_keeps.
  - apply G. clear G. injection H as <-. apply move_frame. intros n. apply MoveToSegment_keeps.
  - apply G. clear G. injection H as <-. apply move_frame. intros n. apply MoveToSegment_keeps.
  - apply G. clear G. injection H as <-. apply move_frame. intros n. apply DestinationTo_keeps.
  - apply G. clear G. unfold device_ToOffline in H. destruct (ToOffline _ _) as [n| |] eqn:E; cbn [bind] in H; try discriminate. injection H as <-.
    apply ToOffline_keeps in E. cbn. rewrite E. split; first [apply touched_list_refl|apply sstep_list_refl].
  - apply G. clear G. injection H as <-. split; first [apply touched_list_refl|apply sstep_list_refl].
  - apply G. clear G. injection H as <-. unfold device_IsFinish. pose proof (IsFinish_keeps (d_nav d)) as E. destruct (IsFinish _) as [b n]. cbn in *. rewrite E.
    split; first [apply touched_list_refl|apply sstep_list_refl].
  - apply G. clear G. unfold device_Update in H. destruct (updateState d) as [d1| |] eqn:E1; cbn [bind] in H; try discriminate.
    destruct (updateRoutes d1) as [d2| |] eqn:E2; cbn [bind] in H; try discriminate. injection H as <-.
    apply updateState_kept in E1 as [R1 S1]. apply updateRoutes_kept in E2 as [R2 S2]. cbn. rewrite R2, S2, R1, S1.
    split; [apply touched_list_map|apply sstep_list_refl].
  - apply G. clear G. unfold Next in H. destruct free.
    + destruct (Next_locked d tick x) as [[b d1]| |] eqn:E; cbn [bind] in H; try discriminate. injection H as <-. now apply Next_frame in E.
    + cbn in H. injection H as <-. split; first [apply touched_list_refl|apply sstep_list_refl].
  - apply G. clear G. injection H as <-. unfold mount. destruct (_ =? _)%Z; split; first [apply touched_list_refl|apply sstep_list_refl].
  - apply G. clear G. injection H as <-. unfold unmount. destruct (_ =? _)%Z; split; first [apply touched_list_refl|apply sstep_list_refl].
  - apply G. clear G. destruct (run_nav _ _); cbn [bind] in H; try discriminate. destruct (device_Snapshot d); cbn [bind] in H; try discriminate.
    injection H as <-. split; first [apply touched_list_refl|apply sstep_list_refl].
Qed.
End Frame.
