(** A device that shares only routes goes on as if the other devices were not there; no call panics. *)
From Coq Require Import Lia.
From Verif.Model Require Import Base Num Utf8 Geo Curve PropMap Types Pb TypesSnap Track Route Navigator Device Shared.
From Verif.Spec Require Import ListSpec TrackSpec RouteSpec NavSpec NumLaws TypesSpec DeviceSpec SnapSpec RestoreSpec SharedSpec.
From Verif.Proofs Require Import BaseLemmas NavLemmas ViewNav ViewDev DeviceProofs SharedHeap SharedProofs.

Lemma Some_inj' {A} (x y : A) : Some x = Some y -> x = y.
Proof. now intros [=]. Qed.

Section SharedAlone.
Context {T : Type} {N : Num T} {J : JsonLib T} {U : UtmLib T}.
Implicit Types (w v : world T).

(** ** no panic *)
Lemma made_sstep (s s' : sensor T) : made_sensor s -> sstep s s' -> made_sensor s'.
Proof.
  intros (name & mi & ma & amp & mode & u & dr & s0 & ops & A & B) (ops' & C). exists name, mi, ma, amp, mode, u, dr, s0, (ops ++ ops'). split; [exact A|].
  revert s0 A B. induction ops as [|o ops IH]; intros s0 A B.
  - cbn in *. injection B as ->. exact C.
  - assert (G : forall s1, run_sensor s1 ops = Ret s -> run_sensor s1 (ops ++ ops') = Ret s').
    { clear - C. induction ops as [|o ops IH]; intros s1 H; cbn in *; [injection H as ->; exact C|].
      destruct o; [now apply IH|]. destruct (sensor_Next s1 tick); cbn in *; try discriminate. now apply IH. }
    cbn in *. destruct o; [now apply G|]. destruct (sensor_Next s0 tick); cbn in *; try discriminate. now apply G.
Qed.
Lemma made_list (l l' : list (sensor T)) : Forall2 sstep l l' -> Forall made_sensor l -> Forall made_sensor l'.
Proof. induction 1; intros F; inversion F; subst; constructor; eauto using made_sstep. Qed.

Lemma handles_ok (Z0 : zero_eq_zero N) ops : forall d d' : device T, Forall handle ops -> dev_ok d -> run_devs d ops = Ret d' -> dev_ok d'.
Proof.
  induction ops as [|o ops IH]; intros d d' F H R; cbn in R; [injection R as <-; exact H|]. inversion F as [|? ? Fo Fl]; subst.
  destruct (run_dev_ok Z0 d o H) as (d1 & E & H1).
  - destruct o; cbn in *; try exact I; discriminate.
  - destruct o; cbn in *; try exact I; discriminate.
  - rewrite E in R. cbn in R. eapply IH; eauto.
Qed.

Definition all_ok w : Prop :=
  well_held w /\ Forall made_sensor (w_sensors w) /\ (forall i s, nth_error (w_devs w) i = Some s -> dev_ok (load w s)).

Lemma run_call_ok (Z0 : zero_eq_zero N) w c : all_ok w -> plain c ->
  match c with
  | SDevice i (OOther (DDestinationTo _)) => match nth_error (w_devs w) i with Some s => (List.length (sd_routes s) <= 2)%nat | None => True end
  | _ => True
  end -> exists w', run_call w c = Ret w' /\ all_ok w'.
Proof.
  intros (W & M & D) P Hj.
  assert (R : exists w', run_call w c = Ret w').
  { destruct c as [i o|a o|a o]; cbn [run_call].
    - unfold call_device. destruct (nth_error (w_devs w) i) as [s|] eqn:E; [|eauto].
      destruct (run_dev_ok Z0 (load w s) (op_of w o) (D i s E)) as (d & -> & _); cbn [bind]; [| |eauto].
      + destruct o as [l|l|o]; cbn; [exact I| |destruct o; cbn in *; try exact I; contradiction].
        intros s0 Hs. apply in_map_iff in Hs as ([a|] & K & _); [|discriminate]. cbn in K. apply nth_error_In in K. rewrite Forall_forall in M. now apply M.
      + destruct o as [l|l|o]; cbn; try exact I. destruct o; try exact I. cbn.
        destruct (well_held_held w i s W E) as (_ & _ & V & _). unfold zlen. rewrite pick_length by exact V. lia.
    - destruct (nth_error _ a); eauto.
    - destruct (nth_error (w_sensors w) a) as [s|] eqn:E; [|eauto].
      destruct (run_sensor1_ok s o) as (s' & -> & _); [|cbn; eauto]. apply made_sensor_ok. rewrite Forall_forall in M. eapply M, nth_error_In, E. }
  destruct R as (w' & R). exists w'. split; [exact R|]. destruct (run_call_step w c w' W P R) as (W' & R1 & R2 & K).
  split; [exact W'|]. split; [eapply made_list; eauto|]. intros j s' E'.
  assert (G : match c with SDevice i _ => i <> j | _ => True end -> dev_ok (load w' s')).
  { intros Hc. rewrite (K j Hc) in E'.
    destruct (objects_history (load w s') (pick (w_routes w') (sd_routes s')) (pick (w_sensors w') (sd_sensors s'))) as (ops & A & B); [now apply pick_Forall2|now apply pick_Forall2|].
    eapply (handles_ok Z0 ops (load w s')); [exact A|eapply D, E'|exact B]. }
  destruct c as [i o|a o|a o]; [|now apply G|now apply G]. destruct (Nat.eq_dec i j) as [<-|Hne]; [|now apply G].
  destruct (nth_error (w_devs w) i) as [s|] eqn:E.
  - destruct (call_device_inv w i o s w' W P E R) as (d & A & _ & B & C & _). rewrite B in E'. injection E' as <-. rewrite C.
    destruct (run_dev_ok Z0 (load w s) (op_of w o) (D i s E)) as (d' & A' & H); [| |congruence].
    + destruct o as [l|l|o]; cbn; [exact I| |destruct o; cbn in *; try exact I; contradiction].
      intros s0 Hs. apply in_map_iff in Hs as ([a|] & Ka & _); [|discriminate]. cbn in Ka. apply nth_error_In in Ka. rewrite Forall_forall in M. now apply M.
    + destruct o as [l|l|o]; cbn; try exact I. destruct o; try exact I. cbn.
      destruct (well_held_held w i s W E) as (_ & _ & V & _). unfold zlen. rewrite pick_length by exact V. lia.
  - cbn [run_call] in R. unfold call_device in R. rewrite E in R. injection R as <-. congruence.
Qed.

Lemma run_calls_ok (Z0 : zero_eq_zero N) l : forall w, all_ok w -> Forall plain l -> jumps_on_at_most_two w l -> exists w', run_calls w l = Ret w'.
Proof.
  induction l as [|c l IH]; intros w H P K; cbn; [eauto|]. inversion P; subst. destruct K as [K1 K2].
  destruct (run_call_ok Z0 w c H) as (w1 & E & H1); auto. rewrite E in *. cbn. now apply IH.
Qed.

Lemma fresh_ok w : fresh_world w -> all_ok w.
Proof.
  intros [A B]. split; [|split; [exact B|]].
  - unfold well_held. eapply Forall_impl; [|exact A]. intros s (_ & -> & ->). repeat split; constructor.
  - intros i s E. rewrite Forall_forall in A. destruct (A s (nth_error_In _ _ E)) as ((opts & x & K) & Er & Es).
    unfold load. rewrite Er, Es. pose proof (built_ok _ _ _ K) as H. destruct (built_inv _ _ _ K) as (o & nav & sp & b & st & o' & Ed & _ & En & _).
    rewrite Ed in *. cbn. replace (set_routes nav []) with nav; [exact H|].
    revert En. unfold navigator_New. destruct (validateOffline _ _) as [[] |]; [|discriminate]. destruct (validateElevation _ _) as [[] |]; [|discriminate].
    destruct (NewSensor _ _ _ _ _ _ _); [|discriminate]. now intros [= <-].
Qed.
Lemma no_panic_proof (Z0 : zero_eq_zero N) w l : fresh_world w -> Forall plain l -> jumps_on_at_most_two w l -> exists w', run_calls w l = Ret w'.
Proof. intros H. apply (run_calls_ok Z0), fresh_ok, H. Qed.

(** a test for examples *)
Fixpoint jumps_b w (l : list (scall T)) : bool :=
  match l with
  | [] => true
  | c :: r =>
      match c with
      | SDevice i (OOther (DDestinationTo _)) => match nth_error (w_devs w) i with Some s => Nat.leb (List.length (sd_routes s)) 2 | None => true end
      | _ => true
      end && match run_call w c with Ret w' => jumps_b w' r | _ => true end
  end.
Lemma jumps_b_ok l : forall w, jumps_b w l = true -> jumps_on_at_most_two w l.
Proof.
  induction l as [|c l IH]; intros w H; cbn [jumps_b jumps_on_at_most_two] in *; [exact I|]. apply andb_prop in H as [A B]. split.
  - destruct c as [i o|a o|a o]; auto. destruct o as [x|x|o]; auto. destruct o; auto. destruct (nth_error (w_devs w) i); auto. now apply Nat.leb_le.
  - destruct (run_call w c); auto.
Qed.

Definition keep_b (j : nat) (l : list (scall T)) : bool :=
  forallb (fun c => match c with SDevice i (OOther (DRemoveTrack _ _)) => Nat.eqb i j | _ => true end) l.
Lemma keep_b_ok j l : keep_b j l = true -> others_keep_tracks j l.
Proof. unfold keep_b. rewrite forallb_forall. intros H i r t K. apply H in K. cbn in K. now apply Nat.eqb_eq. Qed.

(** ** without the others *)
Notation vr := (view_route true).
Notation vd := (view true true).
Definition strip (d : device T) : device T := reload d [] [].

Lemma load_view w s : vd (load w s) = reload (strip (vd (sd_dev s))) (pick (map vr (w_routes w)) (sd_routes s)) (pick (w_sensors w) (sd_sensors s)).
Proof. rewrite pick_map. reflexivity. Qed.

Lemma add_routes_args (rs rs' : list (option (route T))) : map (option_map vr) rs = map (option_map vr) rs' -> forall l l' ok, map vr l = map vr l' ->
  map vr (fst (add_routes l rs ok)) = map vr (fst (add_routes l' rs' ok)) /\ snd (add_routes l rs ok) = snd (add_routes l' rs' ok).
Proof.
  revert rs'. induction rs as [|x rs IH]; intros [|x' rs'] E l l' ok H; try discriminate; [now split|]. cbn [map] in E.
  pose proof (f_equal (@tl _) E) as E'. pose proof (f_equal (hd None) E) as Ex. cbn [tl hd] in E', Ex. clear E. rename E' into E.
  destruct x as [x|], x' as [x'|]; try discriminate; cbn [add_routes]; [|now apply IH]. apply Some_inj' in Ex.
  assert (Ei : rt_id x = rt_id x') by exact (f_equal (fun r => rt_id r) Ex).
  rewrite (hasRoute_eq true l l' (rt_id x) H), Ei. destruct (hasRoute l' (rt_id x')); apply IH; auto. rewrite !map_app. cbn. now rewrite H, Ex.
Qed.
Lemma nav_AddRoute_args (n : navigator T) rs rs' : map (option_map vr) rs = map (option_map vr) rs' -> pv true (nav_AddRoute n rs) = pv true (nav_AddRoute n rs').
Proof.
  intros E. unfold nav_AddRoute. destruct rs as [|x rs], rs' as [|x' rs']; try discriminate; [reflexivity|].
  destruct (add_routes_args _ _ E (n_routes n) (n_routes n) 0 eq_refl) as [H1 H2].
  destruct (add_routes (n_routes n) (x :: rs) 0) as [l ok], (add_routes (n_routes n) (x' :: rs') 0) as [l' ok']. cbn in H1, H2. subst ok'.
  assert (Es : view_nav true (set_routes n l) = view_nav true (set_routes n l')) by (unfold view_nav, set_routes; cbn; now rewrite H1).
  unfold pv. cbn [fst snd]. destruct (0 <? ok)%Z; [|now rewrite Es]. f_equal. unfold nav_nextVersion.
  change (view_nav true (set_ver (nav_Reset (set_routes n l)) (n_ver (nav_Reset (set_routes n l)) + 1))) with (set_ver (view_nav true (nav_Reset (set_routes n l))) (n_ver n + 1)).
  change (view_nav true (set_ver (nav_Reset (set_routes n l')) (n_ver (nav_Reset (set_routes n l')) + 1))) with (set_ver (view_nav true (nav_Reset (set_routes n l'))) (n_ver n + 1)).
  now rewrite <- !Reset_view, Es.
Qed.
Lemma updateRoutes_same (d d' : device T) : vd d = vd d' -> rmap vd (updateRoutes d) = rmap vd (updateRoutes d').
Proof. intros H. rewrite <- !updateRoutes_view. now rewrite H. Qed.
Lemma AddRoute_args (d : device T) rs rs' : map (option_map vr) rs = map (option_map vr) rs' ->
  rmap (pd true true) (AddRoute d rs) = rmap (pd true true) (AddRoute d rs').
Proof.
  intros E. unfold AddRoute. pose proof (nav_AddRoute_args (d_nav d) rs rs' E) as H. unfold pv in H.
  destruct (nav_AddRoute (d_nav d) rs) as [e n], (nav_AddRoute (d_nav d) rs') as [e' n'].
  pose proof (f_equal fst H) as Ee. pose proof (f_equal snd H) as En. cbn [fst snd] in Ee, En. subst e'. clear H.
  assert (K : vd (dset_nav d n) = vd (dset_nav d n')) by (unfold view, dset_nav; cbn; now rewrite En).
  destruct e as [e|].
  - cbn. unfold pd. cbn. now rewrite K.
  - pose proof (updateRoutes_same _ _ K) as Q. destruct (updateRoutes (dset_nav d n)), (updateRoutes (dset_nav d n')); cbn [rmap bind] in *; try discriminate; try reflexivity.
    unfold pd. cbn [fst snd]. apply Ret_inj in Q. now rewrite Q.
Qed.

Section Two.
Variables (mine : list nat).
Definition same_heaps w v : Prop :=
  map vr (w_routes w) = map vr (w_routes v) /\ (forall a, In a mine -> nth_error (w_sensors w) a = nth_error (w_sensors v) a).
Definition gives_mine (o : shared_op T) : Prop := match o with OAddSensor l => forall a, In (Some a) l -> In a mine | _ => True end.

Lemma target_same w v p : same_heaps w v -> option_map vr (target (w_routes w) p) = option_map vr (target (w_routes v) p).
Proof. intros [H _]. destruct p as [a|]; [|reflexivity]. cbn. rewrite <- !nth_error_map. now rewrite H. Qed.

Lemma same_call w v (d d' : device T) o : same_heaps w v -> gives_mine o -> vd d = vd d' ->
  rmap vd (run_dev d (op_of w o)) = rmap vd (run_dev d' (op_of v o)) /\ reply d (op_of w o) = reply d' (op_of v o).
Proof.
  intros Hh Hm H.
  assert (G : forall o, rmap vd (run_dev d o) = rmap vd (run_dev d' o) /\ reply d o = reply d' o).
  { intros o'. split; [now apply run_dev_same|]. rewrite <- (reply_view true true d), <- (reply_view true true d') by now left. now rewrite H. }
  destruct o as [l|l|o]; cbn [op_of]; [| |apply G].
  - destruct (G (DAddRoute (map (target (w_routes w)) l))) as [A B]. rewrite A, B. clear A B.
    assert (E : map (option_map vr) (map (target (w_routes w)) l) = map (option_map vr) (map (target (w_routes v)) l)).
    { rewrite !map_map. apply map_ext. intros p. now apply target_same. }
    pose proof (AddRoute_args d' _ _ E) as Q. cbn [run_dev reply]. split.
    + exact (pd_snd true true _ _ Q).
    + exact (pd_fst true true Err _ _ Q).
  - assert (E : map (target (w_sensors w)) l = map (target (w_sensors v)) l).
    { apply map_ext_in. intros [a|] Ha; [|reflexivity]. cbn. apply Hh. now apply Hm. }
    rewrite E. apply G.
Qed.

Lemma add_route_ptrs_same (h h' : list (route T)) new : map vr h = map vr h' -> forall l, add_route_ptrs h l new = add_route_ptrs h' l new.
Proof.
  intros H. induction new as [|p new IH]; intros l; [reflexivity|]. cbn [add_route_ptrs]. destruct p as [a|]; [|apply IH]. cbn [target].
  assert (E : option_map vr (nth_error h a) = option_map vr (nth_error h' a)) by (rewrite <- !nth_error_map; now rewrite H).
  destruct (nth_error h a) as [x|], (nth_error h' a) as [x'|]; try discriminate; [|apply IH].
  apply Some_inj' in E. assert (Ei : rt_id x = rt_id x') by exact (f_equal (fun r => rt_id r) E).
  assert (Ep : map vr (pick h l) = map vr (pick h' l)) by (rewrite <- !pick_map; now rewrite H).
  rewrite Ei, (hasRoute_eq true _ _ (rt_id x') Ep). destruct (hasRoute _ _); apply IH.
Qed.
Lemma route_ptrs_same (h h' : list (route T)) l o : map vr h = map vr h' -> route_ptrs h l o = route_ptrs h' l o.
Proof.
  intros H. destruct o as [new|new|o]; cbn [route_ptrs]; [now apply add_route_ptrs_same|reflexivity|]. destruct o; try reflexivity.
  destruct (_ || _)%bool; [reflexivity|].
  assert (Ep : map vr (pick h l) = map vr (pick h' l)) by (rewrite <- !pick_map; now rewrite H).
  pose proof (find_index_map vr (fun r => String.eqb (rt_id r) id) (pick h l)) as A. pose proof (find_index_map vr (fun r => String.eqb (rt_id r) id) (pick h' l)) as B.
  rewrite Ep in A. rewrite A in B. cbn in B. unfold view_route in B. cbn in B. now rewrite B.
Qed.
Lemma sensor_ptrs_same (h h' : list (sensor T)) l o : (forall a, In a mine -> nth_error h a = nth_error h' a) -> incl l mine -> gives_mine o ->
  sensor_ptrs h l o = sensor_ptrs h' l o /\ incl (sensor_ptrs h l o) mine.
Proof.
  intros H I G.
  assert (Ep : forall l, incl l mine -> pick h l = pick h' l) by (intros l' Hl; apply pick_ext; auto).
  destruct o as [new|new|o]; cbn [sensor_ptrs]; [now split| |].
  - cbn in G. revert l I. induction new as [|p new IH]; intros l I; [now split|]. cbn [add_sensor_ptrs].
    assert (IH' := IH (fun a Ha => G a (or_intror Ha))). destruct p as [a|]; [|now apply IH'].
    assert (Ha : In a mine) by (apply G; now left). cbn [target]. rewrite (H a Ha), (Ep l I).
    destruct (nth_error h' a); [|now apply IH']. destruct (hasSensor _ _); apply IH'; auto. apply incl_app; auto. intros b [<-|[]]. exact Ha.
  - destruct o; try (split; [reflexivity|exact I]).
    + split; [reflexivity|]. intros a [].
    + destruct (_ =? _)%Z; [now split|]. rewrite (Ep l I). destruct (find_index _ _); [|now split]. split; [reflexivity|].
      intros a Ha. apply I. eapply del_nth_In, Ha.
Qed.
Lemma set_nth_same (h h' : list (sensor T)) b x : (forall a, In a mine -> nth_error h a = nth_error h' a) ->
  forall a, In a mine -> nth_error (set_nth b x h) a = nth_error (set_nth b x h') a.
Proof.
  intros H a Ha. destruct (Nat.eq_dec b a) as [->|Hne]; [|rewrite !nth_set_ne by exact Hne; now apply H].
  specialize (H a Ha).
  assert (K : forall (l : list (sensor T)), nth_error (set_nth a x l) a = option_map (fun _ => x) (nth_error l a)).
  { clear. intros l. revert a. induction l as [|y l IH]; intros [|a]; cbn; auto. }
  now rewrite !K, H.
Qed.
Lemma put_same l : forall (h h' : list (sensor T)) x, (forall a, In a mine -> nth_error h a = nth_error h' a) ->
  forall a, In a mine -> nth_error (put h l x) a = nth_error (put h' l x) a.
Proof. induction l as [|b l IH]; intros h h' [|x y] H a Ha; cbn; auto. apply IH; auto. intros c Hc. now apply set_nth_same. Qed.

Variables (j : nat).
Record sim w v (s s' : sdevice T) : Prop := {
  sim_w : well_held w;
  sim_v : well_held v;
  sim_heaps : same_heaps w v;
  sim_jw : nth_error (w_devs w) j = Some s;
  sim_jv : nth_error (w_devs v) j = Some s';
  sim_routes : sd_routes s = sd_routes s';
  sim_sensors : sd_sensors s = sd_sensors s';
  sim_mine : incl (sd_sensors s) mine;
  sim_dev : strip (vd (sd_dev s)) = strip (vd (sd_dev s'));
  sim_others : forall i x a, i <> j -> nth_error (w_devs w) i = Some x -> In a (sd_sensors x) -> ~ In a mine }.

Lemma sim_load w v s s' : sim w v s s' -> vd (load w s) = vd (load v s').
Proof.
  intros H. destruct (sim_heaps _ _ _ _ H) as [A B]. rewrite !load_view, (sim_dev _ _ _ _ H), A, <- (sim_routes _ _ _ _ H), <- (sim_sensors _ _ _ _ H). f_equal.
  apply pick_ext. intros a Ha. apply B. now apply (sim_mine _ _ _ _ H).
Qed.

Lemma touched_list_view (l l' : list (route T)) : Forall2 touched l l' -> map vr l' = map vr l.
Proof. induction 1 as [|x y l l' H _ IH]; cbn; [reflexivity|]. now rewrite (touched_view _ _ H), IH. Qed.

Lemma sensor_ptrs_incl (h : list (sensor T)) l o a : In a (sensor_ptrs h l o) ->
  In a l \/ match o with OAddSensor new => In (Some a) new | _ => False end.
Proof.
  destruct o as [new|new|o]; cbn [sensor_ptrs]; auto.
  - revert l. induction new as [|p new IH]; intros l H; cbn [add_sensor_ptrs] in H; [now left|].
    assert (G : forall l', In a (add_sensor_ptrs h l' new) -> In a l' \/ In (Some a) (p :: new)) by (intros l' K; apply IH in K as [K|K]; [now left|right; now right]).
    destruct p as [b|]; [|now apply G]. destruct (target h (Some b)); [|now apply G]. destruct (hasSensor _ _); [now apply G|].
    apply G in H as [H|H]; [|now right]. apply in_app_iff in H as [H|[->|[]]]; [now left|right; now left].
  - intros H. left. destruct o; auto.
    + destruct H.
    + destruct (_ =? _)%Z; [exact H|]. destruct (find_index _ _); [|exact H]. eapply del_nth_In, H.
Qed.

(** a call on another device *)
Lemma sim_other w v s s' i o w1 : sim w v s s' -> i <> j -> plain (SDevice i o) -> (forall r t, o <> OOther (DRemoveTrack r t)) ->
  match o with OAddSensor l => forall a, In (Some a) l -> ~ In a mine | _ => True end -> call_device w i o = Ret w1 -> sim w1 v s s'.
Proof.
  intros H Hi P Ht Hm R. destruct (nth_error (w_devs w) i) as [x|] eqn:E.
  2: { unfold call_device in R. rewrite E in R. injection R as <-. exact H. }
  destruct (call_device_inv w i o x w1 (sim_w _ _ _ _ H) P E R) as (d & A & B & C & _ & W1 & _ & F & _). cbv zeta in B.
  destruct (sim_heaps _ _ _ _ H) as [K1 K2].
  assert (Kt : ~ removes_track (op_of w o)) by (destruct o as [| |o]; cbn; auto; destruct o; cbn; auto; intros _; now apply (Ht rid tid)).
  assert (Q : forall a, In a (sensor_ptrs (w_sensors w) (sd_sensors x) o) -> ~ In a mine).
  { intros a Ha. apply sensor_ptrs_incl in Ha as [Ha|Ha]; [eapply (sim_others _ _ _ _ H); eauto|]. destruct o; auto. }
  constructor; try apply H; auto.
  - split.
    + rewrite (touched_list_view _ _ (F Kt)). exact K1.
    + intros a Ha. rewrite <- (K2 a Ha). subst w1. cbn. apply nth_put_ne. intros Hs. now apply (Q a Hs).
  - subst w1. cbn. rewrite nth_set_ne by exact Hi. apply H.
  - intros k y a Hk Ey Ha. destruct (Nat.eq_dec i k) as [<-|Hne].
    + rewrite C in Ey. injection Ey as <-. now apply Q.
    + subst w1. cbn in Ey. rewrite nth_set_ne in Ey by exact Hne. eapply (sim_others _ _ _ _ H); eauto.
Qed.

(** a call on the device *)
Lemma sim_own w v s s' o w1 : sim w v s s' -> plain (SDevice j o) -> gives_mine o -> call_device w j o = Ret w1 ->
  exists v1 t t', call_device v j o = Ret v1 /\ sim w1 v1 t t' /\ reply (load w s) (op_of w o) = reply (load v s') (op_of v o).
Proof.
  intros H P G R. pose proof (sim_load _ _ _ _ H) as HL. pose proof (sim_heaps _ _ _ _ H) as HH.
  destruct (same_call w v _ _ o HH G HL) as [S1 S2].
  destruct (call_device_inv w j o s w1 (sim_w _ _ _ _ H) P (sim_jw _ _ _ _ H) R) as (d & A & B & C & _ & W1 & _). cbv zeta in B.
  rewrite A in S1. cbn [rmap bind] in S1.
  destruct (run_dev (load v s') (op_of v o)) as [d'| |] eqn:A'; cbn [rmap bind] in S1; try discriminate. apply Ret_inj in S1.
  assert (R' : exists v1, call_device v j o = Ret v1) by (unfold call_device; rewrite (sim_jv _ _ _ _ H), A'; cbn [bind]; eauto).
  destruct R' as (v1 & R'). destruct (call_device_inv v j o s' v1 (sim_v _ _ _ _ H) P (sim_jv _ _ _ _ H) R') as (d2 & A2 & B' & C' & _ & V1 & _). cbv zeta in B'.
  rewrite A' in A2. injection A2 as <-. destruct HH as [K1 K2].
  pose proof (route_ptrs_same (w_routes w) (w_routes v) (sd_routes s) o K1) as Q1.
  destruct (sensor_ptrs_same (w_sensors w) (w_sensors v) (sd_sensors s) o K2 (sim_mine _ _ _ _ H) G) as [Q2 Q3].
  exists v1. do 2 eexists. split; [exact R'|]. split; [|exact S2]. econstructor; [exact W1|exact V1| |exact C|exact C'| | | | |].
  - rewrite B, B'. split; cbn [w_routes w_sensors].
    + rewrite <- !put_map, K1, Q1, (sim_routes _ _ _ _ H). f_equal. exact (f_equal (fun x => n_routes (d_nav x)) S1).
    + rewrite Q2, (sim_sensors _ _ _ _ H). assert (Es : d_sensors d = d_sensors d') by exact (f_equal (fun x => d_sensors x) S1). rewrite Es. now apply put_same.
  - cbn. now rewrite Q1, (sim_routes _ _ _ _ H).
  - cbn. now rewrite Q2, (sim_sensors _ _ _ _ H).
  - exact Q3.
  - cbn. now rewrite S1.
  - intros k y a Hk Ey Ha. rewrite B in Ey. cbn in Ey. rewrite nth_set_ne in Ey by auto. eapply (sim_others _ _ _ _ H); eauto.
Qed.

Lemma set_nth_map_eq {A B} (f : A -> B) (h h' : list A) a x x' : map f h = map f h' -> f x = f x' -> map f (set_nth a x h) = map f (set_nth a x' h').
Proof. intros E F. now rewrite !map_set_nth, E, F. Qed.

Lemma run_route_same (r r' : route T) o : vr r = vr r' -> vr (run_route r o) = vr (run_route r' o).
Proof. intros E. rewrite <- (run_route_view true r), <- (run_route_view true r'). now rewrite E. Qed.

(** a call on a route *)
Lemma sim_route w v s s' a o w1 : sim w v s s' -> run_call w (SRoute a o) = Ret w1 -> exists v1, run_call v (SRoute a o) = Ret v1 /\ sim w1 v1 s s'.
Proof.
  intros H R. cbn [run_call] in *. eexists. split; [reflexivity|]. destruct (sim_heaps _ _ _ _ H) as [K1 K2].
  assert (E : option_map vr (nth_error (w_routes w) a) = option_map vr (nth_error (w_routes v) a)) by (rewrite <- !nth_error_map; now rewrite K1).
  destruct (nth_error (w_routes w) a) as [r|], (nth_error (w_routes v) a) as [r'|]; try discriminate; injection R as <-; [|exact H]. apply Some_inj' in E.
  constructor; try apply H.
  - pose proof (sim_w _ _ _ _ H) as W. unfold well_held in *. cbn. now rewrite set_nth_length.
  - pose proof (sim_v _ _ _ _ H) as W. unfold well_held in *. cbn. now rewrite set_nth_length.
  - split; [|exact K2]. cbn. apply set_nth_map_eq; [exact K1|]. apply run_route_same, E.
Qed.

(** a call on a sensor *)
Lemma sim_sensor_mine w v s s' a o w1 : sim w v s s' -> In a mine -> run_call w (SSensor a o) = Ret w1 -> exists v1, run_call v (SSensor a o) = Ret v1 /\ sim w1 v1 s s'.
Proof.
  intros H Ha R. cbn [run_call] in *. destruct (sim_heaps _ _ _ _ H) as [K1 K2]. rewrite <- (K2 a Ha).
  destruct (nth_error (w_sensors w) a) as [x|]; [|injection R as <-; eauto]. destruct (run_sensor1 x o) as [x'| |]; cbn [bind] in *; try discriminate.
  injection R as <-. eexists. split; [reflexivity|]. constructor; try apply H.
  - pose proof (sim_w _ _ _ _ H) as W. unfold well_held in *. cbn. now rewrite set_nth_length.
  - pose proof (sim_v _ _ _ _ H) as W. unfold well_held in *. cbn. now rewrite set_nth_length.
  - split; [exact K1|]. cbn. now apply set_nth_same.
Qed.
Lemma sim_sensor_other w v s s' a o w1 : sim w v s s' -> ~ In a mine -> run_call w (SSensor a o) = Ret w1 -> sim w1 v s s'.
Proof.
  intros H Ha R. cbn [run_call] in *. destruct (sim_heaps _ _ _ _ H) as [K1 K2].
  destruct (nth_error (w_sensors w) a) as [x|]; [|injection R as <-; exact H]. destruct (run_sensor1 x o) as [x'| |]; cbn [bind] in *; try discriminate.
  injection R as <-. constructor; try apply H.
  - pose proof (sim_w _ _ _ _ H) as W. unfold well_held in *. cbn. now rewrite set_nth_length.
  - split; [exact K1|]. cbn. intros b Hb. rewrite nth_set_ne; [now apply K2|]. intros ->. contradiction.
Qed.

Lemma alone_sim l : forall w v s s' w', sim w v s s' -> Forall plain l ->
  (forall i a, i <> j -> In a (sensors_given i l) -> ~ In a mine) -> incl (sensors_given j l) mine -> others_keep_tracks j l -> run_calls w l = Ret w' ->
  exists v' t t', run_calls v (without_others j mine l) = Ret v' /\ sim w' v' t t' /\ answers w j l = answers v j (without_others j mine l).
Proof.
  induction l as [|c l IH]; intros w v s s' w' H P Ho Hm Ht R; cbn [run_calls] in R.
  - injection R as <-. exists v, s, s'. repeat split; auto; try apply H.
  - inversion P as [|? ? Pc Pl]; subst. destruct (run_call w c) as [w1| |] eqn:R1; cbn [bind] in R; try discriminate.
    assert (Ht' : others_keep_tracks j l) by (intros i r t K; apply (Ht i r t); now right).
    assert (Ho' : forall i a, i <> j -> In a (sensors_given i l) -> ~ In a mine).
    { intros i a Hi Ha. apply (Ho i a Hi). unfold sensors_given. cbn [flat_map]. apply in_app_iff. now right. }
    assert (Hm' : incl (sensors_given j l) mine).
    { intros a Ha. apply Hm. unfold sensors_given. cbn [flat_map]. apply in_app_iff. now right. }
    assert (R0 := R1). destruct c as [i o|a o|a o]; cbn [run_call] in R1.
    + unfold without_others. cbn [filter]. fold (without_others j mine l). destruct (Nat.eqb_spec i j) as [->|Hi].
      * assert (G : gives_mine o).
        { destruct o as [new|new|o]; cbn; auto. intros a Ha. apply Hm. unfold sensors_given. cbn [flat_map]. rewrite Nat.eqb_refl. apply in_app_iff. left.
          apply in_flat_map. exists (Some a). split; [exact Ha|now left]. }
        destruct (sim_own w v s s' o w1 H Pc G R1) as (v1 & t & t' & R2 & H1 & Q).
        destruct (IH w1 v1 t t' w' H1 Pl Ho' Hm' Ht' R) as (v' & u & u' & A & B & C). exists v', u, u'.
        cbn [run_calls run_call]. rewrite R2. cbn [bind]. split; [exact A|]. split; [exact B|].
        cbn [answers run_call]. rewrite Nat.eqb_refl. unfold device_at. rewrite (sim_jw _ _ _ _ H), (sim_jv _ _ _ _ H). cbn [option_map]. rewrite R1, R2, Q, C. reflexivity.
      * assert (H1 : sim w1 v s s').
        { apply (sim_other w v s s' i o w1 H Hi Pc); [| |exact R1].
          - intros r t ->. apply Hi. apply (Ht i r t). now left.
          - destruct o as [new|new|o]; auto. intros a Ha. apply (Ho i a Hi). unfold sensors_given. cbn [flat_map]. rewrite Nat.eqb_refl. apply in_app_iff. left.
            apply in_flat_map. exists (Some a). split; [exact Ha|now left]. }
        destruct (IH w1 v s s' w' H1 Pl Ho' Hm' Ht' R) as (v' & u & u' & A & B & C). exists v', u, u'. split; [exact A|]. split; [exact B|].
        cbn [answers run_call]. destruct (Nat.eqb_spec i j) as [|_]; [contradiction|]. rewrite R1. destruct (device_at w j); exact C.
    + unfold without_others. cbn [filter]. fold (without_others j mine l).
      destruct (sim_route w v s s' a o w1 H R1) as (v1 & R2 & H1).
      destruct (IH w1 v1 s s' w' H1 Pl Ho' Hm' Ht' R) as (v' & u & u' & A & B & C). exists v', u, u'.
      cbn [run_calls]. rewrite R2. cbn [bind]. split; [exact A|]. split; [exact B|]. cbn [answers]. rewrite R0, R2. exact C.
    + unfold without_others. cbn [filter]. fold (without_others j mine l). destruct (existsb (Nat.eqb a) mine) eqn:Ea.
      * apply existsb_exists in Ea as (b & Hb & Eb). apply Nat.eqb_eq in Eb. subst b.
        destruct (sim_sensor_mine w v s s' a o w1 H Hb R1) as (v1 & R2 & H1).
        destruct (IH w1 v1 s s' w' H1 Pl Ho' Hm' Ht' R) as (v' & u & u' & A & B & C). exists v', u, u'.
        cbn [run_calls]. rewrite R2. cbn [bind]. split; [exact A|]. split; [exact B|]. cbn [answers]. rewrite R0, R2. exact C.
      * assert (Hb : ~ In a mine).
        { intros K. assert (X : existsb (Nat.eqb a) mine = true) by (apply existsb_exists; exists a; split; [exact K|apply Nat.eqb_refl]). congruence. }
        pose proof (sim_sensor_other w v s s' a o w1 H Hb R1) as H1.
        destruct (IH w1 v s s' w' H1 Pl Ho' Hm' Ht' R) as (v' & u & u' & A & B & C). exists v', u, u'. split; [exact A|]. split; [exact B|].
        cbn [answers]. rewrite R0. exact C.
Qed.
End Two.

Lemma alone_proof w j d l w' : well_held w -> Forall plain l -> device_at w j = Some d -> sensors_not_shared w j l -> others_keep_tracks j l ->
  run_calls w l = Ret w' ->
  exists v' e e', run_calls w (without_others j (its_sensors w j l) l) = Ret v' /\ device_at w' j = Some e /\ device_at v' j = Some e' /\
    vd e = vd e' /\ answers w j l = answers w j (without_others j (its_sensors w j l) l).
Proof.
  intros W P D S K R. unfold device_at in D. destruct (nth_error (w_devs w) j) as [s|] eqn:E; [|discriminate]. clear D.
  destruct (alone_sim (its_sensors w j l) j l w w s s w') as (v' & t & t' & A & B & C); auto.
  - constructor; auto.
    + now split.
    + intros a Ha. unfold its_sensors, sensors_held. rewrite E. apply in_app_iff. now left.
    + intros i x a Hi Ex Ha. apply (S i a Hi). unfold its_sensors, sensors_held. rewrite Ex. apply in_app_iff. now left.
  - intros i a Hi Ha. apply (S i a Hi). unfold its_sensors. apply in_app_iff. now right.
  - intros a Ha. unfold its_sensors. apply in_app_iff. now right.
  - exists v', (load w' t), (load v' t'). unfold device_at. rewrite (sim_jw _ _ _ _ _ _ B), (sim_jv _ _ _ _ _ _ B). repeat split; auto. eapply sim_load, B.
Qed.
End SharedAlone.
