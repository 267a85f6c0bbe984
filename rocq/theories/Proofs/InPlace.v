(** C84: restoring objects in place. *)
From Coq Require Import Lia.
From Verif.Model Require Import Base Num Geo Curve PropMap Types Pb TypesSnap Track Route Navigator Device.
From Verif.Spec Require Import ListSpec TrackSpec RouteSpec NavSpec TypesSpec DeviceSpec.
From Verif.Proofs Require Import BaseLemmas SnapProofs DeviceLemmas DeviceProofs2.
Open Scope num_scope.

Lemma Ret_inj {A} (x y : A) : Ret x = Ret y -> x = y. Proof. now intros [= ->]. Qed.

Section P.
Context {T : Type} {N : Num T} {J : JsonLib T} {U : UtmLib T}.
Implicit Types (d e : device T) (n : navigator T) (r : route T).

Lemma updateRoutes_forgets st nav sp b s ss a t k a' k' :
  updateRoutes (mkDevice st nav sp b s ss a t k) = updateRoutes (mkDevice st nav sp b s ss a' t k').
Proof. unfold updateRoutes. cbn. destruct (pde_routes s); reflexivity. Qed.

Lemma updateState_frame st nav sp b s ss a t k :
  updateState (mkDevice st nav sp b s ss a t k) =
  let* d := updateState (mkDevice st nav sp b s ss f0 t (0, 0, 0)%Z) in Ret (mkDevice st nav sp b (d_state d) ss a t k).
Proof.
  unfold updateState. cbn. destruct (nav_Update nav s) as [s1| |]; try reflexivity. cbn.
  destruct (pde_battery s1) as [pb|]; cbn; try reflexivity. destruct (pde_distance s1) as [pd|]; cbn; try reflexivity.
  destruct (zlen ss =? zlen _)%Z; reflexivity.
Qed.

Lemma C84_device_proof d e s : d_tick d = d_tick e -> (psn_sensors s <> [] \/ d_sensors d = d_sensors e) ->
  device_FromSnapshot d s = device_FromSnapshot e s.
Proof.
  intros Ht Hs. unfold device_FromSnapshot. cbn zeta.
  destruct (nav_FromSnapshot nav_zero (psn_navigator s)) as [nv| |]; cbn [bind]; try reflexivity.
  destruct (speed_FromSnapshot (psn_speed s)) as [sp| |]; cbn [bind]; try reflexivity.
  destruct (battery_FromSnapshot (psn_battery s)) as [b| |]; cbn [bind]; try reflexivity.
  assert (Q : (match psn_sensors s with [] => Ret (d_sensors d) | p :: l => mapM (fun s => sensor_FromSnapshot (Some s)) (p :: l) end)
     = (match psn_sensors s with [] => Ret (d_sensors e) | p :: l => mapM (fun s => sensor_FromSnapshot (Some s)) (p :: l) end))
     by (destruct (psn_sensors s); [destruct Hs as [Hs|Hs]; [contradiction|now rewrite Hs]|reflexivity]).
  rewrite Q, Ht. clear Q.
  destruct (match psn_sensors s with [] => Ret (d_sensors e) | _ :: _ => _ end) as [ss| |]; cbn [bind]; try reflexivity.
  unfold updateSensors, dset_state. cbn [d_status d_nav d_speed d_battery d_state d_sensors d_avgT d_tick d_ns].
  rewrite (updateState_frame _ _ _ _ _ _ (d_avgT d) _ (d_ns d)).
  rewrite (updateState_frame _ _ _ _ _ _ (d_avgT e) _ (d_ns e)).
  destruct (updateState _) as [x| |]; cbn [bind]; reflexivity.
Qed.

(** what stays of the device *)
Lemma C84_kept_proof d s x : device_FromSnapshot d s = Ret x ->
  d_tick x = d_tick d /\ (psn_sensors s = [] -> d_sensors x = d_sensors d).
Proof.
  unfold device_FromSnapshot. cbn zeta.
  destruct (nav_FromSnapshot nav_zero (psn_navigator s)) as [nv| |]; cbn [bind]; try discriminate.
  destruct (speed_FromSnapshot (psn_speed s)) as [sp| |]; cbn [bind]; try discriminate.
  destruct (battery_FromSnapshot (psn_battery s)) as [b| |]; cbn [bind]; try discriminate.
  destruct (match psn_sensors s with [] => _ | _ :: _ => _ end) as [ss| |] eqn:E; cbn [bind]; try discriminate.
  unfold updateSensors, dset_state. cbn [d_status d_nav d_speed d_battery d_state d_sensors d_avgT d_tick d_ns].
  rewrite (updateState_frame _ _ _ _ _ _ (d_avgT d) _ (d_ns d)).
  destruct (updateState _) as [y| |]; cbn [bind]; try discriminate. intros H. apply updateRoutes_inv in H.
  destruct H as (_ & _ & _ & H1 & H2 & _). cbn [d_sensors d_tick] in H1, H2. split; [exact H2|].
  intros Hs. rewrite Hs in E. rewrite H1. congruence.
Qed.

(** ** routes *)
Lemma C84_route_proof r r' s : (pro_name s <> ""%string \/ rt_name r = rt_name r') ->
  match RouteFromSnapshot r s, RouteFromSnapshot r' s with
  | Ret (None, x), Ret (None, y) => x = y
  | Ret (Some e, x), Ret (Some e', y) => e = e' /\ x = r /\ y = r'
  | Panic, Panic => True
  | _, _ => False
  end.
Proof.
  intros H. unfold RouteFromSnapshot.
  assert (NF : mapM TrackFromSnapshot (pro_tracks s) <> NoFuel).
  { generalize (pro_tracks s) as l. induction l as [|t l IH]; cbn; [discriminate|].
    destruct (TrackFromSnapshot t) as [x| |] eqn:E; cbn; try discriminate.
    - destruct (mapM TrackFromSnapshot l); cbn; congruence.
    - exfalso. revert E. unfold TrackFromSnapshot.
      assert (mapM SegmentFromSnapshot (ptr_segments t) <> NoFuel).
      { generalize (ptr_segments t) as k. induction k as [|g k IK]; cbn; [discriminate|].
        unfold SegmentFromSnapshot at 1. destruct (psg_point_a g); cbn; try discriminate. destruct (psg_point_b g); cbn; try discriminate.
        destruct (mapM SegmentFromSnapshot k); cbn; congruence. }
      destruct (mapM SegmentFromSnapshot (ptr_segments t)); cbn; congruence. }
  destruct (mapM TrackFromSnapshot (pro_tracks s)) as [ts| |]; cbn [bind]; auto.
  destruct (if (0 <? slen (pro_props s))%Z then _ else _) as [p|]; [|auto].
  destruct (Z.ltb_spec 0 (slen (pro_name s))) as [L|L].
  - destruct (ParseName (pro_name s)); auto.
  - destruct H as [H|H]; [|now rewrite H]. exfalso. apply H. destruct (pro_name s); [reflexivity|].
    unfold slen in L. cbn in L. lia.
Qed.
Lemma C84_name_proof r s x : pro_name s = ""%string -> RouteFromSnapshot r s = Ret (None, x) -> rt_name x = rt_name r.
Proof.
  intros H. unfold RouteFromSnapshot. rewrite H.
  destruct (mapM TrackFromSnapshot (pro_tracks s)) as [ts| |]; cbn [bind]; try discriminate.
  destruct (if (0 <? slen (pro_props s))%Z then _ else _) as [p|]; [|discriminate].
  change (0 <? slen "")%Z with false. cbn. intros E.
  apply (f_equal (fun z => match z with Ret y => rt_name (snd y) | _ => rt_name r end)) in E. symmetry. exact E.
Qed.

(** ** navigators *)
Lemma C84_navigator_proof n n' s : n_skip n = false -> n_skip n' = false -> nav_FromSnapshot n (Some s) = nav_FromSnapshot n' (Some s).
Proof. intros H H'. unfold nav_FromSnapshot. rewrite H, H'. reflexivity. Qed.
Lemma C84_skip_proof n s n' draw : n_skip n = true -> n_rnd n = None -> pna_skip_offline s = false ->
  nav_FromSnapshot n (Some s) = Ret n' -> ToOffline n' draw = Panic.
Proof.
  intros H1 H2 H3. unfold nav_FromSnapshot. rewrite H1, H2, H3.
  destruct (mapM _ (pna_routes s)) as [rs| |]; cbn [bind]; try discriminate.
  destruct (pna_point s) as [p|]; cbn [deref bind]; try discriminate.
  destruct (sensor_FromSnapshot (pna_elevation s)) as [e| |]; cbn [bind]; try discriminate.
  intros E. apply Ret_inj in E. subst n'. reflexivity.
Qed.
Lemma C84_fresh_proof s n' draw : nav_FromSnapshot nav_zero (Some s) = Ret n' -> exists n'', ToOffline n' draw = Ret n''.
Proof.
  unfold nav_FromSnapshot.
  destruct (mapM _ (pna_routes s)) as [rs| |]; cbn [bind]; try discriminate.
  destruct (pna_point s) as [p|]; cbn [deref bind]; try discriminate.
  destruct (sensor_FromSnapshot (pna_elevation s)) as [e| |]; cbn [bind]; try discriminate.
  intros E. apply Ret_inj in E. subst n'. unfold ToOffline. cbn. destruct (pna_skip_offline s); cbn; eauto.
Qed.
End P.
