(** A device that meets the hypotheses of C35, C36 and C38. *)
From Coq Require Import Lia.
From Verif.Model Require Import Base Num NumF64 Utf8 Geo Curve PropMap Types Pb TypesSnap Track Route Navigator Device Wire WireMsgs WireF64 IO.
From Verif.Spec Require Import ListSpec TrackSpec RouteSpec NavSpec TypesSpec DeviceSpec SnapSpec RestoreSpec WireSpec WireMsgSpec DecodeSpec Examples.
From Verif.Proofs Require Import BaseLemmas DeviceProofs DeviceProofs2 DeviceProofs3 JsonExample WireF64Proofs RestoreProofs DecodeProofs.
Open Scope num_scope.

Section MadeRoutes.
Context {T : Type} {N : Num T} {J : JsonLib T}.
Lemma made_from_tracks (ts : list (option (track T))) id c : made_route (RouteFromTracks ts id c).
Proof.
  unfold RouteFromTracks. assert (H : forall r, made_route r -> made_route (fold_left AddTrack ts r)).
  { induction ts as [|t ts IH]; intros r Hr; cbn; [exact Hr|]. apply IH. exact (mr_used r (RAddTrack t) Hr). }
  apply H. constructor.
Qed.
End MadeRoutes.

(** deciding that integers fit *)
Definition z64 (z : Z) : bool := ((- 2 ^ 63 <=? z) && (z <? 2 ^ 63))%Z.
Lemma z64_ok z : z64 z = true -> is_int64 z.
Proof. unfold z64, is_int64. intros H. apply andb_true_iff in H. destruct H as [H1 H2]. apply Z.leb_le in H1. apply Z.ltb_lt in H2. lia. Qed.
Definition seg64 (s : pbSegment f64) : bool := z64 (psg_index s) && z64 (psg_rel s).
Definition trk64 (t : pbTrack f64) : bool := forallb seg64 (ptr_segments t) && z64 (ptr_version t).
Definition rte64 (r : pbRoute f64) : bool := forallb trk64 (pro_tracks r) && z64 (pro_version r).
Definition cv64 (c : option (pbCurve f64)) : bool := match c with Some c => z64 (pcv_mode c) | None => true end.
Definition sen64 (s : pbSensor f64) : bool := cv64 (pse_gen s).
Definition nav64 (n : pbNavigator f64) : bool :=
  forallb rte64 (pna_routes n) && z64 (pna_route_index n) && z64 (pna_track_index n) && z64 (pna_segment_index n) &&
  z64 (pna_offline_index n) && z64 (pna_offline_min n) && z64 (pna_offline_max n) && z64 (pna_version n) &&
  match pna_elevation n with Some e => sen64 e | None => true end.
Definition snap64 (s : pbSnapshot f64) : bool :=
  z64 (psn_status s) && match psn_navigator s with Some n => nav64 n | None => true end &&
  match psn_speed s with Some c => cv64 (pco_gen c) | None => true end &&
  match psn_battery s with Some b => z64 (pba_charge_time b) | None => true end && forallb sen64 (psn_sensors s).

Lemma forallb_ok {A} (p : A -> bool) (P : A -> Prop) l : (forall x, p x = true -> P x) -> forallb p l = true -> Forall P l.
Proof. intros H E. rewrite forallb_forall in E. apply Forall_forall. auto. Qed.
Ltac ab H := repeat (apply andb_true_iff in H; let H2 := fresh in destruct H as [H H2]; ab H2).
Lemma cv64_ok c : cv64 c = true -> if_set int64_Curve c.
Proof.
  destruct c as [c|]; [|constructor]. cbn. intros H. split; [|now apply z64_ok].
  apply Forall_forall. intros p _. split; [destruct (pct_vp p)|destruct (pct_cp p)]; exact I.
Qed.
Lemma rte64_ok r : rte64 r = true -> int64_Route r.
Proof.
  unfold rte64. intros H. apply andb_true_iff in H. destruct H as [H1 H2]. split; [|now apply z64_ok].
  eapply forallb_ok; [|exact H1]. intros t Ht. apply andb_true_iff in Ht. destruct Ht as [H3 H4]. split; [|now apply z64_ok].
  eapply forallb_ok; [|exact H3]. intros s Hs. apply andb_true_iff in Hs. destruct Hs as [H5 H6].
  repeat split; try (now apply z64_ok); [destruct (psg_point_a s)|destruct (psg_point_b s)]; exact I.
Qed.
Lemma snap64_ok s : snap64 s = true -> int64_Snapshot s.
Proof.
  unfold snap64. intros H. apply andb_true_iff in H as [H H5]. apply andb_true_iff in H as [H H4].
  apply andb_true_iff in H as [H H3]. apply andb_true_iff in H as [H1 H2].
  split; [now apply z64_ok|]. split; [|split; [|split]].
  - destruct (psn_navigator s) as [n|]; [|constructor]. cbn. unfold nav64 in H2.
    apply andb_true_iff in H2 as [K K9]. apply andb_true_iff in K as [K K8]. apply andb_true_iff in K as [K K7].
    apply andb_true_iff in K as [K K6]. apply andb_true_iff in K as [K K5]. apply andb_true_iff in K as [K K4].
    apply andb_true_iff in K as [K K3]. apply andb_true_iff in K as [K1 K2].
    split; [eapply forallb_ok; [exact rte64_ok|exact K1]|].
    repeat (split; [first [now apply z64_ok|destruct (pna_point n); exact I|
      destruct (pna_elevation n) as [e|]; [exact (cv64_ok _ K9)|exact I]]|]). now apply z64_ok.
  - destruct (psn_speed s) as [c|]; [|constructor]. exact (cv64_ok _ H3).
  - destruct (psn_battery s) as [c|]; [|constructor]. now apply z64_ok.
  - eapply forallb_ok; [|exact H5]. intros x. apply cv64_ok.
Qed.

#[local] Existing Instance F64Bits.
#[local] Instance xj : JsonLib f64 := ExampleJson F64_bits_law.
#[local] Instance xu : UtmLib f64 := {| utm_of := fun _ _ => mkPbUTM f0 f0 f0 0 "" "" 0 |}.

Lemma xj_law : json_law f64.
Proof. exact (ExampleJson_law F64_bits_law). Qed.

Definition xd_draws : newDraws f64 := mkNewDraws "elev-uuid" (fun _ => f64_ofZ 0) (fun _ => f64_ofZ 0) "device-1" "abcdef" "#0000ff" None.
Definition xd_next : nextDraws f64 := mkNextDraws 0 0 (fun _ => f64_ofZ 0) (fun _ => f64_ofZ 0) (fun _ _ => f64_ofZ 0).
Definition xd_sensor : option (sensor f64) :=
  match NewSensor "temp" (f64_ofZ 10) (f64_ofZ 20) 4 0 "s1" (fun _ => f64_ofZ 0) with GOk s => Some s | GErr _ => None end.
Definition xd_ops : list (dev_op f64) :=
  [DAddSensor [xd_sensor]; DAddRoute [ex_r1; ex_r2]; DRouteOp 0 (RSetProps (props_Set props_Make "kind" (GStr "walk")));
   DNext true (f64_ofZ 5) xd_next; DNext true (f64_ofZ 5) xd_next].

Lemma xd_made : Forall dev_adds_made_routes xd_ops.
Proof.
  unfold xd_ops. constructor; [exact I|]. constructor; [|repeat (constructor; [exact I|]); constructor].
  intros r [H|[H|[]]]; unfold ex_r1, ex_r2, ex_route in H; injection H as <-; apply made_from_tracks.
Qed.

(** everything that has to be computed *)
Definition test_of x (ops : list (dev_op f64)) : bool :=
  match fst (NewDevice None x) with
  | GOk d0 => match run_devs d0 ops with
    | Ret d => match EncodeTracker (Some d) with
      | Ret (GOk b, Some d1) =>
          (zlen b <? 2 ^ 63)%Z && (d_tick d1 =? 0)%Z && (2 <=? zlen (n_routes (d_nav d1)))%Z && (f0 <? n_cd (d_nav d1)) &&
          (1 <=? zlen (d_sensors d1))%Z && (d_status d1 =? Stopped)%Z &&
          match device_Snapshot d1 with Ret s => snap64 s | _ => true end &&
          match CurrentRoute (d_nav d1), CurrentTrack (d_nav d1) with Ret (Some _), Ret (Some _) => true | _, _ => false end
      | _ => false end
    | _ => false end
  | _ => false end.
Lemma xd_test_ok : test_of xd_draws xd_ops = true.
Proof. vm_compute. reflexivity. Qed.

Lemma made_run d0 ops d : made_device d0 -> Forall dev_adds_made_routes ops -> run_devs d0 ops = Ret d -> made_device (T := f64) d.
Proof.
  revert d0. induction ops as [|o ops IH]; intros d0 H Ho E; cbn in E; [injection E as <-; exact H|].
  destruct (run_dev d0 o) as [d1| |] eqn:F; cbn [bind] in E; try discriminate. inversion Ho; subst. eapply IH; [|eassumption|exact E].
  eapply md_used; eauto.
Qed.
Lemma run_devs_app' ops1 : forall ops2 (d d' : device f64), run_devs d (ops1 ++ ops2) = Ret d' ->
  exists d1, run_devs d ops1 = Ret d1 /\ run_devs d1 ops2 = Ret d'.
Proof.
  induction ops1 as [|o l IH]; intros ops2 d d' E; cbn [app run_devs] in *; [eauto|].
  destruct (run_dev d o) as [e| |]; cbn [bind] in *; try discriminate. eauto.
Qed.

Lemma example_of x ops0 tick y : test_of x (ops0 ++ [DNext true tick y]) = true -> Forall dev_adds_made_routes (ops0 ++ [DNext true tick y]) -> exists d b d1,
  made_device d /\ EncodeTracker (Some d) = Ret (GOk b, Some d1) /\ go_sized d1 b /\ snapshot_is_complete d1 /\
  (2 <= zlen (n_routes (d_nav d1)))%Z /\ (1 <= zlen (d_sensors d1))%Z /\ (f0 <? n_cd (d_nav d1)) = true /\ d_status d1 = Stopped.
Proof.
  intros H Hmade. unfold test_of in H.
  destruct (fst (NewDevice None x)) as [d0|] eqn:E0; [|discriminate].
  destruct (run_devs d0 (ops0 ++ [DNext true tick y])) as [d| |] eqn:E1; try discriminate.
  destruct (EncodeTracker (Some d)) as [[[b|] [d1|]]| |] eqn:E2; try discriminate.
  apply andb_true_iff in H as [H H7]. apply andb_true_iff in H as [H H6]. apply andb_true_iff in H as [H H5].
  apply andb_true_iff in H as [H H4]. apply andb_true_iff in H as [H H3]. apply andb_true_iff in H as [H H2].
  apply andb_true_iff in H as [H0 H1].
  exists d, b, d1. split; [eapply made_run; [apply (md_new None x); exact E0|exact Hmade|exact E1]|]. split; [exact E2|].
  split.
  { split; [|now apply Z.ltb_lt]. intros s Es. rewrite Es in H6. now apply snap64_ok. }
  pose proof E2 as E3. unfold EncodeTracker in E3. destruct (device_Update d) as [u| |] eqn:Eu; cbn [bind] in E3; try discriminate.
  destruct (MarshalBinary u) as [bb| |]; cbn [bind] in E3; try discriminate.
  apply (f_equal (fun r => match r with Ret x => snd x | _ => None end)) in E3. cbn [snd] in E3.
  assert (u = d1) by congruence. subst u. clear E3.
  split.
  { split; [now apply Z.eqb_eq|]. split.
    - destruct (C44_update_proof _ _ Eu) as (_ & Hi & _). destruct Hi as (v & r & t & I1 & I2 & I3 & I4 & I5). exists v, r, t.
      rewrite I2, I3 in H7. destruct r as [r|]; [|discriminate]. destruct t as [t|]; [|discriminate]. repeat split; auto.
    - destruct speed_published_proof as (_ & P1 & P2 & _).
      apply run_devs_app' in E1.
      destruct E1 as (e & _ & E1). cbn [run_devs] in E1. destruct (run_dev e (DNext true tick y)) as [e'| |] eqn:F; cbn [bind] in E1; try discriminate.
      injection E1 as <-. eapply (P2 e' DUpdate); [|exact Eu]. eapply P1; [|exact F].
      (* it has routes *)
      intros Hn. cbn [run_dev] in F. rewrite (C42_proof _ _ _ Hn) in F. cbn in F. apply (f_equal (fun r => match r with Ret x => x | _ => e end)) in F. cbn in F. subst e'.
      pose proof (Update_parts _ _ Eu) as (u1 & u2 & U1 & U2 & U3). destruct (updateState_src _ _ U1) as (P3 & _).
      pose proof (updateRoutes_inv _ _ U2) as (_ & _ & _ & _ & _ & _ & R7 & _).
      assert (N1 : n_routes (d_nav d1) = []) by (rewrite U3; cbn; rewrite R7, P3; cbn; rewrite Hn; reflexivity).
      rewrite N1 in H2. discriminate. }
  split; [now apply Z.leb_le|]. split; [now apply Z.leb_le|]. split; [exact H3|now apply Z.eqb_eq].
Qed.

Lemma xd_example : exists d b d1,
  made_device d /\ EncodeTracker (Some d) = Ret (GOk b, Some d1) /\ go_sized d1 b /\ snapshot_is_complete d1 /\
  (2 <= zlen (n_routes (d_nav d1)))%Z /\ (1 <= zlen (d_sensors d1))%Z /\ (f0 <? n_cd (d_nav d1)) = true /\ d_status d1 = Stopped.
Proof. exact (example_of xd_draws (firstn 4 xd_ops) (f64_ofZ 5) xd_next xd_test_ok xd_made). Qed.
