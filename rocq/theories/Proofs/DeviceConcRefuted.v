(** Schedules that break what users expect of a device used by several goroutines. *)
From Coq Require Import Lia.
From Verif.Model Require Import Base Num Geo Curve PropMap Types Pb TypesSnap Track Route Navigator Device Mutex DeviceConc.
From Verif.Spec Require Import NavSpec TypesSpec DeviceSpec MutexSpec DeviceConcSpec.
From Verif.Proofs Require Import BaseLemmas MutexProofs DeviceConcProofs.
Open Scope num_scope.

(** ** Running a given schedule *)
Section Run.
Context {M V : Type}.

Definition act_fn (s : shared M) (p : prog M V) : option (shared M * prog M V) :=
  match p with
  | Return _ | Crash => None
  | Access f k => Some (set_mem s (f (sh_mem s)), k (sh_mem s))
  | Load k => Some (s, k (sh_cnt s))
  | Store z k => Some (set_cnt s z, k)
  | Inc k => Some (set_cnt s ((sh_cnt s + 1) mod 2 ^ 32)%Z, k)
  | Lock k => match sh_mu s with mkRW false false n => Some (set_mu s (mkRW true false n), LockWait k) | _ => None end
  | LockWait k => match sh_mu s with mkRW true false 0 => Some (set_mu s (mkRW true true 0), k) | _ => None end
  | Unlock k => match sh_mu s with mkRW true true n => Some (set_mu s (mkRW false false n), k) | _ => None end
  | RLock k => match sh_mu s with mkRW false false n => Some (set_mu s (mkRW false false (S n)), k) | _ => None end
  | RUnlock k => match sh_mu s with mkRW t w (S n) => Some (set_mu s (mkRW t w n), k) | _ => None end
  | TryLock k => match sh_mu s with mkRW false false 0 => Some (set_mu s (mkRW true true 0), k true) | _ => Some (s, k false) end
  end.

Lemma act_fn_ok s p s' p' : act_fn s p = Some (s', p') -> act s p s' p'.
Proof.
  destruct p; cbn; try discriminate; try (intros [= <- <-]; constructor).
  all: destruct (sh_mu s) as [[] [] [|n]] eqn:E; try discriminate; intros [= <- <-]; econstructor; eauto; rewrite E; discriminate.
Qed.

Definition step_fn (i : nat) (x : system M V) : option (bool * system M V) :=
  if sy_crashed x then None else
  match nth_error (sy_gos x) i with
  | Some (mkGo (p :: l) r) =>
      match p with
      | Return v => Some (false, mkSys (sy_shared x) (set_nth i (mkGo l (r ++ [v])) (sy_gos x)) false)
      | Crash => Some (false, mkSys (sy_shared x) (sy_gos x) true)
      | _ => match act_fn (sy_shared x) p with
             | Some (s', p') => Some (leaves p p', mkSys s' (set_nth i (mkGo (p' :: l) r) (sy_gos x)) false)
             | None => None
             end
      end
  | _ => None
  end.

Lemma step_fn_ok i b x y : step_fn i x = Some (b, y) -> step i b x y.
Proof.
  unfold step_fn. destruct x as [s gs c]; cbn. destruct c; [discriminate|].
  destruct (nth_error gs i) as [[[|p l] r]|] eqn:E; try discriminate.
  destruct (act_fn s p) as [[s' p']|] eqn:A.
  - apply act_fn_ok in A. pose proof (st_act _ _ _ _ _ _ _ _ E A) as S.
    destruct p; intros [= <- <-]; try (inversion A; fail); exact S.
  - destruct p; try discriminate; intros [= <- <-]; econstructor; eauto.
Qed.

Fixpoint run (sched : list nat) (x : system M V) : option (list nat * system M V) :=
  match sched with
  | [] => Some ([], x)
  | i :: r => match step_fn i x with
              | Some (b, y) => match run r y with Some (ps, z) => Some (if b then i :: ps else ps, z) | None => None end
              | None => None
              end
  end.
Lemma run_ok sched : forall x ps y, run sched x = Some (ps, y) -> steps ps x y.
Proof.
  induction sched as [|i r IH]; intros x ps y; cbn.
  - intros [= <- <-]. constructor.
  - destruct (step_fn i x) as [[b z]|] eqn:E; [|discriminate]. destruct (run r z) as [[qs w]|] eqn:R; [|discriminate].
    apply step_fn_ok in E. intros [= <- <-]. destruct b; [eapply ss_leave|eapply ss_move]; eauto.
Qed.
Lemma steps_app ps qs (x y z : system M V) : steps ps x y -> steps qs y z -> steps (ps ++ qs) x z.
Proof. induction 1; intros K; cbn; [exact K|eapply ss_move; eauto|eapply ss_leave; eauto]. Qed.
Lemma run_view {A} sched (x : system M V) (view : list nat -> system M V -> A) a :
  match run sched x with Some (t, y) => Some (view t y) | None => None end = Some a ->
  exists t y, steps t x y /\ view t y = a.
Proof.
  destruct (run sched x) as [[t y]|] eqn:E; [|discriminate]. intros [= H]. exists t, y. split; [exact (run_ok _ _ _ _ E)|exact H].
Qed.
Definition left_to_do (x : system M V) : list nat := map (fun g => List.length (go_calls g)) (sy_gos x).
Lemma nothing_left (x : system M V) : Forall (fun n => n = O) (left_to_do x) -> finished x.
Proof.
  unfold left_to_do, finished. rewrite List.Forall_map. intros H. eapply Forall_impl; [|exact H].
  intros g. cbn. apply length_zero_iff_nil.
Qed.
Definition reach (x : system M V) (P : list nat -> system M V -> Prop) : Prop := exists ps y, steps ps x y /\ P ps y.
Lemma reach_here (x : system M V) (P : list nat -> system M V -> Prop) : P [] x -> reach x P.
Proof. intros H. exists [], x. split; [constructor|exact H]. Qed.
Lemma reach_step i b (x y : system M V) (P : list nat -> system M V -> Prop) : step_fn i x = Some (b, y) ->
  reach y (fun ps => P (if b then i :: ps else ps)) -> reach x P.
Proof.
  intros H (ps & z & S & Hp). apply step_fn_ok in H. destruct b; [exists (i :: ps), z|exists ps, z]; (split; [|exact Hp]);
    [eapply ss_leave|eapply ss_move]; eauto.
Qed.
End Run.
Ltac machine := cbv beta iota zeta delta [step_fn act_fn start set_mem set_cnt set_mu sh_mem sh_cnt sh_mu sy_shared sy_gos sy_crashed
  leaves nth_error set_nth map app call_prog change query part part_ look Snapshot_prog SensorAt_prog IsFinish_prog Next_prog
  EachSensor_prog EachRoute_prog each_from callback_change callback_query bind].
Ltac go i := eapply (reach_step i); [machine; reflexivity|].
Ltac gos l := lazymatch l with [] => idtac | ?i :: ?r => go i; gos r end.

Section P.
Context {T : Type} {N : Num T} {J : JsonLib T} {U : UtmLib T}.
Implicit Types (d : device T).

(** SensorAt looks, then somebody removes the sensors, then SensorAt indexes. *)
Lemma SensorAt_panics d : d_sensors d <> [] ->
  exists ps x, steps ps (start d 0 [[SensorAt_prog 0]; [call_prog (CChange DResetSensors)]]) x /\ sy_crashed x = true.
Proof.
  intros Hs. assert (L : (0 < zlen (d_sensors d))%Z) by (destruct (d_sensors d); [congruence|unfold zlen; cbn; lia]).
  enough (R : reach (start d 0 [[SensorAt_prog 0]; [call_prog (CChange DResetSensors)]]) (fun _ x => sy_crashed x = true)) by exact R.
  go 0%nat. replace ((zlen (d_sensors d) =? 0) || (zlen (d_sensors d) - 1 <? 0) || (0 <? 0))%Z with false.
  2:{ symmetry. rewrite !orb_false_iff, Z.eqb_neq, !Z.ltb_ge. lia. }
  gos [1;1;1;1;0;0]%nat. cbn [run_dev ResetSensors updateSensors dset_sensors dset_state d_sensors zget]. machine. cbn.
  go 0%nat. apply reach_here. reflexivity.
Qed.
(** Alone, SensorAt answers on every device. *)
Lemma SensorAt_alone d i : exists v, alone (SensorAt_prog i) d d v.
Proof.
  unfold SensorAt_prog, look.
  destruct ((zlen (d_sensors d) =? 0) || (zlen (d_sensors d) - 1 <? i) || (i <? 0))%Z eqn:E.
  - exists (VSensor None). constructor. rewrite E. constructor.
  - apply orb_false_iff in E as [E E3]. apply orb_false_iff in E as [E1 E2].
    destruct (zget (d_sensors d) i) as [s|] eqn:G.
    + exists (VSensor (Some s)). constructor. rewrite E1, E2, E3. cbn. constructor. constructor. rewrite G. repeat constructor.
    + exfalso. apply Z.ltb_ge in E2, E3. unfold zget, zlen in *. destruct (i <? 0)%Z eqn:E4; [apply Z.ltb_lt in E4; lia|].
      apply nth_error_None in G. lia.
Qed.

(** Snapshot makes room for the sensors there are, then somebody adds one, then Snapshot copies them. *)
Lemma Snapshot_panics d s nv : d_sensors d <> [] -> hasSensor (d_sensors d) (s_id s) = false -> nav_Snapshot (d_nav d) = Ret nv ->
  exists ps x, steps ps (start d 0 [[Snapshot_prog]; [call_prog (CChange (DAddSensor [Some s]))]]) x /\ sy_crashed x = true.
Proof.
  intros Hs Hn En.
  enough (R : reach (start d 0 [[Snapshot_prog]; [call_prog (CChange (DAddSensor [Some s]))]]) (fun _ x => sy_crashed x = true)) by exact R.
  gos [0;0;0;0;0;0;0;0]%nat. rewrite En. gos [0;0;0]%nat.
  replace (0 <? zlen (d_sensors d))%Z with true
      by (symmetry; apply Z.ltb_lt; destruct (d_sensors d); [congruence|unfold zlen; cbn; lia]).
  gos [0;1;1;1;1;0;0]%nat. cbn [run_dev bind].
  replace (zlen (d_sensors (AddSensor d [Some s])) <=? zlen (d_sensors d))%Z with false.
  2:{ symmetry. apply Z.leb_gt. unfold AddSensor. cbn [add_sensors]. rewrite Hn.
      change (0 <? 0 + 1)%Z with true. cbv beta iota zeta delta [dset_sensors updateSensors dset_state d_sensors].
      unfold zlen. rewrite app_length. cbn [List.length]. lia. }
  go 0%nat. apply reach_here. reflexivity.
Qed.

Lemma Snapshot_alone d d' v : alone Snapshot_prog d d' v -> d' = d /\ exists s l, device_Snapshot d = Ret s /\
  v = VSnap (mkPbSnapshot (psn_id s) (psn_user_id s) (psn_tick s) (psn_duration s) (psn_model s) (psn_descr s) (psn_status s)
    (psn_color s) (psn_navigator s) (psn_speed s) (psn_battery s) []) l.
Proof.
  intros H. unfold Snapshot_prog, look in H.
  do 7 (inversion H; subst; clear H; match goal with X : alone _ _ _ _ |- _ => rename X into H end; cbv beta in H).
  apply alone_part in H. destruct H as (nv & d1 & En & H). destruct (nav_Snapshot (d_nav d)) as [n| |] eqn:Es; cbn in En; try discriminate.
  injection En as -> <-.
  do 3 (inversion H; subst; clear H; match goal with X : alone _ _ _ _ |- _ => rename X into H end; cbv beta in H).
  assert (Q : device_Snapshot d = Ret (mkPbSnapshot (pde_id (d_state d)) (pde_user_id (d_state d)) (pde_tick (d_state d)) (pde_duration (d_state d)) (pde_model (d_state d))
         (pde_description (d_state d)) Stopped (pde_color (d_state d)) (Some nv) (Some (speed_Snapshot (d_speed d)))
         (Some (battery_Snapshot (d_battery d))) (map sensor_Snapshot (d_sensors d)))) by (unfold device_Snapshot; rewrite Es; reflexivity).
  destruct (0 <? zlen (d_sensors d))%Z.
  - do 2 (inversion H; subst; clear H; match goal with X : alone _ _ _ _ |- _ => rename X into H end; cbv beta in H).
    inversion H; subst; clear H; match goal with X : alone _ _ _ _ |- _ => rename X into H end; cbv beta in H.
    rewrite Z.leb_refl in H.
    inversion H; subst; clear H; match goal with X : alone _ _ _ _ |- _ => rename X into H end. inversion H; subst; clear H.
    split; [reflexivity|]. eexists _, _. split; [exact Q|reflexivity].
  - inversion H; subst. split; [reflexivity|]. eexists _, _. split; [exact Q|reflexivity].
Qed.

(** Somebody changes the user and then the description, while Snapshot has read the one and not yet the other. *)
Lemma Snapshot_torn d u e nv : nav_Snapshot (d_nav d) = Ret nv -> d_sensors d = [] ->
  exists ps x s l, steps ps (start d 0 [[Snapshot_prog]; [call_prog (CChange (DSetUserID u)); call_prog (CChange (DSetDescription e))]]) x /\
    finished x /\ map go_results (sy_gos x) = [[VSnap s l]; [VUnit; VUnit]] /\
    psn_user_id s = pde_user_id (d_state d) /\ psn_descr s = e.
Proof.
  intros En Es.
  enough (R : reach (start d 0 [[Snapshot_prog]; [call_prog (CChange (DSetUserID u)); call_prog (CChange (DSetDescription e))]])
    (fun _ x => exists s l, finished x /\ map go_results (sy_gos x) = [[VSnap s l]; [VUnit; VUnit]] /\
       psn_user_id s = pde_user_id (d_state d) /\ psn_descr s = e)).
  { destruct R as (ps & x & S & s & l & R). exists ps, x, s, l. auto. }
  gos [0;0;0;1;1;1;1;1;1;1;1;1;1;0;0;0;0;0]%nat. cbn [run_dev SetUserID SetDescription dset_state d_nav]. rewrite En.
  gos [0;0;0]%nat. cbn [run_dev SetUserID SetDescription dset_state d_sensors]. rewrite Es. cbn [zlen List.length Z.of_nat Z.ltb Z.compare].
  go 0%nat. apply reach_here. eexists _, _. split; [repeat constructor|]. split; [reflexivity|]. split; reflexivity.
Qed.

Definition user_descr d : string * string := (pde_user_id (d_state d), pde_description (d_state d)).
Lemma Snapshot_user_descr d d' v : alone Snapshot_prog d d' v -> d' = d /\ exists s l, v = VSnap s l /\ (psn_user_id s, psn_descr s) = user_descr d.
Proof.
  intros H. apply Snapshot_alone in H. destruct H as (-> & s & l & E & ->). split; [reflexivity|]. eexists _, _. split; [reflexivity|].
  unfold device_Snapshot in E. destruct (nav_Snapshot (d_nav d)); cbn in E; try discriminate. injection E as <-. reflexivity.
Qed.
(** One at a time, a snapshot shows the old user and the old description, the new and the old, or both new. *)
Lemma Snapshot_in_turn d u e turns d' gs s l :
  one_by_one turns d (map (fun p => mkGo p []) [[Snapshot_prog]; [call_prog (CChange (DSetUserID u)); call_prog (CChange (DSetDescription e))]]) d' gs ->
  map go_results gs = [[VSnap s l]; [VUnit; VUnit]] ->
  (psn_user_id s, psn_descr s) = user_descr d \/ (psn_user_id s, psn_descr s) = (u, pde_description (d_state d)) \/
  (psn_user_id s, psn_descr s) = (u, e).
Proof.
  assert (C1 : forall d d' v, alone (call_prog (CChange (DSetUserID u))) d d' v -> user_descr d' = (u, snd (user_descr d))).
  { intros a b v H. apply alone_change in H. destruct H as [[= <-] _]. reflexivity. }
  assert (C2 : forall d d' v, alone (call_prog (CChange (DSetDescription e))) d d' v -> user_descr d' = (fst (user_descr d), e)).
  { intros a b v H. apply alone_change in H. destruct H as [[= <-] _]. reflexivity. }
  generalize dependent (call_prog (T:=T) (CChange (DSetDescription e))). generalize dependent (call_prog (T:=T) (CChange (DSetUserID u))).
  intros p1 C1 p2 C2 O R. cbn [map] in O.
  repeat match goal with
  | X : one_by_one _ _ _ _ _ |- _ =>
      inversion X; subst; clear X;
      [cbn in R; try discriminate R; try (injection R as R; congruence)
      |match goal with Q : nth_error _ ?i = Some _ |- _ =>
         destruct i as [|[|i]]; cbn in Q; [try discriminate Q; injection Q as <- <- <-|try discriminate Q; injection Q as <- <- <-|destruct i; discriminate Q] end;
       match goal with
       | A : alone Snapshot_prog _ _ _ |- _ => apply Snapshot_user_descr in A; destruct A as (-> & ? & ? & -> & ?)
       | A : alone p1 _ _ _ |- _ => apply C1 in A
       | A : alone p2 _ _ _ |- _ => apply C2 in A
       end; cbn in *]
  end.
  all: injection R as R1 R2 R3 R4; subst; unfold user_descr in *.
  - left. congruence.
  - right; left. congruence.
  - right; right. congruence.
Qed.

(** Two goroutines ask at once whether the journey has come to its end: both look before either clears the mark. *)
Lemma IsFinish_twice d : fst (device_IsFinish d) = true ->
  exists ps x, steps ps (start d 0 [[IsFinish_prog]; [IsFinish_prog]]) x /\ finished x /\
    map go_results (sy_gos x) = [[VBool true]; [VBool true]].
Proof.
  intros E.
  enough (R : reach (start d 0 [[IsFinish_prog]; [IsFinish_prog]]) (fun _ x => finished x /\
    map go_results (sy_gos x) = [[VBool true]; [VBool true]])) by exact R.
  gos [0;1;0;1]%nat. rewrite E. gos [0;0;0;1;1;1]%nat. apply reach_here. split; [repeat constructor|reflexivity].
Qed.
Lemma IsFinish_alone d d' v : alone IsFinish_prog d d' v -> d' = snd (device_IsFinish d) /\ v = VBool (fst (device_IsFinish d)).
Proof.
  intros H. unfold IsFinish_prog, look in H.
  do 2 (inversion H; subst; clear H; match goal with X : alone _ _ _ _ |- _ => rename X into H end; cbv beta in H).
  assert (K : fst (device_IsFinish d) = false -> snd (device_IsFinish d) = d).
  { unfold device_IsFinish, IsFinish. destruct (_ && _); cbn; [discriminate|]. intros _. destruct d; reflexivity. }
  destruct (fst (device_IsFinish d)) eqn:E.
  - do 2 (inversion H; subst; clear H; match goal with X : alone _ _ _ _ |- _ => rename X into H end; cbv beta in H).
    inversion H; subst; auto.
  - inversion H; subst; clear H; match goal with X : alone _ _ _ _ |- _ => rename X into H end. inversion H; subst. rewrite K; auto.
Qed.
(** One after the other, only one of them is told so. *)
Lemma IsFinish_in_turn d turns d' gs : (@f0 T N =? fdec 1 10) = false ->
  one_by_one turns d (map (fun p => mkGo p []) [[IsFinish_prog]; [IsFinish_prog]]) d' gs ->
  map go_results gs <> [[VBool true]; [VBool true]].
Proof.
  intros Z0 O R. assert (K : forall a, fst (device_IsFinish (snd (device_IsFinish a))) = true -> fst (device_IsFinish a) = false).
  { intros a. unfold device_IsFinish, IsFinish. destruct (((n_ri (d_nav a) =? 0) && (n_ti (d_nav a) =? 0) && (n_si (d_nav a) =? 0))%Z && (n_cd (d_nav a) =? fdec 1 10)) eqn:E; cbn; auto.
    rewrite Z0, andb_false_r. cbn. discriminate. }
  cbn [map] in O.
  repeat match goal with
  | X : one_by_one _ _ _ _ _ |- _ =>
      inversion X; subst; clear X;
      [cbn in R; try discriminate R
      |match goal with Q : nth_error _ ?i = Some _ |- _ =>
         destruct i as [|[|i]]; cbn in Q; [try discriminate Q; injection Q as <- <- <-|try discriminate Q; injection Q as <- <- <-|destruct i; discriminate Q] end;
       match goal with
       | A : alone IsFinish_prog _ _ _ |- _ => apply IsFinish_alone in A; destruct A as (-> & ->)
       end; cbn [set_nth app] in *]
  end.
  all: injection R as R1 R2; specialize (K d); rewrite ?R1, ?R2 in *; try (specialize (K eq_refl); congruence).
Qed.

(** ** A step of the journey during a snapshot *)
Lemma Next_runs d g0 tick x b d' P : d_tick d = 0%Z -> n_routes (d_nav d) <> [] -> Next d true tick x = Ret (b, d') ->
  reach (mkSys (mkShared d' 0 (mkRW false false 0)) [g0; mkGo [] [VBool b]] false) (fun ps => P (1%nat :: ps)) ->
  reach (mkSys (mkShared d 0 (mkRW false false 0)) [g0; mkGo [Next_prog tick x] []] false) P.
Proof.
  intros H0 Hr E R. cbn [Next] in E. unfold Next_locked in E. rewrite H0 in E.
  gos [1;1]%nat. destruct (n_routes (d_nav d)) as [|r0 rs]; [congruence|]. cbv zeta in E.
  gos [1;1;1;1;1;1]%nat.
  match goal with |- context [next_lowBattery ?e x] => set (da := e) in * end.
  assert (EA : next_account d (fofZ 0 + tick) = da).
  { unfold da, next_account. clear - H0. destruct d; cbn in *. subst. reflexivity. }
  rewrite EA in E. destruct (next_lowBattery da x) as [d4| |] eqn:E4; cbn [bind] in E; try discriminate.
  gos [1;1]%nat. destruct (next_speed d4 _) as [d5| |]; cbn [bind] in E; try discriminate.
  go 1%nat. destruct (NextLocation (d_nav d5) _ _ _) as [[ok n]| |]; cbn [bind] in E; try discriminate.
  go 1%nat. cbv iota beta. destruct (if ok then _ else _) as [[b2 d7]| |]; try discriminate. injection E as -> ->.
  gos [1;1]%nat. exact R.
Qed.

Lemma Snapshot_between d tick x b d' nv : d_tick d = 0%Z -> n_routes (d_nav d) <> [] -> Next d true tick x = Ret (b, d') ->
  nav_Snapshot (d_nav d') = Ret nv -> d_sensors d' = [] ->
  exists ps y s l, steps ps (start d 0 [[Snapshot_prog]; [Next_prog tick x]]) y /\ finished y /\
    map go_results (sy_gos y) = [[VSnap s l]; [VBool b]] /\
    psn_duration s = pde_duration (d_state d) /\ psn_navigator s = Some nv.
Proof.
  intros H0 Hr E En Es.
  enough (R : reach (start d 0 [[Snapshot_prog]; [Next_prog tick x]])
    (fun _ y => exists s l, finished y /\ map go_results (sy_gos y) = [[VSnap s l]; [VBool b]] /\
       psn_duration s = pde_duration (d_state d) /\ psn_navigator s = Some nv)).
  { destruct R as (ps & y & S & s & l & R). exists ps, y, s, l. auto. }
  do 7 (eapply (reach_step 0); [cbv beta iota zeta delta [step_fn act_fn start set_mem sh_mem sh_cnt sh_mu sy_shared sy_gos sy_crashed
    leaves nth_error set_nth map look part Snapshot_prog]; reflexivity|]). cbv beta.
  eapply Next_runs; eauto.
  go 0%nat. rewrite En. gos [0;0;0]%nat. rewrite Es. cbn [zlen List.length Z.of_nat Z.ltb Z.compare].
  go 0%nat. apply reach_here. eexists _, _. split; [repeat constructor|]. split; [reflexivity|]. split; reflexivity.
Qed.

(** ** Callbacks *)
(** A callback that changes the device waits for its own caller to let go. *)
Lemma EachSensor_write_deadlock d o : d_sensors d <> [] ->
  exists ps x, steps ps (start d 0 [[EachSensor_prog (callback_change o)]]) x /\ deadlock x.
Proof.
  intros Hs. enough (R : reach (start d 0 [[EachSensor_prog (callback_change o)]]) (fun _ x => deadlock x)) by exact R.
  gos [0;0]%nat. destruct (d_sensors d) as [|s l]; [congruence|].
  go 0%nat. apply reach_here. split; [|split; [reflexivity|]].
  - intros F. inversion F as [|? ? X _]. discriminate X.
  - intros i b y St. inversion St; subst; destruct i as [|[|i]]; cbn in *; try discriminate;
      match goal with X : Some _ = Some _ |- _ => injection X as X1 X2 X3; subst end; try discriminate.
    match goal with X : act _ _ _ _ |- _ => inversion X; subst end. discriminate.
Qed.
Lemma EachRoute_write_deadlock d o : n_routes (d_nav d) <> [] ->
  exists ps x, steps ps (start d 0 [[EachRoute_prog (callback_change o)]]) x /\ deadlock x.
Proof.
  intros Hs. enough (R : reach (start d 0 [[EachRoute_prog (callback_change o)]]) (fun _ x => deadlock x)) by exact R.
  gos [0;0]%nat. destruct (n_routes (d_nav d)) as [|s l]; [congruence|].
  go 0%nat. apply reach_here. split; [|split; [reflexivity|]].
  - intros F. inversion F as [|? ? X _]. discriminate X.
  - intros i b y St. inversion St; subst; destruct i as [|[|i]]; cbn in *; try discriminate;
      match goal with X : Some _ = Some _ |- _ => injection X as X1 X2 X3; subst end; try discriminate.
    match goal with X : act _ _ _ _ |- _ => inversion X; subst end. discriminate.
Qed.
(** A callback that only looks waits for a writer, who waits for the caller of the callback. *)
Lemma EachSensor_read_deadlock d o : d_sensors d <> [] ->
  exists ps x, steps ps (start d 0 [[EachSensor_prog callback_query]; [call_prog (CChange o)]]) x /\ deadlock x.
Proof.
  intros Hs. enough (R : reach (start d 0 [[EachSensor_prog callback_query]; [call_prog (CChange o)]]) (fun _ x => deadlock x)) by exact R.
  gos [0;0]%nat. destruct (d_sensors d) as [|s l]; [congruence|].
  go 1%nat. apply reach_here. split; [|split; [reflexivity|]].
  - intros F. inversion F as [|? ? X _]. discriminate X.
  - intros i b y St. inversion St; subst; destruct i as [|[|[|i]]]; cbn in *; try discriminate;
      match goal with X : Some _ = Some _ |- _ => injection X as X1 X2 X3; subst end; try discriminate;
    match goal with X : act _ _ _ _ |- _ => inversion X; subst end; discriminate.
Qed.
End P.
