(** C79: the options of NewDevice. *)
From Coq Require Import Lia.
From Flocq Require Import Core BinarySingleNaN.
From Verif.Model Require Import Base Num NumF64 Geo Curve PropMap Types Pb TypesSnap Track Route Navigator Device.
From Verif.Spec Require Import DeviceSpec NewDeviceSpec.
Open Scope num_scope.

Section NewDeviceProofs.
Context (m : MathLib) (J : JsonLib f64) (U : UtmLib f64).
#[local] Instance newdev_num' : Num f64 := F64Num m.

Lemma lt_cmp (a b : f64) : (a <? b) = match Bcompare a b with Some Lt => true | _ => false end.
Proof. reflexivity. Qed.
Lemma le_cmp (a b : f64) : (a <=? b) = match Bcompare a b with Some Lt | Some Eq => true | _ => false end.
Proof. reflexivity. Qed.
Lemma eq_cmp (a b : f64) : (a =? b) = match Bcompare a b with Some Eq => true | _ => false end.
Proof. reflexivity. Qed.
Lemma gt_irrefl (a : f64) : (a >? a) = false.
Proof.
  pose proof (Bcompare_swap _ _ a a) as S. rewrite lt_cmp.
  destruct (Bcompare a a) as [[| |]|]; try reflexivity. discriminate S.
Qed.
Lemma le_gt (a b : f64) : (a <=? b) = true -> (a >? b) = false.
Proof. rewrite le_cmp, lt_cmp, (Bcompare_swap _ _ a b). destruct (Bcompare a b) as [[| |]|]; cbn; congruence. Qed.
Lemma not_gt_refl_lt (a b : f64) : (a >? b) = false -> (b <? a) = false.
Proof. auto. Qed.
Lemma lt_not_eq (a b : f64) : (a <? b) = true -> (b =? a) = false.
Proof. rewrite lt_cmp, eq_cmp, (Bcompare_swap _ _ a b). destruct (Bcompare a b) as [[| |]|]; cbn; congruence. Qed.
Lemma not_le_not_eq (a b : f64) : (a <=? b) = false -> (a =? b) = false.
Proof. rewrite le_cmp, eq_cmp. destruct (Bcompare a b) as [[| |]|]; cbn; congruence. Qed.

Lemma empty_slen s : (slen s =? 0)%Z = String.eqb s "".
Proof. destruct s; [reflexivity|]. unfold slen. cbn [String.length]. rewrite Nat2Z.inj_succ. apply Z.eqb_neq. lia. Qed.
Lemma some_slen s : (0 <? slen s)%Z = negb (String.eqb s "").
Proof. destruct s; [reflexivity|]. unfold slen. cbn [String.length]. rewrite Nat2Z.inj_succ. cbn. apply Z.ltb_lt. lia. Qed.

Lemma amplitude_ok a : validateAmplitude a = None <-> (4 <= a <= 512)%Z.
Proof. unfold validateAmplitude. destruct (a <? 4)%Z eqn:A; [|destruct (512 <? a)%Z eqn:B]; split; try discriminate; try lia; auto. Qed.

(** the four parts NewDevice makes *)
Definition new_nav (o : deviceOptions f64) x := navigator_New (navOpts o) (nd_elevUUID x) (nd_elev x).
Definition new_speed (o : deviceOptions f64) x := NewSpeed (do_speedMin o) (do_speedMax o) (do_speedAmp o) (nd_speed x).
Definition new_battery (o : deviceOptions f64) := NewBattery (do_batMin o) (do_batMax o) (do_batCharge o).

Lemma new_parts opts x d : built opts x d -> let o := options_of opts in exists n sp b st,
  new_nav o x = GOk n /\ new_speed o x = GOk sp /\ new_battery o = GOk b /\ fst (applyFor o initDeviceState x) = GOk st /\
  d = mkDevice Stopped n sp b st [] f0 0 (0%Z, 0%Z, 0%Z).
Proof.
  unfold built, NewDevice. fold (options_of opts). intros H. cbv zeta. set (o := options_of opts) in *.
  unfold new_nav, new_speed, new_battery.
  destruct (navigator_New _ _ _) as [n|]; [|discriminate]. destruct (NewSpeed _ _ _ _) as [sp|]; [|discriminate].
  destruct (NewBattery _ _ _) as [b|]; [|discriminate]. destruct (applyFor o initDeviceState x) as [[st|] o'] eqn:E; [|discriminate].
  injection H as <-. exists n, sp, b, st. repeat split; auto.
Qed.
Lemma parts_new opts x n sp b st : let o := options_of opts in
  new_nav o x = GOk n -> new_speed o x = GOk sp -> new_battery o = GOk b -> fst (applyFor o initDeviceState x) = GOk st ->
  built opts x (mkDevice Stopped n sp b st [] f0 0 (0%Z, 0%Z, 0%Z)).
Proof.
  cbv zeta. unfold built, NewDevice. fold (options_of opts). set (o := options_of opts).
  unfold new_nav, new_speed, new_battery. intros -> -> -> E.
  destruct (applyFor o initDeviceState x) as [[st'|] o']; cbn [fst] in *; congruence.
Qed.

(** *** navigator *)
Lemma nav_ok o x :
  (exists n, new_nav o x = GOk n) <->
  ((0 <= do_offMin o /\ do_offMax o <= 3600)%Z /\ ((do_elevMin o <? f0) = false /\ (do_elevMax o >? fofZ 50000) = false) /\
   (4 <= do_elevAmp o <= 512)%Z).
Proof.
  unfold new_nav, navigator_New, navOpts.
  assert (F : exists k, fold_left apply_option ([WithElevation (do_elevMin o) (do_elevMax o) (do_elevAmp o) (do_elevMode o);
   WithOffline (do_offMin o) (do_offMax o)] ++ (if do_skipOffline o then [SkipOfflineMode] else [])) defaultNavOptions =
   mkNavOptions (do_elevMin o) (do_elevMax o) (do_elevMode o) (do_offMin o) (do_offMax o) (do_elevAmp o) k).
  { destruct (do_skipOffline o); eexists; reflexivity. }
  destruct F as [k ->]. cbn [o_minOff o_maxOff o_elevMin o_elevMax o_elevAmp o_elevMode].
  unfold validateOffline, validateElevation, NewSensor.
  assert (L : (slen "elevation" =? 0)%Z = false) by reflexivity. rewrite L.
  destruct (do_offMin o <? 0)%Z eqn:A1. { split; [intros [n H]; discriminate|intros; lia]. }
  destruct (3600 <? do_offMax o)%Z eqn:A2. { split; [intros [n H]; discriminate|intros; lia]. }
  apply Z.ltb_ge in A1, A2.
  match goal with |- context [if ?c then GOk (0%Z, 10%Z) else GOk ?p] => set (q := if c then GOk (0%Z, 10%Z) else GOk p); assert (Q : exists a b, q = GOk (a, b)) by (unfold q; destruct c; eauto) end.
  destruct Q as (a & b & ->).
  destruct (do_elevMin o <? f0) eqn:B1. { split; [intros [n H]; discriminate|intros (_ & (H & _) & _); congruence]. }
  destruct (do_elevMax o >? fofZ 50000) eqn:B2. { split; [intros [n H]; discriminate|intros (_ & (_ & H) & _); congruence]. }
  match goal with |- context [if ?c then GOk ?p' else GOk ?p] => set (e := if c then GOk p' else GOk p); assert (Q : exists a b, e = GOk (a, b)) by (unfold e; destruct c; eauto) end.
  destruct Q as (a' & b' & ->). pose proof (amplitude_ok (do_elevAmp o)) as V.
  destruct (validateAmplitude (do_elevAmp o)).
  - split; [intros [n H]; discriminate|intros (_ & _ & H); apply V in H; discriminate].
  - split; [|eauto]. intros _. repeat split; auto; try lia; apply V; reflexivity.
Qed.

Lemma nav_is o x n : new_nav o x = GOk n ->
  n_routes n = [] /\ n_off n = 0%Z /\ n_skip n = do_skipOffline o /\
  (do_skipOffline o = false -> (do_offMin o <= do_offMax o)%Z -> (0 < do_offMax o)%Z ->
     n_rnd n = Some (mkRandom (do_offMin o) (do_offMax o))) /\
  exists e, n_elev n = Some e /\
    ((do_elevMin o <=? do_elevMax o) = true -> (f0 <? do_elevMax o) = true -> s_min e = do_elevMin o /\ s_max e = do_elevMax o).
Proof.
  unfold new_nav, navigator_New, navOpts.
  assert (F : fold_left apply_option ([WithElevation (do_elevMin o) (do_elevMax o) (do_elevAmp o) (do_elevMode o);
   WithOffline (do_offMin o) (do_offMax o)] ++ (if do_skipOffline o then [SkipOfflineMode] else [])) defaultNavOptions =
   mkNavOptions (do_elevMin o) (do_elevMax o) (do_elevMode o) (do_offMin o) (do_offMax o) (do_elevAmp o) (do_skipOffline o)).
  { destruct (do_skipOffline o); reflexivity. }
  rewrite F. cbn [o_minOff o_maxOff o_elevMin o_elevMax o_elevAmp o_elevMode o_skip].
  destruct (validateOffline (do_offMin o) (do_offMax o)) as [[a b]|] eqn:V; [|discriminate].
  destruct (validateElevation (do_elevMin o) (do_elevMax o)) as [[c d]|] eqn:W; [|discriminate].
  destruct (NewSensor _ _ _ _ _ _ _) as [s|] eqn:S; [|discriminate]. intros E. injection E as <-. cbn [n_routes n_off n_skip n_rnd n_elev].
  repeat split.
  - intros -> L P. f_equal. unfold validateOffline in V.
    destruct (do_offMin o <? 0)%Z eqn:A1; [discriminate|]. destruct (3600 <? do_offMax o)%Z eqn:A2; [discriminate|].
    apply Z.ltb_ge in A1, A2. assert (X : (do_offMax o <? do_offMin o)%Z = false) by lia. rewrite X, X in V.
    assert (Y : (do_offMax o =? 0)%Z = false) by lia. rewrite Y, andb_false_r in V. injection V as <- <-.
    unfold NewRandom. assert (A3 : (do_offMin o <? 0)%Z = false) by lia. assert (A4 : (do_offMax o <? 0)%Z = false) by lia.
    rewrite A3, A4, Y, andb_false_r. reflexivity.
  - exists s. split; [reflexivity|]. intros L P. unfold validateElevation in W.
    destruct (do_elevMin o <? f0); [discriminate|]. destruct (do_elevMax o >? fofZ 50000); [discriminate|].
    pose proof (le_gt _ _ L) as G. cbn [newdev_num'] in *. rewrite !G in W. rewrite (lt_not_eq _ _ P), andb_false_r in W. injection W as <- <-.
    unfold NewSensor in S. destruct (validateAmplitude _); [discriminate|]. destruct (slen "elevation" =? 0)%Z; [discriminate|]. injection S as <-. split; reflexivity.
Qed.

(** *** speed *)
Lemma speed_ok o x : (exists sp, new_speed o x = GOk sp) <->
  (((do_speedMin o <? f0) = false /\ (do_speedMax o >? fofZ 1000) = false) /\
   ((do_speedMax o <=? f0) = true \/ (do_speedMin o >? do_speedMax o) = false) /\ (4 <= do_speedAmp o <= 512)%Z).
Proof.
  unfold new_speed, NewSpeed.
  destruct (do_speedMin o <? f0) eqn:A1. { split; [intros [n H]; discriminate|intros ((H & _) & _); congruence]. }
  destruct (do_speedMax o >? fofZ 1000) eqn:A2. { split; [intros [n H]; discriminate|intros ((_ & H) & _); congruence]. }
  pose proof (amplitude_ok (do_speedAmp o)) as V.
  destruct (do_speedMax o <=? f0) eqn:A3.
  - rewrite gt_irrefl. destruct ((do_speedMin o =? f0) && (do_speedMin o =? f0)); destruct (validateAmplitude (do_speedAmp o));
      (split; [intros [n H]; try discriminate H; repeat split; auto; apply V; reflexivity|intros (_ & _ & H); apply V in H; try discriminate H; eauto]).
  - destruct (do_speedMin o >? do_speedMax o) eqn:A4. { split; [intros [n H]; discriminate|intros (_ & [H|H] & _); congruence]. }
    destruct ((do_speedMin o =? f0) && (do_speedMax o =? f0)); destruct (validateAmplitude (do_speedAmp o));
      (split; [intros [n H]; try discriminate H; repeat split; auto; apply V; reflexivity|intros (_ & _ & H); apply V in H; try discriminate H; eauto]).
Qed.
Lemma speed_is o x sp : new_speed o x = GOk sp -> sp_val sp = f0 /\
  ((do_speedMax o <=? f0) = false -> sp_min sp = do_speedMin o /\ sp_max sp = do_speedMax o) /\
  ((do_speedMax o <=? f0) = true -> sp_min sp = sp_max sp /\ sp_min sp = if do_speedMin o =? f0 then f1 else do_speedMin o).
Proof.
  unfold new_speed, NewSpeed.
  destruct (do_speedMin o <? f0); [discriminate|]. destruct (do_speedMax o >? fofZ 1000); [discriminate|].
  destruct (do_speedMax o <=? f0) eqn:A3.
  - rewrite gt_irrefl. destruct (do_speedMin o =? f0); cbn [andb]; (destruct (validateAmplitude _); [discriminate|]); intros H; injection H as <-; cbn [sp_val sp_min sp_max]; repeat split; try discriminate; auto.
  - destruct (do_speedMin o >? do_speedMax o); [discriminate|]. rewrite (not_le_not_eq _ _ A3), andb_false_r.
    destruct (validateAmplitude _); [discriminate|]. intros H. injection H as <-. cbn [sp_val sp_min sp_max]. repeat split; discriminate.
Qed.

(** *** battery *)
Lemma battery_ok o : (exists b, new_battery o = GOk b) <-> ((do_batMin o <? f0) = false /\ (do_batMax o >? fofZ 100) = false).
Proof.
  unfold new_battery, NewBattery.
  destruct (do_batMin o <? f0) eqn:A1. { split; [intros [n H]; discriminate|intros (H & _); congruence]. }
  destruct (do_batMax o >? fofZ 100) eqn:A2. { split; [intros [n H]; discriminate|intros (_ & H); congruence]. }
  split; eauto.
Qed.
Lemma battery_is o b : new_battery o = GOk b -> b_val b = f0 /\ b_max b = do_batMax o /\
  b_min b = (if do_batMin o >? do_batMax o then do_batMax o else do_batMin o) /\
  b_chargeTime b = (if (do_batCharge o <? 0)%Z then defaultChargeTime else do_batCharge o).
Proof.
  unfold new_battery, NewBattery. destruct (do_batMin o <? f0); [discriminate|]. destruct (do_batMax o >? fofZ 100); [discriminate|].
  intros H. injection H as <-. cbn. auto.
Qed.

(** *** state *)
Lemma state_ok o x : (exists st, fst (applyFor o initDeviceState x) = GOk st) <->
  ((do_model o = ""%string \/ (3 <= slen (do_model o) <= 64)%Z) /\ (do_color o = ""%string \/ nd_parsedColor x <> None)).
Proof.
  unfold applyFor. rewrite !some_slen. unfold NewModel.
  assert (M : (exists v, (if negb (String.eqb (do_model o) "") then if (slen (do_model o) <? 3)%Z then GErr ErrModelTooShort else if (64 <? slen (do_model o))%Z then GErr ErrModelTooLong else GOk (do_model o) else GOk ("Device-" ++ nd_model x)%string) = GOk v)
    <-> (do_model o = ""%string \/ (3 <= slen (do_model o) <= 64)%Z)).
  { destruct (String.eqb_spec (do_model o) ""); cbn [negb].
    - split; eauto.
    - destruct (slen (do_model o) <? 3)%Z eqn:A; [|destruct (64 <? slen (do_model o))%Z eqn:B].
      + split; [intros [v H]; discriminate|intros [H|H]; [congruence|lia]].
      + split; [intros [v H]; discriminate|intros [H|H]; [congruence|lia]].
      + split; [intros _; right; lia|eauto]. }
  rewrite <- M. clear M. destruct (if negb (String.eqb (do_model o) "") then _ else _) as [v|].
  - destruct (String.eqb_spec (do_color o) ""); cbn [negb].
    + cbn [fst]. split; eauto.
    + destruct (nd_parsedColor x); cbn [fst].
      * split; [intros _; split; [eauto|right; discriminate]|eauto].
      * split; [intros [? H]; discriminate|intros [_ [H|H]]; congruence].
  - cbn [fst]. split; [intros [? H]; discriminate|intros [[? H] _]; discriminate].
Qed.
Lemma state_is o x st : fst (applyFor o initDeviceState x) = GOk st ->
  pde_id st = given_or (do_id o) (nd_id x) /\ pde_user_id st = do_userID o /\ pde_description st = do_descr o /\
  pde_model st = given_or (do_model o) ("Device-" ++ nd_model x)%string /\
  (if String.eqb (do_color o) "" then pde_color st = nd_color x else nd_parsedColor x = Some (pde_color st)) /\
  pde_tick st = f0 /\ pde_duration st = f0.
Proof.
  unfold applyFor, given_or, NewModel. rewrite !some_slen, empty_slen.
  destruct (String.eqb (do_model o) ""); cbn [negb].
  - destruct (String.eqb (do_color o) ""); cbn [negb]; [|destruct (nd_parsedColor x); [|discriminate]];
      intros H; injection H as <-; repeat split.
  - destruct (slen (do_model o) <? 3)%Z; [discriminate|]. destruct (64 <? slen (do_model o))%Z; [discriminate|].
    destruct (String.eqb (do_color o) ""); cbn [negb]; [|destruct (nd_parsedColor x); [|discriminate]];
      intros H; injection H as <-; repeat split.
Qed.

Lemma accepts_proof opts x : (exists d, built opts x d) <-> acceptable m (options_of opts) x.
Proof.
  split.
  - intros [d H]. destruct (new_parts _ _ _ H) as (n & sp & b & st & A & B & C & D & _).
    pose proof (proj1 (nav_ok _ _) (ex_intro _ _ A)) as (N1 & N2 & N3).
    pose proof (proj1 (speed_ok _ _) (ex_intro _ _ B)) as (S1 & S2 & S3).
    pose proof (proj1 (battery_ok _) (ex_intro _ _ C)) as B1.
    pose proof (proj1 (state_ok _ _) (ex_intro _ _ D)) as (T1 & T2).
    constructor; assumption.
  - intros [N1 N2 N3 S1 S2 S3 B1 T1 T2].
    destruct (proj2 (nav_ok _ x) (conj N1 (conj N2 N3))) as [n A].
    destruct (proj2 (speed_ok _ x) (conj S1 (conj S2 S3))) as [sp B].
    destruct (proj2 (battery_ok _) B1) as [b C]. destruct (proj2 (state_ok _ _) (conj T1 T2)) as [st D].
    eexists. exact (parts_new _ _ _ _ _ _ A B C D).
Qed.

Lemma as_asked_proof opts x d : built opts x d -> exists s, device_Snapshot d = Ret s /\ as_asked m (options_of opts) x s.
Proof.
  intros H. destruct (new_parts _ _ _ H) as (n & sp & b & st & A & B & C & D & ->).
  destruct (nav_is _ _ _ A) as (N1 & N2 & N3 & N4 & e & N5 & N6).
  destruct (speed_is _ _ _ B) as (S1 & S2 & S3). destruct (battery_is _ _ C) as (B1 & B2 & B3 & B4).
  destruct (state_is _ _ _ D) as (T1 & T2 & T3 & T4 & T5 & T6 & T7).
  unfold device_Snapshot, nav_Snapshot. cbn [d_nav d_state d_speed d_battery d_sensors]. rewrite N5. cbn [deref bind].
  destruct (n_rnd n) as [r|] eqn:R.
  - eexists. split; [reflexivity|]. constructor; cbn; auto.
    + eexists. split; [reflexivity|]. cbn. auto.
    + eexists. split; [reflexivity|]. cbn. auto.
    + eexists. split; [reflexivity|]. cbn. rewrite N1. split; [reflexivity|]. split; [exact N2|]. split; [exact N3|]. intros K1 K2 K3. specialize (N4 K1 K2 K3). injection N4 as ->. split; reflexivity.
    + eexists _, _. split; [reflexivity|]. cbn. split; [reflexivity|]. exact N6.
  - eexists. split; [reflexivity|]. constructor; cbn; auto.
    + eexists. split; [reflexivity|]. cbn. auto.
    + eexists. split; [reflexivity|]. cbn. auto.
    + eexists. split; [reflexivity|]. cbn. rewrite N1. split; [reflexivity|]. split; [exact N2|]. split; [exact N3|]. intros K1 K2 K3. specialize (N4 K1 K2 K3). discriminate.
    + eexists _, _. split; [reflexivity|]. cbn. split; [reflexivity|]. exact N6.
Qed.

Lemma presets_proof o x : In o (presets m) -> exists d, built (Some o) x d.
Proof.
  intros H. apply accepts_proof. cbn [options_of]. unfold presets in H. cbn [In] in H.
  repeat (destruct H as [<-|H]; [constructor; solve [left; reflexivity | vm_compute; repeat split; discriminate | right; vm_compute; reflexivity | split; vm_compute; reflexivity]|]).
  contradiction.
Qed.

Lemma options_proof o x : snd (NewDevice (Some o) x) = o \/ snd (NewDevice (Some o) x) = with_id o (given_or (do_id o) (nd_id x)).
Proof.
  unfold NewDevice. destruct (navigator_New _ _ _); [|now left]. destruct (NewSpeed _ _ _ _); [|now left]. destruct (NewBattery _ _ _); [|now left].
  right. unfold given_or. rewrite <- empty_slen.
  assert (E : snd (applyFor o initDeviceState x) = with_id o (if (slen (do_id o) =? 0)%Z then nd_id x else do_id o)).
  { unfold applyFor. destruct (if (0 <? slen (do_model o))%Z then _ else _); [|reflexivity]. destruct (if (0 <? slen (do_color o))%Z then _ else _); reflexivity. }
  rewrite <- E. destruct (applyFor o initDeviceState x) as [[|] ?]; reflexivity.
Qed.
Lemma options_built o x d : built (Some o) x d -> snd (NewDevice (Some o) x) = with_id o (given_or (do_id o) (nd_id x)).
Proof.
  unfold built, NewDevice. destruct (navigator_New _ _ _); [|discriminate]. destruct (NewSpeed _ _ _ _); [|discriminate]. destruct (NewBattery _ _ _); [|discriminate].
  intros _. unfold given_or. rewrite <- empty_slen.
  assert (E : snd (applyFor o initDeviceState x) = with_id o (if (slen (do_id o) =? 0)%Z then nd_id x else do_id o)).
  { unfold applyFor. destruct (if (0 <? slen (do_model o))%Z then _ else _); [|reflexivity]. destruct (if (0 <? slen (do_color o))%Z then _ else _); reflexivity. }
  rewrite <- E. destruct (applyFor o initDeviceState x) as [[|] ?]; reflexivity.
Qed.
Lemma built_id opts x d : built opts x d -> pde_id (d_state d) = given_or (do_id (options_of opts)) (nd_id x).
Proof. intros H. destruct (new_parts _ _ _ H) as (n & sp & b & st & _ & _ & _ & D & ->). exact (proj1 (state_is _ _ _ D)). Qed.
Lemma reuse_proof o x1 x2 d1 d2 : nd_id x1 <> ""%string -> built (Some o) x1 d1 -> built (Some (snd (NewDevice (Some o) x1))) x2 d2 ->
  pde_id (d_state d1) = pde_id (d_state d2).
Proof.
  intros I H1 H2. rewrite (built_id _ _ _ H1), (built_id _ _ _ H2). cbn [options_of]. rewrite (options_built _ _ _ H1). cbn [do_id with_id].
  unfold given_or. destruct (String.eqb_spec (do_id o) "") as [E|E].
  - destruct (String.eqb_spec (nd_id x1) ""); congruence.
  - destruct (String.eqb_spec (do_id o) ""); congruence.
Qed.
End NewDeviceProofs.
