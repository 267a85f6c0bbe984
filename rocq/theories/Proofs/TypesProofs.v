(** Curves, speeds, batteries, offline durations: C06-C08, C10-C13. *)
From Coq Require Import Reals Lra Lia List.
From Flocq Require Import Core.Raux BinarySingleNaN.
From Verif.Model Require Import Base Num NumR NumF64 Geo Curve PropMap Types TypesSnap Track Route Navigator.
From Verif.Spec Require Import NavSpec RealSpec TypesSpec.
From Verif.Proofs Require Import NavLemmas NavProofs NavReal4 NavReal6 CurveLemmas.
Import ListNotations.
Open Scope R_scope.

Lemma NumControlPoints_generated min max mode n draws c : generated min max mode n draws c ->
  NumControlPoints c = Z.of_nat n.
Proof. intro G. unfold NumControlPoints, zlen. now rewrite (generated_length _ _ _ _ _ _ G). Qed.

Lemma points_for_pos k : (0 < points_for k)%Z.
Proof. unfold points_for. destruct (Z.ltb_spec 0 k); lia. Qed.

Lemma generated_range min max mode n draws c t : generated min max mode n draws c ->
  min <= max -> unit_draws draws -> 0 <= t <= 1 ->
  exists p c', curve_Point c t = Ret (p, c') /\ generated min max mode n draws c' /\
    min <= Y p <= max /\ X p = t * (IZR (Z.of_nat n) - 1).
Proof.
  intros G H Hd Ht. destruct (Point_generated _ _ _ _ _ _ t G) as (p & c' & E & G' & EY & EX).
  exists p, c'. split; [exact E|]. split; [exact G'|]. destruct G as (Hn & _). split.
  - rewrite EY. destruct n as [|m]; [lia|]. replace (S m - 1)%nat with m by lia.
    apply (bern_mix (fun i => control_y min max mode (S m) i (draws i))); [exact Ht|].
    intro i. now apply control_y_range.
  - rewrite EX, minus_INR by lia. now rewrite <- INR_IZR_INZ.
Qed.

Lemma latest_unit draws ops : unit_draws draws -> Forall unit_op ops -> unit_draws (latest draws ops).
Proof.
  intros H F. revert draws H. induction F as [|[d|t] ops Ho F IH]; intros; cbn; auto.
Qed.

Lemma C06_proof min max k mode draws ops t :
  min <= max -> unit_draws draws -> Forall unit_op ops -> 0 <= t <= 1 ->
  exists c p c', run_curve (curve_New min max k mode draws) ops = Ret c /\
    curve_Point c t = Ret (p, c') /\ min <= Y p <= max /\
    NumControlPoints c = points_for k /\ X p = t * (IZR (NumControlPoints c) - 1).
Proof.
  intros H Hd Ho Ht.
  destruct (run_generated _ _ _ _ _ _ ops (New_generated min max k mode draws)) as (c & E & G).
  destruct (generated_range _ _ _ _ _ _ t G H (latest_unit _ _ Hd Ho) Ht) as (p & c' & E' & _ & HY & HX).
  pose proof (points_for_pos k). rewrite Z2Nat.id in HX by lia.
  assert (EN : NumControlPoints c = points_for k)
    by (rewrite (NumControlPoints_generated _ _ _ _ _ _ G), Z2Nat.id; lia).
  exists c, p, c'. rewrite EN. auto.
Qed.

Lemma C07_proof min max k mode draws ops :
  exists c p0 p1 c0 c1, run_curve (curve_New min max k mode draws) ops = Ret c /\
    curve_Point c 0 = Ret (p0, c0) /\ curve_Point c 1 = Ret (p1, c1) /\
    (min_start mode -> Y p0 = min) /\ (min_end mode -> Y p1 = min) /\
    ((1 < points_for k)%Z ->
      (~ min_start mode -> Y p0 = min + latest draws ops O * (max - min)) /\
      (~ min_end mode -> Y p1 = min + latest draws ops (Z.to_nat (points_for k - 1)) * (max - min))).
Proof.
  destruct (run_generated _ _ _ _ _ _ ops (New_generated min max k mode draws)) as (c & E & G).
  destruct (Point_generated _ _ _ _ _ _ 0 G) as (p0 & c0 & E0 & _ & Y0 & _).
  destruct (Point_generated _ _ _ _ _ _ 1 G) as (p1 & c1 & E1 & _ & Y1 & _).
  exists c, p0, p1, c0, c1. repeat (split; [assumption|]).
  pose proof (points_for_pos k) as Hk. set (n := Z.to_nat (points_for k)) in *.
  assert (Hn : (0 < n)%nat) by (unfold n; lia).
  destruct n as [|m] eqn:En; [lia|]. replace (S m - 1)%nat with m in * by lia.
  set (d := latest draws ops) in *.
  rewrite (value_at_0 (fun i => control_y min max mode (S m) i (d i)) m) in Y0.
  rewrite (value_at_1 (fun i => control_y min max mode (S m) i (d i)) m) in Y1.
  unfold control_y in Y0, Y1. change ModeMinStart with (2 ^ 14)%Z in *. change ModeMinEnd with (2 ^ 13)%Z in *.
  rewrite !has_mode_testbit in Y0, Y1 by lia. unfold min_start, min_end.
  replace (S m - 1)%nat with m in Y0, Y1 by lia. rewrite Nat.eqb_refl in Y1.
  cbn [Nat.eqb] in Y0. rewrite !Bool.andb_true_r in Y0. rewrite Bool.andb_true_r in Y1.
  assert (Ez : Z.to_nat (points_for k - 1) = m) by (unfold n in En; lia). rewrite Ez.
  destruct (Z.testbit mode 14) eqn:B14, (Z.testbit mode 13) eqn:B13; cbn in Y0, Y1;
    unfold randomFloat in *; cbn in Y0, Y1; destruct m; cbn in Y0, Y1;
    repeat split; intros; try congruence; try lia; auto; try (destruct H; congruence).
Qed.

(** ** C08, any arithmetic *)
Section Any.
Context {T : Type} {N : Num T}.

Lemma eval_vp_cps t u (l l' : list (ctrl T)) : map (@cp T) l = map (@cp T) l' -> eval_vp t u l = eval_vp t u l'.
Proof.
  revert u l'; induction l as [|c l IH]; intros u [|c' l'] E; cbn in E; try discriminate; [reflexivity|].
  injection E as E1 E2. cbn. rewrite E1. f_equal. now apply IH.
Qed.

Lemma Point_cps (c c' : curve T) t :
  map (@cp T) (cv_points c) = map (@cp T) (cv_points c') ->
  cv_mode c = cv_mode c' -> cv_min c = cv_min c' -> cv_max c = cv_max c' ->
  curve_Point c t = curve_Point c' t.
Proof.
  unfold curve_Point. intros E E1 E2 E3. rewrite E1, E2, E3.
  destruct (cv_points c) as [|p l], (cv_points c') as [|p' l']; cbn in E; try discriminate; [reflexivity|].
  injection E as E4 E5. rewrite E4, (eval_vp_cps t t l l' E5). reflexivity.
Qed.

Lemma eval_vp_cp t u (l : list (ctrl T)) : map (@cp T) (eval_vp t u l) = map (@cp T) l.
Proof. revert u; induction l as [|c l IH]; intros; cbn; [reflexivity|]. f_equal. apply IH. Qed.

Lemma Point_keeps (c : curve T) t p c' : curve_Point c t = Ret (p, c') ->
  map (@cp T) (cv_points c) = map (@cp T) (cv_points c') /\
  cv_mode c = cv_mode c' /\ cv_min c = cv_min c' /\ cv_max c = cv_max c'.
Proof.
  unfold curve_Point. destruct (cv_points c) as [|p0 l]; [discriminate|].
  destruct (rev _); [discriminate|]. intros [= _ <-]. cbn. rewrite eval_vp_cp. auto.
Qed.

Lemma C08_proof (c : curve T) ts c' t :
  run_curve c (map CPoint ts) = Ret c' -> curve_Point c' t = curve_Point c t.
Proof.
  revert c; induction ts as [|a ts IH]; intros c E; cbn in E.
  - now injection E as <-.
  - destruct (curve_Point c a) as [[p c1]| |] eqn:E1; try discriminate. cbn in E.
    rewrite (IH c1 E). destruct (Point_keeps _ _ _ _ E1) as (A & B & C & D).
    apply Point_cps; auto.
Qed.

Lemma C08_total (c : curve T) ts : cv_points c <> [] -> exists c', run_curve c (map CPoint ts) = Ret c'.
Proof.
  revert c; induction ts as [|a ts IH]; intros c H; cbn; [eauto|].
  destruct (curve_Point c a) as [[p c1]| |] eqn:E1; cbn.
  - apply IH. destruct (Point_keeps _ _ _ _ E1) as (A & _). intro K. rewrite K in A. cbn in A.
    now destruct (cv_points c).
  - exfalso. unfold curve_Point in E1. destruct (cv_points c) as [|p0 l]; [easy|].
    destruct (rev _) eqn:Er; [|discriminate]. apply (f_equal (@List.length _)) in Er.
    rewrite rev_length in Er. discriminate.
  - exfalso. unfold curve_Point in E1. destruct (cv_points c) as [|p0 l]; [easy|].
    destruct (rev _); discriminate.
Qed.

(** ** C13 *)
Lemma run_settings {J : JsonLib T} (n : navigator T) ops n' : run_navs n ops = Ret n' ->
  n_skip n' = n_skip n /\ n_rnd n' = n_rnd n.
Proof.
  revert n; induction ops as [|o ops IH]; intros n E; cbn in E; [now injection E as <-|].
  destruct (run_nav n o) as [n1| |] eqn:E1; try discriminate. cbn in E.
  destruct (IH n1 E) as [-> ->].
  assert (Q : travels o \/ ~ travels o) by (destruct o; cbn; tauto). destruct Q as [Q|Q].
  - split; [apply (run_nav_stable n_skip stable_skip n o n1 Q E1) | apply (run_nav_stable n_rnd stable_rnd n o n1 Q E1)].
  - destruct (settings_same n o n1 Q E1) as (-> & -> & _). auto.
Qed.

Lemma options_offline (opts : list (nav_option T)) o :
  (o_minOff (fold_left apply_option opts o), o_maxOff (fold_left apply_option opts o)) =
  eff_offline opts (o_minOff o, o_maxOff o).
Proof. revert o; induction opts as [|[] opts IH]; intro o; cbn; [reflexivity| | |]; rewrite IH; reflexivity. Qed.
Lemma options_skip (opts : list (nav_option T)) o :
  o_skip (fold_left apply_option opts o) = true <-> o_skip o = true \/ In SkipOfflineMode opts.
Proof.
  revert o; induction opts as [|x opts IH]; intro o; cbn; [tauto|].
  rewrite IH. destruct x; cbn; intuition (try discriminate).
Qed.

Lemma validateOffline_spec a b x y : validateOffline a b = GOk (x, y) ->
  let '(lo, hi) := offline_interval a b in NewRandom x y = mkRandom lo hi /\ (0 <= lo <= hi /\ hi <= 3600)%Z.
Proof.
  unfold validateOffline. destruct (Z.ltb_spec a 0) as [Ha|Ha]; [discriminate|].
  destruct (Z.ltb_spec 3600 b) as [Hb|Hb]; [discriminate|].
  unfold offline_interval. destruct (Z.ltb_spec b a) as [G|G].
  - destruct (Z.ltb_spec b (b - 1)); [lia|].
    destruct (Z.eqb_spec (b - 1) 0), (Z.eqb_spec b 0); cbn [andb]; try lia; intros [= <- <-];
      unfold NewRandom; (destruct (Z.ltb_spec (b - 1) 0), (Z.ltb_spec b 0); try lia);
      repeat match goal with |- context [Z.eqb ?x ?y] => destruct (Z.eqb_spec x y) end; cbn [andb]; try lia;
      (split; [f_equal; lia|lia]).
  - destruct (Z.ltb_spec b a); [lia|].
    destruct (Z.eqb_spec a 0), (Z.eqb_spec b 0); cbn [andb]; intros [= <- <-];
      unfold NewRandom;
      repeat match goal with |- context [Z.ltb ?x ?y] => destruct (Z.ltb_spec x y) end; try lia;
      repeat match goal with |- context [Z.eqb ?x ?y] => destruct (Z.eqb_spec x y) end; cbn [andb]; try lia;
      (split; [f_equal; lia|lia]).
Qed.

Lemma New_offline opts uuid draws (n : navigator T) : navigator_New opts uuid draws = GOk n ->
  n_skip n = true /\ In SkipOfflineMode opts \/
  n_skip n = false /\ ~ In SkipOfflineMode opts /\
  let '(a, b) := eff_offline opts (1%Z, 10%Z) in
  let '(lo, hi) := offline_interval a b in
  n_rnd n = Some (mkRandom lo hi) /\ (0 <= lo <= hi /\ hi <= 3600)%Z.
Proof.
  unfold navigator_New. pose proof (options_offline opts defaultNavOptions) as Eo.
  pose proof (options_skip opts defaultNavOptions) as Es.
  set (o := fold_left apply_option opts defaultNavOptions) in *. cbn in Eo, Es.
  destruct (eff_offline opts (1%Z, 10%Z)) as [a b]. injection Eo as Ea Eb. rewrite Ea, Eb.
  destruct (validateOffline a b) as [[x y]|] eqn:Ev; [|discriminate].
  pose proof (validateOffline_spec a b x y Ev) as Ex.
  destruct (validateElevation _ _) as [[? ?]|]; [|discriminate].
  destruct (NewSensor _ _ _ _ _ _ _); [|discriminate]. intros [= <-]. cbn.
  destruct (o_skip o) eqn:Ek.
  - left. split; [reflexivity|]. destruct Es as [Es _]. destruct (Es eq_refl); [discriminate|assumption].
  - right. split; [reflexivity|]. split.
    + intro K. destruct Es as [_ Es]. now specialize (Es (or_intror K)).
    + destruct (offline_interval a b) as [lo hi]. destruct Ex as [-> Ex]. auto.
Qed.

Lemma Uint32n_below draw m : uint32 draw -> (0 < m <= 3600)%Z -> (0 <= Uint32n draw m < m)%Z.
Proof.
  unfold uint32, Uint32n. intros Hd Hm.
  assert (A : (0 <= draw * m / 2 ^ 32 < m)%Z).
  { split; [apply Z.div_pos; nia|]. apply Z.div_lt_upper_bound; [lia|]. nia. }
  rewrite Z.mod_small; [exact A|]. lia.
Qed.

Lemma C13_proof {J : JsonLib T} opts uuid draws (n0 : navigator T) ops n draw :
  navigator_New opts uuid draws = GOk n0 -> run_navs n0 ops = Ret n -> uint32 draw ->
  let '(a, b) := eff_offline opts (1%Z, 10%Z) in
  let '(lo, hi) := offline_interval a b in
  exists n', ToOffline n draw = Ret n' /\
    (In SkipOfflineMode opts -> n' = n) /\
    (~ In SkipOfflineMode opts ->
       n' = set_off n (n_off n') /\ (lo <= n_off n' <= hi)%Z /\ ((lo < hi)%Z -> (n_off n' < hi)%Z)).
Proof.
  intros H0 H Hd. destruct (run_settings _ _ _ H) as [Es Er].
  pose proof (New_offline _ _ _ _ H0) as K.
  destruct (eff_offline opts (1%Z, 10%Z)) as [a b]. destruct (offline_interval a b) as [lo hi].
  unfold ToOffline. rewrite Es, Er. destruct K as [[-> K]|[-> (K & -> & R1 & R2)]].
  - exists n. repeat split; tauto.
  - cbn. eexists. split; [reflexivity|]. split; [tauto|]. intros _. split; [reflexivity|].
    cbn. unfold random_Value. cbn. rewrite Z.mod_small by lia.
    pose proof (Uint32n_range draw (hi - lo) Hd ltac:(lia)). split; [lia|]. intro L.
    pose proof (Uint32n_below draw (hi - lo) Hd ltac:(lia)). lia.
Qed.
End Any.

(** ** C10 *)
Ltac rb := repeat match goal with
  | H : context [Rlt_bool ?x ?y] |- _ => destruct (Rlt_bool_spec x y)
  | H : context [Rle_bool ?x ?y] |- _ => destruct (Rle_bool_spec x y)
  | H : context [Req_bool ?x ?y] |- _ => destruct (Req_bool_spec x y)
  | |- context [Rlt_bool ?x ?y] => destruct (Rlt_bool_spec x y)
  | |- context [Rle_bool ?x ?y] => destruct (Rle_bool_spec x y)
  | |- context [Req_bool ?x ?y] => destruct (Req_bool_spec x y)
  end.

Lemma amplitude_spec amp : (exists e, validateAmplitude amp = Some e) <-> (amp < 4 \/ 512 < amp)%Z.
Proof.
  unfold validateAmplitude. destruct (Z.ltb_spec amp 4); [split; eauto|].
  destruct (Z.ltb_spec 512 amp); [split; eauto|]. split; [intros [? ?]; discriminate|lia].
Qed.

Lemma NewSpeed_spec (min max : R) amp draws :
  (exists e, NewSpeed min max amp draws = GErr e /\
     (min < 0 \/ max > 1000 \/ (amp < 4)%Z \/ (512 < amp)%Z \/ 0 < max < min)) \/
  (exists s, NewSpeed min max amp draws = GOk s /\
     0 <= min /\ max <= 1000 /\ (4 <= amp <= 512)%Z /\ (max <= 0 \/ min <= max) /\
     (0 < max -> sp_min s = min /\ sp_max s = max) /\
     (max <= 0 -> 0 < min -> sp_min s = min /\ sp_max s = min) /\
     (max <= 0 -> min = 0 -> sp_min s = 1 /\ sp_max s = 1) /\
     s = mkSpeed (sp_min s) (sp_max s) 0 (curve_New (sp_min s) (sp_max s) amp ModeDefault draws)).
Proof.
  unfold NewSpeed. change (@flt R RNum) with Rlt_bool. change (@fle R RNum) with Rle_bool.
  change (@feq R RNum) with Req_bool. change (@f0 R RNum) with 0. change (@f1 R RNum) with 1.
  change (@fofZ R RNum 1000) with 1000.
  destruct (Rlt_bool_spec min 0); [left; eexists; split; [reflexivity|lra]|].
  destruct (Rlt_bool_spec 1000 max); [left; eexists; split; [reflexivity|lra]|].
  cbn zeta. set (mx := if Rle_bool max 0 then min else max).
  assert (Hmx : max <= 0 /\ mx = min \/ 0 < max /\ mx = max)
    by (unfold mx; destruct (Rle_bool_spec max 0); [left|right]; auto).
  clearbody mx.
  destruct (Rlt_bool_spec mx min) as [Hlt|Hge].
  { left. eexists; split; [reflexivity|]. destruct Hmx as [[? ->]|[? ->]]; [lra|]. do 4 right. lra. }
  assert (V : forall a b, 
    ((a = 1 /\ b = 1 /\ min = 0 /\ mx = 0) \/ (~(min = 0 /\ mx = 0) /\ a = min /\ b = mx)) ->
    (exists e, match validateAmplitude amp with
       | Some e => GErr e
       | None => GOk (mkSpeed a b 0 (curve_New a b amp ModeDefault draws)) end = GErr e /\
       (min < 0 \/ max > 1000 \/ (amp < 4)%Z \/ (512 < amp)%Z \/ 0 < max < min)) \/
    (exists s, match validateAmplitude amp with
       | Some e => GErr e
       | None => GOk (mkSpeed a b 0 (curve_New a b amp ModeDefault draws)) end = GOk s /\
     0 <= min /\ max <= 1000 /\ (4 <= amp <= 512)%Z /\ (max <= 0 \/ min <= max) /\
     (0 < max -> sp_min s = min /\ sp_max s = max) /\
     (max <= 0 -> 0 < min -> sp_min s = min /\ sp_max s = min) /\
     (max <= 0 -> min = 0 -> sp_min s = 1 /\ sp_max s = 1) /\
     s = mkSpeed (sp_min s) (sp_max s) 0 (curve_New (sp_min s) (sp_max s) amp ModeDefault draws))).
  { intros a b Hab. pose proof (amplitude_spec amp) as A. destruct (validateAmplitude amp) as [e|] eqn:Ea.
    - left. exists e. split; [reflexivity|]. destruct A as [A _]. specialize (A (ex_intro _ e eq_refl)). tauto.
    - right. eexists. split; [reflexivity|]. cbn [sp_min sp_max sp_val sp_gen].
      assert (A' : ~ (amp < 4 \/ 512 < amp)%Z) by (intro K; apply A in K; destruct K; discriminate).
      repeat split; try lra; try lia; destruct Hmx as [[? ->]|[? ->]], Hab as [(-> & -> & ? & ?)|(? & -> & ->)];
        try lra; try tauto. }
  destruct (Req_bool_spec min 0), (Req_bool_spec mx 0); cbn [andb]; apply V; tauto.
Qed.

Lemma C10_fails_proof (min max : R) amp draws :
  (exists e, NewSpeed min max amp draws = GErr e) <->
  (min < 0 \/ max > 1000 \/ (amp < 4)%Z \/ (512 < amp)%Z \/ 0 < max < min).
Proof.
  destruct (NewSpeed_spec min max amp draws) as [(e & E & H)|(s & E & H1 & H2 & H3 & H4 & _)].
  - split; [intros _; exact H|intros _; now exists e].
  - rewrite E. split; [intros [? ?]; discriminate|]. intro K. exfalso. destruct H4; destruct K as [K|[K|[K|[K|K]]]]; lia || lra.
Qed.

(** a speed whose curve was generated for its range *)
Definition speed_ok (lo hi : R) (s : speed R) : Prop :=
  sp_min s = lo /\ sp_max s = hi /\
  exists n draws, unit_draws draws /\ generated lo hi ModeDefault n draws (sp_gen s).

Lemma run_speed_range lo hi s ops : lo <= hi -> speed_ok lo hi s -> Forall unit_gen ops ->
  exists s', run_speed s ops = Ret s' /\ speed_ok lo hi s' /\
    (Exists is_next ops \/ lo <= sp_val s <= hi -> lo = hi \/ lo <= sp_val s' <= hi).
Proof.
  intros H. revert s; induction ops as [|[d|t] ops IH]; intros s (E1 & E2 & n & dr & Hd & G) F; cbn [run_speed].
  - exists s. split; [reflexivity|]. split; [repeat split; eauto|]. intros [K|K]; [inversion K|auto].
  - destruct (IH (speed_Shuffle s d)) as (s' & E & K1 & K2).
    + repeat split; auto. exists n, d. split; [apply (Forall_inv F)|]. cbn. eapply Shuffle_generated; eassumption.
    + apply (Forall_inv_tail F).
    + exists s'. split; [exact E|]. split; [exact K1|]. intros K. apply K2. destruct K as [K|K]; [left|right; exact K].
      inversion K; subst; [contradiction|assumption].
  - pose proof (Forall_inv F) as Ht. cbn in Ht. unfold speed_Next, speed_isStatic. rewrite E1, E2.
    change (@feq R RNum lo hi) with (Req_bool lo hi). destruct (Req_bool_spec lo hi) as [Eq|Ne].
    + cbn [bind]. destruct (IH s) as (s' & E & K1 & K2); [repeat split; eauto|apply (Forall_inv_tail F)|].
      exists s'. repeat (split; [assumption|]). auto.
    + destruct (generated_range _ _ _ _ _ _ t G H Hd Ht) as (p & c' & -> & G' & HY & _). cbn [bind].
      destruct (IH (mkSpeed lo hi (Y p) c')) as (s' & E & K1 & K2).
      * repeat split; auto. exists n, dr. auto.
      * apply (Forall_inv_tail F).
      * exists s'. repeat (split; [assumption|]). intros _. apply K2. right. exact HY.
Qed.

Lemma C10_range_proof (min max : R) amp draws s ops :
  NewSpeed min max amp draws = GOk s -> unit_draws draws -> Forall unit_gen ops ->
  exists s', run_speed s ops = Ret s' /\
    sp_min s' = sp_min s /\ sp_max s' = sp_max s /\
    0 <= sp_min s <= sp_max s /\ sp_max s <= Rmax 1000 min /\
    (0 < max -> sp_min s = min /\ sp_max s = max) /\
    (max <= 0 -> 0 < min -> sp_min s = min /\ sp_max s = min) /\
    (max <= 0 -> min = 0 -> sp_min s = 1 /\ sp_max s = 1) /\
    (Exists is_next ops -> sp_min s <= speed_Value s' <= sp_max s) /\
    (sp_min s = sp_max s -> speed_Value s' = sp_min s) /\
    (sp_min s < sp_max s -> ~ Exists is_next ops -> speed_Value s' = 0).
Proof.
  intros Es Hd F. destruct (NewSpeed_spec min max amp draws) as [(e & E & H)|(s0 & E & H1 & H2 & H3 & H4 & H5 & H6 & H7 & H8)];
    rewrite Es in E; [discriminate|]. injection E as <-.
  assert (Rg : 0 <= sp_min s <= sp_max s /\ sp_max s <= Rmax 1000 min).
  { pose proof (Rmax_l 1000 min). pose proof (Rmax_r 1000 min).
    destruct (Rlt_or_le 0 max) as [P|P]; [destruct (H5 P) as [-> ->]; lra|].
    destruct (Rlt_or_le 0 min) as [Q|Q]; [destruct (H6 P Q) as [-> ->]; lra|].
    destruct (H7 P ltac:(lra)) as [-> ->]. lra. }
  destruct (run_speed_range (sp_min s) (sp_max s) s ops) as (s' & E & (K1 & K2 & _) & K3).
  - lra.
  - repeat split; auto. exists (Z.to_nat (points_for amp)), draws. split; [exact Hd|].
    rewrite H8. cbn [sp_gen]. cbn [sp_min sp_max]. apply New_generated.
  - exact F.
  - exists s'. repeat (split; [tauto|]). split; [|split].
    + intro K. unfold speed_Value, speed_isStatic. rewrite K1, K2.
      change (@feq R RNum) with Req_bool. destruct (Req_bool_spec (sp_min s) (sp_max s)); [lra|]. destruct (K3 (or_introl K)); lra.
    + intro K. unfold speed_Value, speed_isStatic. rewrite K1, K2.
      change (@feq R RNum) with Req_bool. now rewrite Req_bool_true.
    + intros L K. unfold speed_Value, speed_isStatic. rewrite K1, K2.
      change (@feq R RNum) with Req_bool. rewrite Req_bool_false by lra.
      assert (V : sp_val s = 0) by (rewrite H8; reflexivity).
      clear - E K V. revert s E V. induction ops as [|[d|t] ops IH]; intros s E V; cbn in E.
      * now injection E as <-.
      * apply (IH (fun Q => K (Exists_cons_tl _ Q)) _ E). exact V.
      * exfalso. apply K. now left.
Qed.

(** ** C11, C12 *)
Lemma seconds_spec d : @duration_Seconds R RNum d = seconds d.
Proof.
  unfold duration_Seconds, seconds. cbn.
  pose proof (Z.quot_rem' d 1000000000) as E. rewrite E at 3. rewrite plus_IZR, mult_IZR. field.
Qed.

Lemma NewBattery_spec (min max : R) ct :
  (NewBattery min max ct = GErr ErrMinBattery /\ min < 0) \/
  (NewBattery min max ct = GErr ErrMaxBattery /\ max > 100) \/
  (0 <= min /\ max <= 100 /\ NewBattery min max ct = GOk (mkBattery (Rmin min max) max 0 (charge_time ct))).
Proof.
  unfold NewBattery. change (@flt R RNum) with Rlt_bool. change (@f0 R RNum) with 0.
  change (@fofZ R RNum 100) with 100.
  destruct (Rlt_bool_spec min 0); [left; auto|].
  destruct (Rlt_bool_spec 100 max); [right; left; auto with real|]. right; right.
  repeat split; try lra. unfold charge_time, defaultChargeTime. do 2 f_equal.
  destruct (Rlt_bool_spec max min); [symmetry; apply Rmin_right; lra|symmetry; apply Rmin_left; lra].
Qed.

Lemma run_battery_fields (b : battery R) ops :
  b_min (run_battery b ops) = b_min b /\ b_max (run_battery b ops) = b_max b /\
  b_chargeTime (run_battery b ops) = b_chargeTime b /\
  b_val (run_battery b ops) = fold_left (fun e o => match o with BNext s => (e + s)%R | BReset => 0%R end) ops (b_val b).
Proof.
  unfold run_battery. revert b; induction ops as [|[s|] ops IH]; intro b; cbn [fold_left run_battery1]; auto.
  - destruct (IH (battery_Next b s)) as (A & B & C & D). rewrite A, B, C, D. auto.
  - destruct (IH (battery_Reset b)) as (A & B & C & D). rewrite A, B, C, D. auto.
Qed.

Lemma battery_Value_spec (b : battery R) :
  battery_Value b = Rmax (b_min b) (100 * (1 - b_val b / seconds (b_chargeTime b))).
Proof.
  unfold battery_Value. rewrite seconds_spec. change (@flt R RNum) with Rlt_bool. cbn [fofZ fsub fdiv fmul RNum].
  replace (100 - b_val b / seconds (b_chargeTime b) * 100) with (100 * (1 - b_val b / seconds (b_chargeTime b))) by ring.
  destruct (Rlt_bool_spec (100 * (1 - b_val b / seconds (b_chargeTime b))) (b_min b)).
  - symmetry; apply Rmax_left; lra.
  - symmetry; apply Rmax_right; lra.
Qed.

Lemma battery_IsLow_spec (b : battery R) :
  battery_IsLow b = true <-> 100 * (1 - b_val b / seconds (b_chargeTime b)) <= b_min b.
Proof.
  unfold battery_IsLow. rewrite battery_Value_spec. change (@feq R RNum) with Req_bool.
  set (v := 100 * _). destruct (Req_bool_spec (Rmax (b_min b) v) (b_min b)) as [E|E].
  - split; [|auto]. intros _. rewrite <- E. apply Rmax_r.
  - split; [discriminate|]. intro K. exfalso. apply E. now apply Rmax_left.
Qed.

Lemma charge_time_pos ct : ct <> 0%Z -> 0 < seconds (charge_time ct).
Proof.
  intro H. unfold seconds, charge_time. apply Rdiv_lt_0_compat; [|lra].
  apply IZR_lt. destruct (Z.ltb_spec ct 0); lia.
Qed.

Lemma C11_proof (min max : R) ct b ops :
  NewBattery min max ct = GOk b -> ct <> 0%Z ->
  let b' := run_battery b ops in
  let law e := 100 * (1 - e / seconds (charge_time ct)) in
  battery_Value b' = Rmax (b_min b) (law (elapsed ops)) /\
  (battery_IsLow b' = true <-> law (elapsed ops) <= b_min b) /\
  (forall s, 0 <= s -> battery_Value (battery_Next b' s) <= battery_Value b') /\
  battery_Value (battery_Reset b') = 100 /\ b_min b = Rmin min max /\ 0 <= min /\ max <= 100.
Proof.
  intros E Hc b' law. destruct (NewBattery_spec min max ct) as [[E' _]|[[E' _]|(H1 & H2 & E')]];
    rewrite E in E'; try discriminate. injection E' as ->. unfold b'.
  destruct (run_battery_fields (mkBattery (Rmin min max) max 0 (charge_time ct)) ops) as (A & B & C & D).
  cbn [b_min b_max b_val b_chargeTime] in *. fold (elapsed ops) in D.
  pose proof (charge_time_pos ct Hc) as Hp.
  split; [rewrite battery_Value_spec, A, C, D; reflexivity|].
  split; [rewrite battery_IsLow_spec, A, C, D; reflexivity|].
  split; [|split; [|repeat split; auto]].
  - intros s Hs. rewrite !battery_Value_spec. cbn [battery_Next b_min b_val b_chargeTime]. rewrite A, C, D.
    apply Rle_max_compat_l. apply Rmult_le_compat_l; [lra|]. change fadd with Rplus.
    apply Rplus_le_compat_l, Ropp_le_contravar, Rmult_le_compat_r; [|lra].
    apply Rlt_le, Rinv_0_lt_compat, Hp.
  - rewrite battery_Value_spec. cbn [battery_Reset b_min b_val b_chargeTime]. rewrite A.
    change (@f0 R RNum) with 0. replace (100 * (1 - 0 / _)) with 100 by (unfold Rdiv; ring).
    apply Rmax_right. pose proof (Rmin_r min max). lra.
Qed.

Lemma C12_partial_proof (min max : R) ct b ops :
  NewBattery min max ct = GOk b -> ct <> 0%Z ->
  Forall (fun o => match o with BNext s => 0 <= s | BReset => True end) ops ->
  battery_Value (run_battery b ops) <= 100.
Proof.
  intros E Hc F. destruct (C11_proof min max ct b ops E Hc) as (-> & _ & _ & _ & Em & H1 & H2).
  apply Rmax_lub; [rewrite Em; pose proof (Rmin_r min max); lra|].
  assert (P : forall e, 0 <= e -> 0 <= fold_left (fun e o => match o with BNext s => (e + s)%R | BReset => 0%R end) ops e).
  { clear - F. induction F as [|[s|] ops Ho F IH]; intros e He; cbn; auto; apply IH; lra. }
  specialize (P 0 (Rle_refl 0)). fold (elapsed ops) in P.
  assert (0 <= elapsed ops / seconds (charge_time ct)).
  { apply Rmult_le_pos; [exact P|]. apply Rlt_le, Rinv_0_lt_compat, charge_time_pos, Hc. }
  lra.
Qed.

Lemma C12_refuted_proof (ct : Z) : exists b : battery R,
  NewBattery 0 50 ct = GOk b /\ b_max b = 50 /\ battery_Value b = 100.
Proof.
  destruct (NewBattery_spec 0 50 ct) as [[_ H]|[[_ H]|(_ & _ & E)]]; try lra.
  eexists. split; [exact E|]. split; [reflexivity|]. rewrite battery_Value_spec. cbn [b_min b_val b_chargeTime].
  replace (100 * (1 - 0 / _)) with 100 by (unfold Rdiv; ring). apply Rmax_right. pose proof (Rmin_r 0 50). lra.
Qed.
