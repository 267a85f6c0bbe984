(** A device used by several goroutines. *)
From Coq Require Import Lia.
From Verif.Model Require Import Base Num Geo Curve PropMap Types Pb TypesSnap Track Route Navigator Device Mutex DeviceConc.
From Verif.Spec Require Import NumLaws NavSpec TypesSpec DeviceSpec MutexSpec DeviceConcSpec.
From Verif.Proofs Require Import DeviceProofs DeviceProofs2 MutexProofs.
Open Scope num_scope.

Section P.
Context {T : Type} {N : Num T} {J : JsonLib T} {U : UtmLib T}.
Implicit Types (d : device T).

Lemma writing_part {A} (f : device T -> res (A * device T)) k : (forall a, writing (k a)) -> writing (part f k).
Proof. intros H. constructor. intros d. destruct (f d) as [[a d']| |]; [apply H|constructor|constructor]. Qed.

Lemma call_guarded c : lawful c -> guarded (call_prog c).
Proof.
  destruct c as [tick x|o|f]; intros H; cbn [call_prog].
  - right; right. eexists _, _. split; [reflexivity|]. split; [|reflexivity].
    constructor. intros d. destruct (n_routes (d_nav d)); [constructor|]. constructor. intros z Hz. constructor; [now split|].
    repeat (apply writing_part; intros _). constructor. intros d2. repeat (apply writing_part; intros ?). constructor.
  - left. eexists. split; [reflexivity|]. apply writing_part. intros a. constructor.
  - right; left. eexists. split; [reflexivity|]. constructor; [reflexivity|]. intros d. constructor.
Qed.

Lemma alone_part {A} (f : device T -> res (A * device T)) k d d' v : alone (part f k) d d' v ->
  exists a d1, f d = Ret (a, d1) /\ alone (k a) d1 d' v.
Proof.
  intros H. inversion H; subst. destruct (f d) as [[a d1]| |] eqn:E; [eauto| |];
    match goal with X : alone Crash _ _ _ |- _ => inversion X end.
Qed.
Lemma alone_part_ (f : device T -> res (device T)) k d d' v : alone (part_ f k) d d' v ->
  exists d1, f d = Ret d1 /\ alone k d1 d' v.
Proof.
  intros H. apply alone_part in H. destruct H as (a & d1 & E & H). exists d1. split; [|exact H].
  destruct (f d) as [d2| |]; cbn in E; try discriminate. injection E as _ ->. reflexivity.
Qed.

Lemma alone_end d d' (v w : dval T) : alone (Unlock (Return v)) d d' w -> d' = d /\ w = v.
Proof. intros H. inversion H; subst. match goal with X : alone (Return _) _ _ _ |- _ => inversion X; subst end. auto. Qed.

Lemma alone_next tick x d d' v : d_tick d = 0%Z -> alone (Next_prog tick x) d d' v ->
  (d' = d /\ v = VBool false) \/
  exists z b, uint32 z /\ Next_locked (dset_tick d z) tick x = Ret (b, d') /\ d_tick d' = 0%Z /\ v = VBool b.
Proof.
  intros H0 H. unfold Next_prog in H. inversion H as [| | | | | | | | | |k b m m' v' H1 E1 E2 E3 E4]; subst. clear H. destruct b.
  2:{ left. inversion H1; subst. match goal with X : alone (Return _) _ _ _ |- _ => inversion X; subst end. auto. }
  right. unfold look in H1 at 1. inversion H1 as [|f k m m' v' H2 E1 E2 E3 E4| | | | | | | | |]; subst. clear H1.
  assert (D0 : dset_tick d 0 = d) by (destruct d; cbn in *; now rewrite H0).
  unfold Next_locked. change (n_routes (d_nav (dset_tick d 0))) with (n_routes (d_nav d)).
  destruct (n_routes (d_nav d)) as [|r0 rs] eqn:Er.
  { apply alone_end in H2. destruct H2 as [-> ->]. exists 0%Z, false. split; [now split|]. cbn. rewrite Er, D0. auto. }
  inversion H2 as [| |k z m m' v' Hz H3 E1 E2 E3 E4| | | | | | | |]; subst. clear H2.
  inversion H3 as [| | |z' k m m' v' H4 E1 E2 E3 E4| | | | | | |]; subst. clear H3.
  apply alone_part_ in H4. destruct H4 as (d1 & [= <-] & H4).
  apply alone_part_ in H4. destruct H4 as (d2 & [= <-] & H4).
  apply alone_part_ in H4. destruct H4 as (d3 & [= <-] & H4).
  apply alone_part_ in H4. destruct H4 as (d4 & E4 & H4).
  unfold look in H4. inversion H4 as [|f k m m' v' H5 E1 E2 E3 E5| | | | | | | | |]; subst. clear H4.
  apply alone_part_ in H5. destruct H5 as (d5 & E5 & H5).
  apply alone_part in H5. destruct H5 as (ok & d6 & E6 & H5).
  apply alone_part in H5. destruct H5 as (b & d7 & E7 & H5).
  apply alone_end in H5. destruct H5 as [-> ->].
  exists z, b. split; [exact Hz|].
  enough (E : Next_locked (dset_tick d z) tick x = Ret (b, d7)).
  { split; [exact E|]. split; [|reflexivity]. assert (E' : Next (dset_tick d z) true tick x = Ret (b, d7)) by exact E.
    apply Next_time in E'; [apply E'|cbn; congruence]. }
  unfold Next_locked. cbn [dset_tick d_nav d_tick]. rewrite Er. cbv zeta.
  match type of E4 with next_lowBattery ?e _ = _ => set (da := e) in * end.
  match goal with |- context [next_account ?e ?s] => assert (EA : next_account e s = da) end.
  { unfold da, next_account. clear - H0. destruct d; cbn in *. subst. reflexivity. }
  rewrite EA, E4. cbn [bind]. rewrite E5. cbn [bind].
  destruct (NextLocation _ _ _ _) as [[ok' n]| |]; cbn [bind] in E6 |- *; try discriminate. injection E6 as -> <-. exact E7.
Qed.

Lemma alone_change o d d' v : alone (call_prog (CChange o)) d d' v -> run_dev d o = Ret d' /\ v = VUnit.
Proof.
  intros H. cbn [call_prog] in H. unfold change in H. inversion H; subst.
  match goal with X : alone (part _ _) _ _ _ |- _ => apply alone_part in X; destruct X as (a & d1 & E & X); apply alone_end in X; destruct X as [-> ->] end.
  destruct (run_dev d o); cbn in E; try discriminate. injection E as <- ->. auto.
Qed.

Lemma alone_query f d d' v : alone (call_prog (CQuery f)) d d' v -> d' = d /\ v = f d.
Proof.
  intros H. cbn [call_prog] in H. unfold query, look in H.
  repeat match goal with X : alone _ _ _ _ |- _ => inversion X; subst; clear X end. auto.
Qed.

Lemma run_devs_contended n : forall tick x d, (Z.of_nat n + d_tick d < 2 ^ 32)%Z -> (0 <= d_tick d)%Z ->
  run_devs d (repeat (DNext false tick x) n) = Ret (dset_tick d (Z.of_nat n + d_tick d)).
Proof.
  induction n as [|n IH]; intros tick x d H H0; cbn [repeat].
  - replace (dset_tick d (Z.of_nat 0 + d_tick d)) with d by (destruct d; reflexivity). reflexivity.
  - cbn [run_devs run_dev Next bind]. unfold Next_contended. cbn [bind].
    assert (E : ((d_tick d + 1) mod 2 ^ 32 = d_tick d + 1)%Z) by (apply Z.mod_small; lia).
    rewrite E, IH by (cbn [dset_tick d_tick]; lia). f_equal. unfold dset_tick. cbn [d_status d_nav d_speed d_battery d_state d_sensors d_avgT d_tick d_ns].
    f_equal. lia.
Qed.

Lemma under_lock_not_next (o : dev_op T) : under_lock o -> not_next o.
Proof. destruct o; cbn; auto. Qed.

Lemma set_nth_map {A B} (f : A -> B) i x l : set_nth i (f x) (map f l) = map f (set_nth i x l).
Proof. revert i; induction l as [|a l IH]; intros [|i]; cbn; auto. now rewrite IH. Qed.

Lemma set_nth_Forall {A} (P : A -> Prop) i x l : P x -> Forall P l -> Forall P (set_nth i x l).
Proof. intros Hx H. revert i; induction H; intros [|i]; cbn; constructor; auto. Qed.

Definition gos (calls : list (list (dev_call T))) (rs : list (list (dval T))) : list (goroutine (device T) (dval T)) :=
  map (fun c => mkGo (map call_prog (fst c)) (snd c)) (combine calls rs).

Lemma gos_nth calls rs i g : nth_error (gos calls rs) i = Some g -> exists l r, nth_error calls i = Some l /\ nth_error rs i = Some r /\ g = mkGo (map call_prog l) r.
Proof.
  revert rs i; induction calls as [|c calls IH]; intros [|r rs] [|i]; cbn; try discriminate.
  - intros [= <-]. eauto.
  - apply IH.
Qed.
Lemma gos_set calls : forall rs i l r, set_nth i (mkGo (map call_prog l) r) (gos calls rs) = gos (set_nth i l calls) (set_nth i r rs).
Proof. induction calls as [|c calls IH]; intros [|r0 rs] [|i] l r; cbn; auto. f_equal. apply IH. Qed.

Lemma serial_history turns d0 gs0 d gs1 : one_by_one turns d0 gs0 d gs1 -> forall calls rs, gs0 = gos calls rs ->
  List.length rs = List.length calls -> Forall (Forall lawful) calls -> d_tick d0 = 0%Z ->
  history turns d0 calls rs d (map go_results gs1).
Proof.
  induction 1 as [m gs|i turns p l r gs m m1 v m2 gs2 Hn Ha Ho IH]; intros calls rs -> Hlen Hl Ht.
  - replace (map go_results (gos calls rs)) with rs; [constructor|].
    clear - Hlen. revert rs Hlen; induction calls as [|c calls IH]; intros [|r rs] H; cbn in *; try discriminate; auto. f_equal. apply IH. lia.
  - destruct (gos_nth _ _ _ _ Hn) as (lc & rc & H1 & H2 & E). destruct lc as [|c lc]; cbn in E; [discriminate E|].
    injection E as -> -> ->.
    assert (Hc : Forall lawful (c :: lc)).
    { rewrite Forall_forall in Hl. apply Hl. eapply nth_error_In; eauto. }
    inversion Hc; subst.
    assert (Hl' : Forall (Forall lawful) (set_nth i lc calls)) by (apply set_nth_Forall; auto).
    assert (Hlen' : List.length (set_nth i (rc ++ [v]) rs) = List.length (set_nth i lc calls)) by (rewrite !length_set; exact Hlen).
    specialize (IH (set_nth i lc calls) (set_nth i (rc ++ [v]) rs) (gos_set _ _ _ _ _) Hlen' Hl').
    destruct c as [tick x|o|f].
    + apply alone_next in Ha; [|exact Ht]. destruct Ha as [[-> ->]|(z & b & Hz & E & Ht1 & ->)].
      * eapply hi_busy; eauto.
      * eapply hi_next with (owed := Z.to_nat z); eauto. unfold uint32 in Hz.
        rewrite run_devs_contended by lia. rewrite Z2Nat.id, Ht, Z.add_0_r by lia. reflexivity.
    + apply alone_change in Ha. destruct Ha as [Ha ->].
      pose proof (other_time _ _ _ (under_lock_not_next _ H3) Ha) as (_ & _ & Q & _). unfold owed in Q.
      eapply hi_change; eauto. apply IH. congruence.
    + apply alone_query in Ha. destruct Ha as [-> ->]. eapply hi_query; eauto.
Qed.

Lemma lawful_guarded calls : Forall (Forall lawful) calls -> Forall (Forall guarded) (map (map call_prog) calls).
Proof.
  intros Hl. rewrite List.Forall_map. eapply Forall_impl; [|exact Hl]. intros l Hc.
  rewrite List.Forall_map. eapply Forall_impl; [|exact Hc]. intros c. apply call_guarded.
Qed.

Lemma C69_history_proof d0 cnt calls turns x : d_tick d0 = 0%Z -> uint32 cnt -> Forall (Forall lawful) calls ->
  steps turns (start d0 cnt (map (map call_prog) calls)) x -> finished x ->
  history turns d0 calls (map (fun _ => []) calls) (sh_mem (sy_shared x)) (map go_results (sy_gos x)).
Proof.
  intros H0 Hu Hl Hs F.
  pose proof (guarded_serial _ _ _ _ _ Hu (lawful_guarded _ Hl) Hs F) as S.
  apply (serial_history _ _ _ _ _ S); auto; [|now rewrite map_length].
  unfold gos. rewrite map_map. clear. induction calls as [|c calls IH]; cbn; auto. now rewrite IH.
Qed.

(** ** No panic *)
Lemma crashes_part {A} (f : device T -> res (A * device T)) k d : crashes (part f k) d ->
  (exists a d1, f d = Ret (a, d1) /\ crashes (k a) d1) \/ (forall a d1, f d <> Ret (a, d1)).
Proof.
  intros H. inversion H; subst. destruct (f d) as [[a d1]| |] eqn:E; [left; eauto|right; congruence|right; congruence].
Qed.
Lemma crashes_part_ (f : device T -> res (device T)) k d : crashes (part_ f k) d ->
  (exists d1, f d = Ret d1 /\ crashes k d1) \/ (forall d1, f d <> Ret d1).
Proof.
  intros H. apply crashes_part in H. destruct H as [(a & d1 & E & H)|H].
  - left. exists d1. split; [|exact H]. destruct (f d) as [d2| |]; cbn in E; try discriminate. injection E as _ ->. reflexivity.
  - right. intros d1 E. rewrite E in H. cbn in H. eapply H. reflexivity.
Qed.
Lemma crashes_end (v : dval T) d : ~ crashes (Unlock (Return v)) d.
Proof. intros H. inversion H; subst. match goal with X : crashes (Return _) _ |- _ => inversion X end. Qed.

Lemma crashes_next tick x d : d_tick d = 0%Z -> crashes (Next_prog tick x) d ->
  exists z, forall b d', Next_locked (dset_tick d z) tick x <> Ret (b, d').
Proof.
  intros H0 H. unfold Next_prog in H. inversion H as [| | | | | | | | | |k b m H1 E1 E2]; subst. clear H. destruct b.
  2:{ inversion H1; subst. match goal with X : crashes (Return _) _ |- _ => inversion X end. }
  unfold look in H1 at 1. inversion H1 as [|f k m H2 E1 E2| | | | | | | | |]; subst. clear H1.
  destruct (n_routes (d_nav d)) as [|r0 rs] eqn:Er; [now apply crashes_end in H2|].
  inversion H2 as [| |k z m Hz H3 E1 E2| | | | | | | |]; subst. clear H2.
  inversion H3 as [| | |z' k m H4 E1 E2| | | | | | |]; subst. clear H3.
  exists z. intros bb dd. unfold Next_locked. cbn [dset_tick d_nav d_tick]. rewrite Er. cbv zeta.
  apply crashes_part_ in H4. destruct H4 as [(d1 & [= <-] & H4)|H4]; [|exfalso; eapply H4; reflexivity].
  apply crashes_part_ in H4. destruct H4 as [(d2 & [= <-] & H4)|H4]; [|exfalso; eapply H4; reflexivity].
  apply crashes_part_ in H4. destruct H4 as [(d3 & [= <-] & H4)|H4]; [|exfalso; eapply H4; reflexivity].
  match type of H4 with crashes _ ?e => set (da := e) in * end.
  match goal with |- context [next_account ?e ?s] => assert (EA : next_account e s = da) end.
  { unfold da, next_account. clear - H0. destruct d; cbn in *. subst. reflexivity. }
  rewrite EA.
  apply crashes_part_ in H4. destruct H4 as [(d4 & E4 & H4)|H4].
  2:{ destruct (next_lowBattery da x); cbn; try discriminate. exfalso. eapply H4; reflexivity. }
  rewrite E4. cbn [bind].
  unfold look in H4. inversion H4 as [|f k m H5 E1 E2| | | | | | | | |]; subst. clear H4.
  apply crashes_part_ in H5. destruct H5 as [(d5 & E5 & H5)|H5].
  2:{ destruct (next_speed d4 _); cbn; try discriminate. exfalso. eapply H5; reflexivity. }
  rewrite E5. cbn [bind].
  apply crashes_part in H5. destruct H5 as [(ok & d6 & E6 & H5)|H5].
  2:{ destruct (NextLocation _ _ _ _) as [[ok n]| |]; cbn [bind]; try discriminate. exfalso. eapply H5. reflexivity. }
  destruct (NextLocation _ _ _ _) as [[ok' n]| |]; cbn [bind] in E6 |- *; try discriminate. injection E6 as -> <-.
  apply crashes_part in H5. destruct H5 as [(b2 & d7 & E7 & H5)|H5]; [now apply crashes_end in H5|apply H5].
Qed.

Lemma harmless_lawful (c : dev_call T) : harmless c -> lawful c.
Proof. destruct c as [| []|]; cbn; tauto. Qed.

Lemma harmless_runs (Z0 : zero_eq_zero N) c d : dev_ok d -> d_tick d = 0%Z -> harmless c -> ~ crashes (call_prog c) d.
Proof.
  intros H Ht Hc C. destruct c as [tick x|o|f]; cbn [call_prog] in C.
  - apply crashes_next in C; [|exact Ht]. destruct C as (z & C).
    assert (Hz : dev_ok (dset_tick d z)) by (constructor; apply H).
    destruct (Next_locked_ok Z0 _ tick x Hz) as (b & d' & E & _). eapply C; exact E.
  - unfold change in C. inversion C; subst.
    match goal with X : crashes (part _ _) _ |- _ => apply crashes_part in X; destruct X as [(a & d1 & _ & X)|X]; [now apply crashes_end in X|rename X into HX] end.
    destruct (run_dev_ok Z0 d o H) as (d' & E & _); [destruct o; cbn in Hc |- *; tauto|destruct o; cbn in Hc; tauto|].
    rewrite E in HX. cbn in HX. eapply HX. reflexivity.
  - unfold query, look in C. repeat match goal with X : crashes _ _ |- _ => inversion X; subst; clear X end.
Qed.

Lemma serial_ok (Z0 : zero_eq_zero N) turns d0 gs0 d gs1 : one_by_one turns d0 gs0 d gs1 -> forall calls rs, gs0 = gos calls rs ->
  Forall (Forall harmless) calls -> d_tick d0 = 0%Z -> dev_ok d0 ->
  d_tick d = 0%Z /\ dev_ok d /\ exists calls' rs', gs1 = gos calls' rs' /\ Forall (Forall harmless) calls'.
Proof.
  induction 1 as [m gs|i turns p l r gs m m1 v m2 gs2 Hn Ha Ho IH]; intros calls rs -> Hl Ht Hk.
  - eauto 10.
  - destruct (gos_nth _ _ _ _ Hn) as (lc & rc & H1 & H2 & E). destruct lc as [|c lc]; cbn in E; [discriminate E|].
    injection E as -> -> ->.
    assert (Hc : Forall harmless (c :: lc)).
    { rewrite Forall_forall in Hl. apply Hl. eapply nth_error_In; eauto. }
    inversion Hc; subst.
    assert (Hl' : Forall (Forall harmless) (set_nth i lc calls)) by (apply set_nth_Forall; auto).
    specialize (IH _ _ (gos_set _ _ _ _ _) Hl').
    assert (K : d_tick m1 = 0%Z /\ dev_ok m1).
    { destruct c as [tick x|o|f].
      - apply alone_next in Ha; [|exact Ht]. destruct Ha as [[-> ->]|(z & b & Hz & E & Ht1 & ->)]; [auto|].
        split; [exact Ht1|]. assert (Hz' : dev_ok (dset_tick m z)) by (constructor; apply Hk).
        destruct (Next_locked_ok Z0 _ tick x Hz') as (b' & d' & E' & Hd). rewrite E in E'. injection E' as <- <-. exact Hd.
      - apply alone_change in Ha. destruct Ha as [Ha ->].
        pose proof (other_time _ _ _ (under_lock_not_next _ (harmless_lawful _ H3)) Ha) as (_ & _ & Q & _). unfold owed in Q.
        split; [congruence|]. destruct (run_dev_ok Z0 m o Hk) as (d' & E & Hd); [destruct o; cbn in H3 |- *; tauto|destruct o; cbn in H3; tauto|].
        rewrite Ha in E. injection E as <-. exact Hd.
      - apply alone_query in Ha. destruct Ha as [-> _]. auto. }
    destruct K as [K1 K2]. auto.
Qed.

Lemma C69_no_panic_proof (Z0 : zero_eq_zero N) opts x0 d0 cnt calls turns (x : system (device T) (dval T)) :
  built opts x0 d0 -> uint32 cnt -> Forall (Forall harmless) calls ->
  steps turns (start d0 cnt (map (map call_prog) calls)) x -> sy_crashed x = false.
Proof.
  intros Hb Hu Hl Hs. destruct (sy_crashed x) eqn:C; [exfalso|reflexivity].
  assert (Hlw : Forall (Forall lawful) calls).
  { eapply Forall_impl; [|exact Hl]. intros l K. eapply Forall_impl; [|exact K]. apply harmless_lawful. }
  destruct (guarded_panic _ _ _ _ _ Hu (lawful_guarded _ Hlw) Hs C) as (m & gs & i & p & l & r & O & Hn & Hp).
  destruct (built_time _ _ _ Hb) as [_ Ht]. unfold owed in Ht.
  assert (G : map (fun l => mkGo l []) (map (map call_prog) calls) = gos calls (map (fun _ => []) calls)).
  { unfold gos. rewrite map_map. clear. induction calls as [|c calls IH]; cbn; auto. now rewrite IH. }
  destruct (serial_ok Z0 _ _ _ _ _ O _ _ G Hl Ht (built_ok _ _ _ Hb)) as (T1 & K1 & calls' & rs' & -> & Hh).
  destruct (gos_nth _ _ _ _ Hn) as (lc & rc & H1 & H2 & E). destruct lc as [|c lc]; cbn in E; [discriminate E|]. injection E as -> -> ->.
  eapply harmless_runs; [exact Z0|exact K1|exact T1| |exact Hp].
  rewrite Forall_forall in Hh. pose proof (Hh _ (nth_error_In _ _ H1)) as Q. now inversion Q.
Qed.
End P.
