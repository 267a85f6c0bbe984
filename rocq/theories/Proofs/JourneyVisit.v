(** C28 and C32 in any arithmetic with the few laws below; they hold of binary64 (VisitF64.v). *)
From Coq Require Import Lia.
From Verif.Model Require Import Base Num Geo Curve PropMap Types TypesSnap Track Route Navigator.
From Verif.Spec Require Import ListSpec TrackSpec RouteSpec NavSpec NumLaws RealSpec JourneySpec.
From Verif.Proofs Require Import BaseLemmas TrackLemmas RouteLemmas TrackRouteProofs NavLemmas NavSteps
  NavProofs NavProofs2 NavProofs3 JourneyHist JourneyAny.
Open Scope num_scope.

Section S.
Context {T : Type} {N : Num T} {J : JsonLib T}.
Variable Z0 : zero_eq_zero N.
Implicit Types n : navigator T.

Lemma Ret_inj {A} (x y : A) : Ret x = Ret y -> x = y. Proof. now intros [= ->]. Qed.

(** ** C32 *)
Section C32.
Let mark : T := fdec 1 10.
Variable mark_zero : (f0 =? mark) = false.
Variable mark_mark : (mark =? mark) = true.
Variable mark_lt : forall x, (mark <? x) = true -> (x =? mark) = false.
Variable mark_add : forall c d, c = f0 \/ c = mark \/ (mark <? c) = true -> (mark <? d) = true -> (mark <? c + d) = true.

Definition beyond (c : T) : Prop := c = f0 \/ c = mark \/ (mark <? c) = true.

Definition inv32 (p : Prop) n : Prop :=
  nonneg_pos n /\ nav_wf n /\
  ((p /\ position n = (0, 0, 0)%Z /\ n_cd n = mark) \/
   (~ p /\ beyond (n_cd n) /\ (n_cd n = mark -> position n <> (0, 0, 0)%Z))).

Lemma IsFinish_true n : beyond (n_cd n) -> (fst (IsFinish n) = true <-> position n = (0, 0, 0)%Z /\ n_cd n = mark).
Proof.
  intros B. unfold IsFinish, position. fold mark.
  assert (E : (n_cd n =? mark) = true <-> n_cd n = mark).
  { split; [|intros ->; exact mark_mark]. destruct B as [B|[B|B]]; [rewrite B, mark_zero; discriminate|auto|].
    rewrite (mark_lt _ B). discriminate. }
  destruct (n_cd n =? mark); cbn [andb];
    destruct ((n_ri n =? 0) && (n_ti n =? 0) && (n_si n =? 0))%Z eqn:F; cbn [andb fst].
  - rewrite !Bool.andb_true_iff, !Z.eqb_eq in F. destruct F as [[-> ->] ->]. tauto.
  - split; [discriminate|]. intros [[= F1 F2 F3] _]. rewrite F1, F2, F3 in F. discriminate.
  - split; [discriminate|]. intros [_ F2]. tauto.
  - split; [discriminate|]. intros [_ F2]. tauto.
Qed.

Lemma inv32_beyond p n : inv32 p n -> beyond (n_cd n).
Proof. intros (_ & _ & [(_ & _ & H)|(_ & H & _)]); [right; left; exact H|exact H]. Qed.

Lemma inv32_finish p n : inv32 p n -> (fst (IsFinish n) = true <-> p).
Proof.
  intros I. rewrite (IsFinish_true _ (inv32_beyond _ _ I)). destruct I as (_ & _ & [(H1 & H2 & H3)|(H1 & H2 & H3)]).
  - tauto.
  - split; [intros [E1 E2]; exfalso; now apply H3|contradiction].
Qed.

Lemma inv32_step p n o n' : longer_than_mark o -> inv32 p n -> run_nav n o = Ret n' -> inv32 (pending_after n p o n') n'.
Proof.
  intros Ho I E. pose proof (inv32_beyond _ _ I) as B. pose proof (inv32_finish _ _ I) as Hfin. destruct I as (Hp & Hw & H).
  assert (Hw' : nav_wf n').
  { destruct (run_nav_wf Z0 n o Hw) as (n1 & E1 & W); [destruct o; exact I || contradiction|].
    rewrite E in E1. apply Ret_inj in E1 as <-. exact W. }
  assert (Hsame : position n' = position n /\ n_cd n' = n_cd n -> inv32 p n').
  { intros [S1 S2]. split; [|split; [exact Hw'|]].
    - unfold nonneg_pos, position in *. injection S1 as -> -> ->. exact Hp.
    - unfold beyond. rewrite S1, S2. exact H. }
  destruct o; try contradiction; cbn [pending_after].
  - apply Hsame. destruct (idle n (NToOffline draw) n' I I E) as (S1 & _). split; [exact S1|].
    cbn [run_nav] in E. unfold ToOffline in E. destruct (n_skip n); [now apply Ret_inj in E as <-|].
    destruct (n_rnd n); [|discriminate]. now apply Ret_inj in E as <-.
  - apply Hsame. destruct (idle n (NNextElevation tick) n' I I E) as (S1 & _). split; [exact S1|].
    cbn [run_nav] in E. unfold NextElevation in E. destruct (n_elev n); [cbn [deref bind] in E|discriminate].
    destruct (sensor_Next _ _); [|discriminate..]. now apply Ret_inj in E as <-.
  - apply Hsame. destruct (idle n (NShuffleElevation draws) n' I I E) as (S1 & _). split; [exact S1|].
    cbn [run_nav] in E. unfold ShuffleElevation in E. destruct (n_elev n); [|discriminate]. now apply Ret_inj in E as <-.
  - cbn [run_nav] in E. destruct (NextLocation n tick speed draw) as [[b m]| |] eqn:F; cbn [bind] in E; try discriminate.
    apply Ret_inj in E as <-. cbn [snd].
    pose proof (step_nonneg Z0 _ _ _ _ _ _ F Hp) as Hp'.
    split; [exact Hp'|]. split; [exact Hw'|].
    destruct (NextLocation_inv Z0 _ _ _ _ _ _ F) as [(X & -> & ->)|[(X & Off & -> & ->)|(X & Off & Hi & St)]].
    + destruct H as [(H1 & H2)|(H1 & H2)]; [left; auto|right]. split; [|exact H2].
      intros [[_ ?]|(b & G & (G1 & _))]; [contradiction|]. now apply G1.
    + apply offline_tick_now in Off.
      destruct H as [(H1 & H2)|(H1 & H2)]; [left; auto|right]. split; [|exact H2].
      intros [[_ ?]|(b & G & (G1 & G2 & _))]; [contradiction|]. now apply G2.
    + assert (Hon : ~ offline_now n) by (rewrite <- offline_tick_now; congruence).
      assert (Hnp : position m <> (0, 0, 0)%Z \/ b = true ->
        ~ (((n_routes n = [] \/ offline_now n) /\ p) \/ (exists b0, Ret (b, m) = Ret (b0, m) /\ completes n b0 m))).
      { intros Q [[[?|?] _]|(b0 & Eb & (_ & _ & C1 & C2))]; try contradiction.
        apply Ret_inj in Eb. apply (f_equal fst) in Eb. cbn [fst] in Eb. subst b0.
        destruct Q as [Q|Q]; [contradiction|congruence]. }
      cbn [longer_than_mark] in Ho.
      destruct St as [k Hk Hf|k Hk Hf Hl|k Hk Hf Hl Hemp Hrel].
      * right. split; [apply Hnp; now right|].
        assert (Ecd : n_cd (advance (passed n k) (tick * speed)) = n_cd n + tick * speed).
        { destruct (passed_same n k) as (_ & _ & _ & _ & _ & _ & E7 & _).
          change (n_cd (passed n k) + tick * speed = n_cd n + tick * speed). now rewrite E7. }
        rewrite Ecd. pose proof (mark_add _ _ B Ho) as M. split; [right; right; exact M|].
        intros E. pose proof (mark_lt _ M) as M'. rewrite E, mark_mark in M'. discriminate.
      * assert (Q : (exists cd', leave n = set_cur (set_idx n 0 0 0) f0 f0 f0 cd' /\ cd' = mark) \/
                    (position (leave n) <> (0, 0, 0)%Z /\ n_cd (leave n) = n_cd n)).
        { destruct Hp as (P1 & P2 & P3). unfold leave, position. cbn.
          destruct (n_ti n <? _)%Z; [right; cbn; split; [|reflexivity]; intros [= Q1 Q2]; lia|].
          destruct (n_ri n <? _)%Z; [right; cbn; split; [|reflexivity]; intros [= Q1]; lia|].
          left. eexists. split; [reflexivity|]. reflexivity. }
        destruct (off_pure_rest (leave n) draw) as (E1 & E2 & E3 & E4 & E5 & E6 & E7 & E8 & _).
        assert (Epos : position (off_pure (leave n) draw) = position (leave n)) by (unfold position; congruence).
        destruct Q as [(cd' & El & Ecd)|[Q1 Q2]].
        -- assert (G1 : position (leave n) = (0, 0, 0)%Z) by (rewrite El; reflexivity).
           assert (G2 : n_cd (leave n) = mark) by (rewrite El; exact Ecd).
           left. rewrite Epos, E8, G1, G2. split; [|split; reflexivity].
           right. exists false. split; [reflexivity|].
           repeat split; auto. now rewrite Epos.
        -- right. rewrite Epos, E8, Q2. split; [apply Hnp; left; congruence|].
           split; [exact B|]. intros _. exact Q1.
      * destruct (passed_same n (S k)) as (F1 & F2 & F3 & F4 & F5 & F6 & F7 & _).
        destruct (off_pure_rest (passed n (S k)) draw) as (E1 & E2 & E3 & E4 & E5 & E6 & E7 & E8 & _).
        assert (Q1 : position (off_pure (passed n (S k)) draw) <> (0, 0, 0)%Z).
        { unfold position. rewrite E2, E3, E4, F4. destruct Hp as (P1 & P2 & P3). intros [= Q1 Q2 Q3]. lia. }
        right. split; [apply Hnp; now left|]. rewrite E8, F7. split; [exact B|]. intros _. exact Q1.
  - cbn [run_nav] in E. apply Ret_inj in E as <-. split; [|split; [exact Hw'|]].
    + destruct (idle n NIsFinish (snd (IsFinish n)) I I eq_refl) as (S1 & _).
      unfold nonneg_pos, position in *. injection S1 as -> -> ->. exact Hp.
    + right. split; [tauto|]. unfold IsFinish in *.
      destruct (_ && _)%bool; cbn [fst snd] in *.
      * split; [left; reflexivity|]. cbn [n_cd set_cur]. intros E. pose proof mark_zero as M. rewrite E, mark_mark in M. discriminate.
      * destruct H as [(H1 & H2 & H3)|(H1 & H2)]; [|exact H2]. assert (false = true) by tauto. discriminate.
  - apply Hsame. destruct (idle n NQuery n' I I E) as (S1 & _). split; [exact S1|].
    cbn [run_nav] in E.
    repeat (match type of E with bind ?m _ = _ => destruct m; cbn [bind] in E; try discriminate end).
    now apply Ret_inj in E as <-.
Qed.

Lemma C32_proof n ops n' : nav_wf n -> rewound n -> Forall longer_than_mark ops ->
  run_navs n ops = Ret n' -> (fst (IsFinish n') = true <-> pending n False ops).
Proof.
  intros Hw Hr Ho H.
  assert (I0 : inv32 False n).
  { split; [now apply rewound_nonneg|]. split; [exact Hw|]. right. split; [tauto|]. split; [left; apply Hr|].
    intros E. destruct Hr as (_ & _ & _ & _ & Hr). rewrite Hr in E. pose proof mark_zero as M. rewrite E, mark_mark in M. discriminate. }
  clear Hw Hr. revert I0. generalize False. revert n H.
  induction Ho as [|o ops Ho Hos IH]; intros n H p I0; cbn [run_navs] in H; cbn [pending].
  - apply Ret_inj in H as <-. now apply inv32_finish.
  - destruct (run_nav n o) as [n1| |] eqn:E; try discriminate. cbn [bind] in H.
    apply (IH n1 H). eapply inv32_step; eassumption.
Qed.
End C32.

(** ** C28 *)
Section C28.
Variable small_pos : forall d x : T, (f0 <? d) = true -> (d <=? x) = true -> (x =? f0) = false.
Variable small_add : forall d x : T, (f0 <? d) = true -> (d <=? x) = true -> (f0 + d <=? x) = true.

Definition on_track n (r t : Z) (tk : track T) : Prop :=
  n_ri n = r /\ n_ti n = t /\ cur_track n = Some tk /\ n_routes n <> [] /\ nav_wf n.

Definition smaller (d : T) (tk : track T) : Prop := Forall (fun s => (d <=? sg_dist s) = true) (tk_segments tk).

Lemma on_track_seg n r t tk s d : on_track n r t tk -> zget (tk_segments tk) (n_si n) = Some s ->
  (f0 <? d) = true -> (d <=? sg_dist s) = true -> cur_seg n = s /\ segment_IsEmpty s = false.
Proof.
  intros (_ & _ & E & _) H H0 Hs.
  assert (Es : segment_IsEmpty s = false) by (exact (small_pos _ _ H0 Hs)).
  split; [|exact Es]. unfold cur_seg. rewrite E. cbn [seg_of]. rewrite (SegmentAt_Some _ _ _ H), Es. reflexivity.
Qed.

Lemma fits_true n d s : cur_seg n = s -> segment_IsEmpty s = false -> (n_csd n + d <=? sg_dist s) = true -> fits n d = true.
Proof. intros E1 E2 H. unfold fits. rewrite E1, E2. exact H. Qed.

Lemma smaller_at d tk i s : smaller d tk -> zget (tk_segments tk) i = Some s -> (d <=? sg_dist s) = true.
Proof.
  intros H E. exact (proj1 (Forall_forall (fun s => (d <=? sg_dist s) = true) _) H s (zget_In _ _ _ E)).
Qed.

(** the first step from the start of a segment fits *)
Lemma first_fits n r t tk d : on_track n r t tk -> smaller d tk -> (f0 <? d) = true ->
  (0 <= n_si n < zlen (tk_segments tk))%Z -> n_csd n = f0 -> fits n d = true.
Proof.
  intros Hon Hd H0 Hsi Hc. destruct (zget_range _ _ Hsi) as (s & Es). pose proof (smaller_at _ _ _ _ Hd Es) as Hs.
  destruct (on_track_seg n r t tk s d Hon Es H0 Hs) as [Ec Ee].
  apply (fits_true _ _ _ Ec Ee). rewrite Hc. now apply small_add.
Qed.

Lemma step_small n d draw b n' r t tk : on_track n r t tk -> linked tk -> smaller d tk -> (f0 <? d) = true ->
  (0 <= n_si n < zlen (tk_segments tk))%Z ->
  step n d draw b n' ->
  (b = true /\ fits n d = true /\ n' = advance n d) \/
  (b = true /\ fits n d = false /\ (n_si n < zlen (tk_segments tk) - 1)%Z /\ n' = advance (passed n 1) d) \/
  (b = false /\ fits n d = false /\ n_si n = (zlen (tk_segments tk) - 1)%Z).
Proof.
  intros Hon Hl Hd H0 Hsi St.
  destruct (zget_range _ _ Hsi) as (s & Es). pose proof (smaller_at _ _ _ _ Hd Es) as Hs.
  destruct (on_track_seg n r t tk s d Hon Es H0 Hs) as [Ec Ee].
  pose proof Hon as (_ & _ & Et & _).
  assert (Hlast : is_last n = true -> n_si n = (zlen (tk_segments tk) - 1)%Z).
  { unfold is_last. rewrite Et. unfold NumSegments. rewrite Z.eqb_eq. auto. }
  assert (Hlast' : is_last n = false -> (n_si n < zlen (tk_segments tk) - 1)%Z).
  { unfold is_last. rewrite Et. unfold NumSegments. rewrite Z.eqb_neq. lia. }
  assert (Hrel : is_last n = false -> segment_hasRelation s = true).
  { intros L. eapply (Hl (n_si n)); [now apply zget_at_pos|auto]. }
  assert (H1 : is_last n = false -> fits (passed n 1) d = true).
  { intros L. apply Hlast' in L. apply (first_fits _ r t tk); try assumption.
    - destruct Hon as (A & B & C & D & W). split; [exact A|]. split; [exact B|]. split; [now rewrite passed_cur_track|].
      split; [exact D|]. destruct W. split; assumption.
    - change (0 <= n_si n + 1 < zlen (tk_segments tk))%Z. lia.
    - reflexivity. }
  destruct St as [k Hk Hf|k Hk Hf Hlv|k Hk Hf Hlv Hemp Hrl].
  - destruct k as [|[|k]].
    + left. auto.
    + right. left. destruct (Hk 0%nat) as (L0 & L & _); [lia|]. split; [reflexivity|]. split; [exact L0|]. split; [now apply Hlast'|reflexivity].
    + exfalso. destruct (Hk 0%nat) as (_ & L & _); [lia|]. destruct (Hk 1%nat) as (L1 & _); [lia|].
      cbn [passed] in L. rewrite (H1 L) in L1. discriminate.
  - right. right. destruct k as [|k].
    + cbn [passed] in *. split; [reflexivity|]. split; [exact Hf|].
      destruct Hlv as [X|[X|X]]; [congruence|now apply Hlast|]. rewrite Ec, Ee in X. discriminate.
    + exfalso. destruct (Hk 0%nat) as (_ & L & _); [lia|]. cbn [passed] in L. specialize (H1 L).
      destruct k as [|k]; [congruence|]. destruct (Hk 1%nat) as (L1 & _); [lia|]. congruence.
  - exfalso. destruct k as [|k].
    + cbn [passed] in *. rewrite Ec in Hrl. rewrite (Hrel Hlv) in Hrl. discriminate.
    + destruct (Hk 0%nat) as (_ & L & _); [lia|]. cbn [passed] in L. specialize (H1 L).
      destruct k as [|k]; [congruence|]. destruct (Hk 1%nat) as (L1 & _); [lia|]. congruence.
Qed.

Lemma locations_app l : forall n a bs n2, locations n (l ++ [a]) = Ret (bs, n2) ->
  exists bs1 n1 b, locations n l = Ret (bs1, n1) /\
    NextLocation n1 (fst (fst a)) (snd (fst a)) (snd a) = Ret (b, n2).
Proof.
  induction l as [|[[x y] z] l IH]; intros n [[tick speed] draw] bs n2 H; cbn [app locations] in H; cbn [fst snd].
  - destruct (NextLocation n tick speed draw) as [[b n1]| |] eqn:E; try discriminate. cbn in H.
    apply Ret_inj in H. apply (f_equal snd) in H. cbn [snd] in H. subst n1. exists [], n, b. auto.
  - destruct (NextLocation n x y z) as [[b n1]| |] eqn:E; try discriminate. cbn [bind] in H.
    destruct (locations n1 (l ++ [(tick, speed, draw)])) as [[bs' n3]| |] eqn:F; try discriminate. cbn in H.
    apply Ret_inj in H. apply (f_equal snd) in H. cbn [snd] in H. subst n3. destruct (IH _ _ _ _ F) as (bs1 & n4 & b4 & G1 & G2).
    exists (b :: bs1), n4, b4. cbn. rewrite E. cbn. rewrite G1. cbn. auto.
Qed.

Lemma visited_app n l l' r t i : visited n l r t i -> visited n (l ++ l') r t i.
Proof.
  intros (pre & a & b & c & post & bs & n1 & n2 & -> & H).
  exists pre, a, b, c, (post ++ l'), bs, n1, n2. split; [|exact H]. now rewrite <- app_assoc.
Qed.

Lemma small_history n tk : nav_wf n -> at_track_start n tk -> linked tk -> tk_segments tk <> [] ->
  forall args, Forall (small_step tk) args ->
  forall bs n1, locations n args = Ret (bs, n1) ->
  (forall i, (0 <= i < zlen (tk_segments tk))%Z -> visited n args (n_ri n) (n_ti n) i) \/
  (on_track n1 (n_ri n) (n_ti n) tk /\ (0 <= n_si n1 < zlen (tk_segments tk))%Z /\
   ((n_csd n1 = f0 /\ n_si n1 = 0%Z) \/
    forall i, (0 <= i <= n_si n1)%Z -> visited n args (n_ri n) (n_ti n) i)).
Proof.
  intros Hw (Hs & Hc & rt & Hrt & Htk) Hl Hne. induction args as [|a args IH] using rev_ind; intros Ha bs n1 H.
  - cbn in H. apply Ret_inj in H. apply (f_equal snd) in H. cbn [snd] in H. subst n1. right. split.
    + split; [reflexivity|]. split; [reflexivity|]. split.
      * unfold cur_track, cur_route. apply zget_at_pos in Hrt. rewrite Hrt. now apply TrackAt_Some.
      * split; [|exact Hw]. intros E. rewrite E in Hrt. destruct Hrt as [_ Hrt]. now destruct (Z.to_nat (n_ri n)).
    + split; [|left; auto]. rewrite Hs. destruct (tk_segments tk); [contradiction|].
      rewrite zlen_cons. pose proof (zlen_nonneg l). lia.
  - apply Forall_app in Ha as [Ha Ha1]. apply Forall_inv in Ha1 as [Hd Hsm].
    destruct (locations_app _ _ _ _ _ H) as (bs1 & n0 & b & H1 & H2).
    destruct (IH Ha _ _ H1) as [V|(Hon & Hsi & V)].
    { left. intros i Hi. apply visited_app. auto. }
    destruct a as [[tick speed] draw]. cbn [fst snd] in H2, Hd, Hsm. fold (smaller (tick * speed) tk) in Hsm.
    pose proof Hon as (O1 & O2 & O3 & O4 & O5).
    destruct (NextLocation_inv Z0 _ _ _ _ _ _ H2) as [(X & _)|[(_ & _ & _ & ->)|(_ & _ & _ & St)]].
    + contradiction.
    + right. split.
      * split; [exact O1|]. split; [exact O2|]. split; [exact O3|]. split; [exact O4|]. destruct O5. split; assumption.
      * split; [exact Hsi|]. destruct V as [V|V]; [left; exact V|right].
        intros i Hi. apply visited_app. now apply V.
    + assert (Hvis : b = true -> n_ri n1 = n_ri n -> n_ti n1 = n_ti n ->
        visited n (args ++ [(tick, speed, draw)]) (n_ri n) (n_ti n) (n_si n1)).
      { intros -> Q1 Q2. exists args, tick, speed, draw, [], bs1, n0, n1. repeat split; auto.
        unfold position. now rewrite Q1, Q2. }
      assert (Hw1 : nav_wf n1).
      { destruct (NextLocation_wf Z0 n0 tick speed draw O5) as (b' & n' & E & W).
        rewrite H2 in E. apply Ret_inj in E. apply (f_equal snd) in E. cbn [snd] in E. subst n'. exact W. }
      assert (First : n_csd n0 = f0 -> fits n0 (tick * speed) = true) by (intros; eapply first_fits; eassumption).
      destruct (step_small _ _ _ _ _ _ _ _ Hon Hl Hsm Hd Hsi St) as [(Hb & Hf & ->)|[(Hb & Hf & Hlt & ->)|(Hb & Hf & Hlast)]].
      * right. split; [repeat split; try assumption; apply Hw1|].
        split; [exact Hsi|]. right. change (n_si (advance n0 (tick * speed)%num)) with (n_si n0) in *.
        intros i Hi. destruct V as [[V1 V2]|V].
        -- assert (i = n_si n0) as -> by lia. apply Hvis; auto.
        -- apply visited_app. apply V. exact Hi.
      * right. split; [repeat split; try assumption; apply Hw1|].
        change (n_si (advance (passed n0 1) (tick * speed)%num)) with (n_si n0 + 1)%Z in *.
        split; [lia|]. right. intros i Hi.
        destruct (Z.eq_dec i (n_si n0 + 1)) as [->|Hneq]; [apply Hvis; auto|].
        apply visited_app. destruct V as [[V1 V2]|V]; [|apply V; lia].
        rewrite (First V1) in Hf. discriminate.
      * left. intros i Hi. apply visited_app. destruct V as [[V1 V2]|V]; [|apply V; lia].
        rewrite (First V1) in Hf. discriminate.
Qed.

Lemma C28_proof n tk args a bs n1 n2 : nav_wf n -> at_track_start n tk -> linked tk -> tk_segments tk <> [] ->
  Forall (small_step tk) (args ++ [a]) ->
  locations n args = Ret (bs, n1) -> ~ offline_now n1 ->
  NextLocation n1 (fst (fst a)) (snd (fst a)) (snd a) = Ret (false, n2) ->
  forall i, (0 <= i < zlen (tk_segments tk))%Z -> visited n args (n_ri n) (n_ti n) i.
Proof.
  intros Hw Hst Hl Hne Ha H1 Hon H2 i Hi.
  apply Forall_app in Ha as [Ha Ha1]. apply Forall_inv in Ha1 as [Hd Hsm]. cbn zeta in Hd, Hsm.
  destruct (small_history n tk Hw Hst Hl Hne args Ha bs n1 H1) as [V|(Ht & Hsi & V)]; [auto|].
  pose proof Ht as (O1 & O2 & O3 & O4 & O5).
  destruct (NextLocation_inv Z0 _ _ _ _ _ _ H2) as [(X & _)|[(_ & X & _)|(_ & _ & _ & St)]].
  - contradiction.
  - apply offline_tick_now in X. contradiction.
  - destruct (step_small _ _ _ _ _ _ _ _ Ht Hl Hsm Hd Hsi St) as [(Hb & _)|[(Hb & _)|(_ & Hf & Hlast)]]; try discriminate.
    destruct V as [[V1 V2]|V]; [|apply V; lia].
    rewrite (first_fits _ _ _ _ _ Ht Hsm Hd Hsi V1) in Hf. discriminate.
Qed.
End C28.
End S.
