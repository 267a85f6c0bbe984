(** C28, C32 and the refutations of C19-C21, C28 and C32 beyond their premises. *)
From Coq Require Import Reals Lra Lia.
From Flocq Require Import Core.Raux.
From Verif.Model Require Import Base Num NumR Geo Curve PropMap Types TypesSnap Track Route Navigator.
From Verif.Spec Require Import ListSpec TrackSpec RouteSpec NavSpec NumLaws SphereSpec RealSpec RealExamples.
From Verif.Proofs Require Import BaseLemmas TrackLemmas RouteLemmas TrackRouteProofs NavLemmas NavSteps
  NavProofs NavProofs2 NavProofs3 GeoLemmas GeoProofs NavReal NavReal2 NavReal3 NavReal4.
Open Scope R_scope.

Section S.
Context {J : JsonLib R}.

(** ** C32 *)

Definition inv32 (p : Prop) (n : navigator R) : Prop :=
  nonneg_pos n /\ nav_wf n /\
  ((p /\ position n = (0, 0, 0)%Z /\ n_cd n = 1 / 10) \/
   (~ p /\ (n_cd n = 0 \/ (1 / 10 <= n_cd n /\ (n_cd n = 1 / 10 -> position n <> (0, 0, 0)%Z))))).

Lemma IsFinish_true n : fst (IsFinish n) = true <-> position n = (0, 0, 0)%Z /\ n_cd n = 1 / 10.
Proof.
  unfold IsFinish, position. pose proof tenth as T.
  assert (Ef : forall x : R, (x =? fdec 1 10)%num = Req_bool x (1 / 10)) by (intros; now rewrite <- T).
  rewrite Ef. clear Ef T.
  destruct (Req_bool_spec (n_cd n) (1 / 10)) as [E|E]; cbn [andb];
    destruct ((n_ri n =? 0) && (n_ti n =? 0) && (n_si n =? 0))%Z eqn:F; cbn [andb fst].
  - rewrite !Bool.andb_true_iff, !Z.eqb_eq in F. destruct F as [[-> ->] ->]. tauto.
  - split; [discriminate|]. intros [[= F1 F2 F3] _]. rewrite F1, F2, F3 in F. discriminate.
  - split; [discriminate|]. intros [_ F2]. contradiction.
  - split; [discriminate|]. intros [_ F2]. contradiction.
Qed.

Lemma inv32_finish p n : inv32 p n -> (fst (IsFinish n) = true <-> p).
Proof.
  intros (_ & _ & H). rewrite IsFinish_true. destruct H as [(H1 & H2 & H3)|(H1 & [H2|[H2 H3]])].
  - tauto.
  - split; [intros [_ E]; lra|contradiction].
  - split; [intros [E1 E2]; exfalso; now apply H3|contradiction].
Qed.

Lemma inv32_step p n o n' : long_steps o -> inv32 p n -> run_nav n o = Ret n' ->
  inv32 (pending_after n p o n') n'.
Proof.
  intros Ho (Hp & Hw & H) E.
  assert (Hp' : nonneg_pos n') by (eapply nonneg_step; [|exact Hp|exact E]; destruct o; exact I || contradiction).
  assert (Hw' : nav_wf n').
  { destruct (run_nav_wf zero_eq_zero_R n o Hw) as (n1 & E1 & W); [destruct o; exact I || contradiction|].
    rewrite E in E1. injection E1 as <-. exact W. }
  split; [exact Hp'|]. split; [exact Hw'|].
  assert (Hsame : same_progress n n' ->
    (p /\ position n' = (0, 0, 0)%Z /\ n_cd n' = 1 / 10) \/
   (~ p /\ (n_cd n' = 0 \/ (1 / 10 <= n_cd n' /\ (n_cd n' = 1 / 10 -> position n' <> (0, 0, 0)%Z))))).
  { intros (-> & _ & _ & _ & ->). exact H. }
  destruct o; try contradiction; cbn [pending_after];
    try (apply Hsame; eapply idle; [|exact E]; exact I).
  - cbn [run_nav] in E. destruct (NextLocation n tick speed draw) as [[b m]| |] eqn:F; cbn in E; try discriminate.
    injection E as <-.
    destruct (NextLocation_inv zero_eq_zero_R _ _ _ _ _ _ F) as [(X & -> & ->)|[(X & Off & -> & ->)|(X & Off & Hi & St)]].
    + destruct H as [(H1 & H2)|(H1 & H2)]; [left; auto|right]. split; [|exact H2].
      intros [[_ ?]|(b & G & (G1 & _))]; [contradiction|]. now apply G1.
    + apply offline_tick_now in Off.
      destruct H as [(H1 & H2)|(H1 & H2)]; [left; auto|right]. split; [|exact H2].
      intros [[_ ?]|(b & G & (G1 & G2 & _))]; [contradiction|]. now apply G2.
    + assert (Hon : ~ offline_now n) by (rewrite <- offline_tick_now; congruence).
      change (step n (tick * speed) draw b m) in St.
      assert (Hnp : position m <> (0, 0, 0)%Z \/ b = true ->
        ~ (((n_routes n = [] \/ offline_now n) /\ p) \/ (exists b0, Ret (b, m) = Ret (b0, m) /\ completes n b0 m))).
      { intros Q [[[?|?] _]|(b0 & [= <-] & (_ & _ & C1 & C2))]; try contradiction.
        destruct Q as [Q|Q]; [contradiction|congruence]. }
      cbn in Ho.
      destruct St as [k Hk Hf|k Hk Hf Hl|k Hk Hf Hl Hemp Hrel].
      * right. split; [apply Hnp; now right|]. right.
        assert (Ecd : n_cd (advance (passed n k) (tick * speed)) = n_cd n + tick * speed).
        { destruct (passed_same n k) as (_ & _ & _ & _ & _ & _ & E7 & _).
          change (n_cd (passed n k) + tick * speed = n_cd n + tick * speed). now rewrite E7. }
        rewrite Ecd. destruct H as [(_ & _ & H)|(_ & [H|[H _]])]; split; try lra; intros; exfalso; lra.
      * assert (Hcd : n_cd n = 0 \/ 1 / 10 <= n_cd n).
        { destruct H as [(_ & _ & H)|(_ & [H|[H _]])]; [right; lra|now left|now right]. }
        assert (Q : (exists cd', leave n = set_cur (set_idx n 0 0 0) f0 f0 f0 cd' /\ cd' = 1 / 10) \/
                    (position (leave n) <> (0, 0, 0)%Z /\ n_cd (leave n) = n_cd n)).
        { destruct Hp as (P1 & P2 & P3). unfold leave, position. cbn.
          destruct (n_ti n <? _)%Z; [right; cbn; split; [|reflexivity]; intros [= Q1 Q2]; lia|].
          destruct (n_ri n <? _)%Z; [right; cbn; split; [|reflexivity]; intros [= Q1]; lia|].
          left. eexists. split; [reflexivity|]. lra. }
        destruct (off_pure_rest (leave n) draw) as (E1 & E2 & E3 & E4 & E5 & E6 & E7 & E8 & _).
        assert (Epos : position (off_pure (leave n) draw) = position (leave n)) by (unfold position; congruence).
        destruct Q as [(cd' & El & Ecd)|[Q1 Q2]].
        -- assert (G1 : position (leave n) = (0, 0, 0)%Z) by (rewrite El; reflexivity).
           assert (G2 : n_cd (leave n) = 1 / 10) by (rewrite El; exact Ecd).
           left. rewrite Epos, E8, G1, G2. split; [|split; reflexivity].
           right. exists false. split; [reflexivity|].
           repeat split; auto. now rewrite Epos.
        -- right. rewrite Epos, E8, Q2. split; [apply Hnp; left; congruence|].
           destruct Hcd; [now left|right]. split; [assumption|]. intros _. exact Q1.
      * assert (Hcd : n_cd n = 0 \/ 1 / 10 <= n_cd n).
        { destruct H as [(_ & _ & H)|(_ & [H|[H _]])]; [right; lra|now left|now right]. }
        destruct (passed_same n (S k)) as (F1 & F2 & F3 & F4 & F5 & F6 & F7 & _).
        destruct (off_pure_rest (passed n (S k)) draw) as (E1 & E2 & E3 & E4 & E5 & E6 & E7 & E8 & _).
        assert (Q1 : position (off_pure (passed n (S k)) draw) <> (0, 0, 0)%Z).
        { unfold position. rewrite E2, E3, E4, F4. destruct Hp as (P1 & P2 & P3). intros [= Q1 Q2 Q3]. lia. }
        right. split; [apply Hnp; now left|]. rewrite E8, F7.
        destruct Hcd; [now left|right]. split; [assumption|]. intros _. exact Q1.
  - right. split; [tauto|]. cbn in E. injection E as <-.
    pose proof (IsFinish_true n) as Hfin. unfold IsFinish in *.
    destruct (_ && _)%bool; cbn [fst snd] in *; [left; reflexivity|].
    destruct H as [(H1 & H2 & H3)|(H1 & H2)]; [|exact H2].
    assert (false = true) by tauto. discriminate.
Qed.

Lemma C32_proof n ops n' : nav_wf n -> rewound n -> Forall long_steps ops ->
  run_navs n ops = Ret n' -> (fst (IsFinish n') = true <-> pending n False ops).
Proof.
  intros Hw Hr Ho H.
  assert (I0 : inv32 False n).
  { split; [now apply rewound_nonneg|]. split; [exact Hw|]. right. split; [tauto|]. left. apply Hr. }
  clear Hw Hr. revert I0. generalize False. revert n H.
  induction Ho as [|o ops Ho Hos IH]; intros n H p I0; cbn in H; cbn [pending].
  - injection H as <-. now apply inv32_finish.
  - destruct (run_nav n o) as [n1| |] eqn:E; try discriminate. cbn in H.
    apply (IH n1 H). eapply inv32_step; eassumption.
Qed.

(** ** C28 *)

Definition on_track (n : navigator R) (r t : Z) (tk : track R) : Prop :=
  n_ri n = r /\ n_ti n = t /\ cur_track n = Some tk /\ n_routes n <> [] /\ nav_wf n.

Lemma on_track_seg n r t tk s : on_track n r t tk -> zget (tk_segments tk) (n_si n) = Some s -> 0 < sg_dist s ->
  cur_seg n = s /\ segment_IsEmpty s = false.
Proof.
  intros (_ & _ & E & _) H Hs.
  assert (Es : segment_IsEmpty s = false).
  { unfold segment_IsEmpty. change (Req_bool (sg_dist s) 0 = false). apply Req_bool_false. lra. }
  split; [|exact Es]. unfold cur_seg. rewrite E. cbn [seg_of]. rewrite (SegmentAt_Some _ _ _ H), Es. reflexivity.
Qed.

Lemma fits_true n d s : cur_seg n = s -> segment_IsEmpty s = false -> n_csd n + d <= sg_dist s -> fits n d = true.
Proof. intros E1 E2 H. unfold fits. rewrite E1, E2. now apply Rle_bool_true. Qed.

Lemma step_small n d draw b n' r t tk : on_track n r t tk -> linked tk ->
  Forall (fun s => d <= sg_dist s) (tk_segments tk) -> 0 < d ->
  (0 <= n_si n < zlen (tk_segments tk))%Z ->
  step n d draw b n' ->
  (b = true /\ fits n d = true /\ n' = advance n d) \/
  (b = true /\ fits n d = false /\ (n_si n < zlen (tk_segments tk) - 1)%Z /\ n' = advance (passed n 1) d) \/
  (b = false /\ fits n d = false /\ n_si n = (zlen (tk_segments tk) - 1)%Z).
Proof.
  intros Hon Hl Hd H0 Hsi St.
  destruct (zget_range _ _ Hsi) as (s & Es).
  assert (Hs : d <= sg_dist s) by (eapply (proj1 (Forall_forall (fun s => d <= sg_dist s) _)); [exact Hd|eapply zget_In; exact Es]).
  destruct (on_track_seg n r t tk s Hon Es ltac:(lra)) as [Ec Ee].
  pose proof Hon as (_ & _ & Et & _).
  assert (Hlast : is_last n = true -> n_si n = (zlen (tk_segments tk) - 1)%Z).
  { unfold is_last. rewrite Et. unfold NumSegments. rewrite Z.eqb_eq. auto. }
  assert (Hlast' : is_last n = false -> (n_si n < zlen (tk_segments tk) - 1)%Z).
  { unfold is_last. rewrite Et. unfold NumSegments. rewrite Z.eqb_neq. lia. }
  assert (Hrel : is_last n = false -> segment_hasRelation s = true).
  { intros L. eapply (Hl (n_si n)); [now apply zget_at_pos|auto]. }
  assert (H1 : is_last n = false -> fits (passed n 1) d = true).
  { intros L. apply Hlast' in L. destruct (zget_range (tk_segments tk) (n_si n + 1)) as (s1 & Es1); [lia|].
    assert (Hs1 : d <= sg_dist s1) by (eapply (proj1 (Forall_forall (fun s => d <= sg_dist s) _)); [exact Hd|eapply zget_In; exact Es1]).
    assert (Hon1 : on_track (passed n 1) r t tk).
    { destruct Hon as (A & B & C & D & W). split; [exact A|]. split; [exact B|]. split; [now rewrite passed_cur_track|].
      split; [exact D|]. destruct W. split; assumption. }
    destruct (on_track_seg (passed n 1) r t tk s1 Hon1 Es1 ltac:(lra)) as [Ec1 Ee1].
    apply (fits_true _ _ _ Ec1 Ee1). change (0 + d <= sg_dist s1). lra. }
  destruct St as [k Hk Hf|k Hk Hf Hlv|k Hk Hf Hlv Hemp Hrl].
  - destruct k as [|[|k]].
    + left. auto.
    + right. left. destruct (Hk 0%nat) as (L0 & L & _); [lia|]. split; [reflexivity|]. split; [exact L0|]. split; [now apply Hlast'|reflexivity].
    + exfalso. destruct (Hk 0%nat) as (_ & L & _); [lia|]. destruct (Hk 1%nat) as (L1 & _); [lia|].
      cbn [passed] in L. rewrite (H1 L) in L1. discriminate.
  - right. right. destruct k as [|k].
    + cbn [passed] in *. split; [reflexivity|]. split; [exact Hf|].
      destruct Hlv as [X|[X|X]]; [congruence|now apply Hlast|]. rewrite Ec, Ee in X. discriminate.
    + exfalso. destruct (Hk 0%nat) as (_ & L & _); [lia|]. cbn [passed] in L. specialize (H1 L).
      destruct k as [|k]; [congruence|]. destruct (Hk 1%nat) as (L1 & _); [lia|]. congruence.
  - exfalso. destruct k as [|k].
    + cbn [passed] in *. rewrite Ec in Hrl. rewrite (Hrel Hlv) in Hrl. discriminate.
    + destruct (Hk 0%nat) as (_ & L & _); [lia|]. cbn [passed] in L. specialize (H1 L).
      destruct k as [|k]; [congruence|]. destruct (Hk 1%nat) as (L1 & _); [lia|]. congruence.
Qed.

Lemma locations_app l : forall n a bs n2, locations n (l ++ [a]) = Ret (bs, n2) ->
  exists bs1 n1 b, locations n l = Ret (bs1, n1) /\
    NextLocation n1 (fst (fst a)) (snd (fst a)) (snd a) = Ret (b, n2).
Proof.
  induction l as [|[[x y] z] l IH]; intros n [[tick speed] draw] bs n2 H; cbn [app locations] in H; cbn [fst snd].
  - destruct (NextLocation n tick speed draw) as [[b n1]| |] eqn:E; try discriminate. cbn in H.
    injection H as <- <-. exists [], n, b. auto.
  - destruct (NextLocation n x y z) as [[b n1]| |] eqn:E; try discriminate. cbn [bind] in H.
    destruct (locations n1 (l ++ [(tick, speed, draw)])) as [[bs' n3]| |] eqn:F; try discriminate. cbn in H.
    injection H as <- <-. destruct (IH _ _ _ _ F) as (bs1 & n4 & b4 & G1 & G2).
    exists (b :: bs1), n4, b4. cbn. rewrite E. cbn. rewrite G1. cbn. auto.
Qed.

Lemma visited_app n l l' r t i : visited n l r t i -> visited n (l ++ l') r t i.
Proof.
  intros (pre & a & b & c & post & bs & n1 & n2 & -> & H).
  exists pre, a, b, c, (post ++ l'), bs, n1, n2. split; [|exact H]. now rewrite <- app_assoc.
Qed.

Lemma small_history n tk : nav_wf n -> at_track_start n tk -> linked tk -> tk_segments tk <> [] ->
  forall args, Forall (fun a => 0 < step_length a /\ Forall (fun s => step_length a <= sg_dist s) (tk_segments tk)) args ->
  forall bs n1, locations n args = Ret (bs, n1) ->
  (forall i, (0 <= i < zlen (tk_segments tk))%Z -> visited n args (n_ri n) (n_ti n) i) \/
  (on_track n1 (n_ri n) (n_ti n) tk /\ (0 <= n_si n1 < zlen (tk_segments tk))%Z /\
   ((n_csd n1 = 0 /\ n_si n1 = 0%Z) \/
    (0 < n_csd n1 /\ forall i, (0 <= i <= n_si n1)%Z -> visited n args (n_ri n) (n_ti n) i))).
Proof.
  intros Hw (Hs & Hc & rt & Hrt & Htk) Hl Hne. induction args as [|a args IH] using rev_ind; intros Ha bs n1 H.
  - cbn in H. injection H as <- <-. right. split.
    + split; [reflexivity|]. split; [reflexivity|]. split.
      * unfold cur_track, cur_route. apply zget_at_pos in Hrt. rewrite Hrt. now apply TrackAt_Some.
      * split; [|exact Hw]. intros E. rewrite E in Hrt. destruct Hrt as [_ Hrt]. now destruct (Z.to_nat (n_ri n)).
    + split; [|left; auto]. rewrite Hs. destruct (tk_segments tk); [contradiction|].
      rewrite zlen_cons. pose proof (zlen_nonneg l). lia.
  - apply Forall_app in Ha as [Ha Ha1]. apply Forall_inv in Ha1 as [Hd Hsm].
    destruct (locations_app _ _ _ _ _ H) as (bs1 & n0 & b & H1 & H2).
    destruct (IH Ha _ _ H1) as [V|(Hon & Hsi & V)].
    { left. intros i Hi. apply visited_app. auto. }
    destruct a as [[tick speed] draw]. cbn [fst snd] in H2. unfold step_length in Hd, Hsm. cbn [fst snd] in Hd, Hsm.
    pose proof Hon as (O1 & O2 & O3 & O4 & O5).
    destruct (NextLocation_inv zero_eq_zero_R _ _ _ _ _ _ H2) as [(X & _)|[(_ & _ & _ & ->)|(_ & _ & _ & St)]].
    + contradiction.
    + right. split.
      * split; [exact O1|]. split; [exact O2|]. split; [exact O3|]. split; [exact O4|]. destruct O5. split; assumption.
      * split; [exact Hsi|]. destruct V as [V|[V1 V2]]; [left; exact V|right]. split; [exact V1|].
        intros i Hi. apply visited_app. now apply V2.
    + assert (Hvis : b = true -> n_ri n1 = n_ri n -> n_ti n1 = n_ti n ->
        visited n (args ++ [(tick, speed, draw)]) (n_ri n) (n_ti n) (n_si n1)).
      { intros -> Q1 Q2. exists args, tick, speed, draw, [], bs1, n0, n1. repeat split; auto.
        unfold position. now rewrite Q1, Q2. }
      assert (Hw1 : nav_wf n1).
      { destruct (NextLocation_wf zero_eq_zero_R n0 tick speed draw O5) as (b' & n' & E & W).
        rewrite H2 in E. injection E as _ <-. exact W. }
      destruct (step_small _ _ _ _ _ _ _ _ Hon Hl Hsm Hd Hsi St) as [(Hb & Hf & ->)|[(Hb & Hf & Hlt & ->)|(Hb & Hf & Hlast)]].
      * right. split; [repeat split; try assumption; apply Hw1|].
        split; [exact Hsi|]. right. change (n_csd (advance n0 (tick * speed)%num)) with (n_csd n0 + tick * speed).
        change (n_si (advance n0 (tick * speed)%num)) with (n_si n0) in *.
        destruct V as [[V1 V2]|[V1 V2]].
        -- split; [change (0 < n_csd n0 + tick * speed); lra|]. intros i Hi. change (0 <= i <= n_si n0)%Z in Hi. assert (i = n_si n0) as -> by lia. apply Hvis; auto.
        -- split; [change (0 < n_csd n0 + tick * speed); lra|]. intros i Hi. apply visited_app. apply V2. exact Hi.
      * right. split; [repeat split; try assumption; apply Hw1|].
        change (n_si (advance (passed n0 1) (tick * speed)%num)) with (n_si n0 + 1)%Z in *.
        change (n_csd (advance (passed n0 1) (tick * speed)%num)) with (0 + tick * speed).
        split; [change (0 <= n_si n0 + 1 < zlen (tk_segments tk))%Z; lia|]. right. split; [change (0 < 0 + tick * speed); lra|]. intros i Hi. change (0 <= i <= n_si n0 + 1)%Z in Hi.
        destruct (Z.eq_dec i (n_si n0 + 1)) as [->|Hneq]; [apply Hvis; auto|].
        apply visited_app. destruct V as [[V1 V2]|[V1 V2]]; [|apply V2; lia].
        (* the first step from the start of a segment always fits *)
        exfalso. clear - V1 Hon Hsm Hd Hsi Hf.
        destruct (zget_range _ _ Hsi) as (s & Es).
        assert (Hs : tick * speed <= sg_dist s) by (eapply (proj1 (Forall_forall (fun s => tick * speed <= sg_dist s) _)); [exact Hsm|eapply zget_In; exact Es]).
        destruct (on_track_seg n0 _ _ tk s Hon Es ltac:(lra)) as [Ec Ee].
        assert (Hf' : fits n0 (tick * speed) = true) by (apply (fits_true _ _ _ Ec Ee); lra).
        change (fits n0 (tick * speed) = false) in Hf. congruence.
      * left. intros i Hi. apply visited_app. destruct V as [[V1 V2]|[V1 V2]]; [|apply V2; lia].
        exfalso. clear - V1 Hon Hsm Hd Hsi Hf.
        destruct (zget_range _ _ Hsi) as (s & Es).
        assert (Hs : tick * speed <= sg_dist s) by (eapply (proj1 (Forall_forall (fun s => tick * speed <= sg_dist s) _)); [exact Hsm|eapply zget_In; exact Es]).
        destruct (on_track_seg n0 _ _ tk s Hon Es ltac:(lra)) as [Ec Ee].
        assert (Hf' : fits n0 (tick * speed) = true) by (apply (fits_true _ _ _ Ec Ee); lra).
        change (fits n0 (tick * speed) = false) in Hf. congruence.
Qed.

Lemma C28_proof n tk args a bs n1 n2 : nav_wf n -> at_track_start n tk -> linked tk -> tk_segments tk <> [] ->
  Forall (fun a => 0 < step_length a /\ Forall (fun s => step_length a <= sg_dist s) (tk_segments tk)) (args ++ [a]) ->
  locations n args = Ret (bs, n1) -> ~ offline_now n1 ->
  NextLocation n1 (fst (fst a)) (snd (fst a)) (snd a) = Ret (false, n2) ->
  forall i, (0 <= i < zlen (tk_segments tk))%Z -> visited n args (n_ri n) (n_ti n) i.
Proof.
  intros Hw Hst Hl Hne Ha H1 Hon H2 i Hi.
  apply Forall_app in Ha as [Ha Ha1]. apply Forall_inv in Ha1 as [Hd Hsm].
  destruct (small_history n tk Hw Hst Hl Hne args Ha bs n1 H1) as [V|(Ht & Hsi & V)]; [auto|].
  pose proof Ht as (O1 & O2 & O3 & O4 & O5).
  destruct (NextLocation_inv zero_eq_zero_R _ _ _ _ _ _ H2) as [(X & _)|[(_ & X & _)|(_ & _ & _ & St)]].
  - contradiction.
  - apply offline_tick_now in X. contradiction.
  - change (step n1 (step_length a) (snd a) false n2) in St.
    destruct (step_small _ _ _ _ _ _ _ _ Ht Hl Hsm Hd Hsi St) as [(Hb & _)|[(Hb & _)|(_ & Hf & Hlast)]]; try discriminate.
    destruct V as [[V1 V2]|[V1 V2]]; [|apply V2; lia].
    exfalso. destruct (zget_range _ _ Hsi) as (s & Es).
    assert (Hs : step_length a <= sg_dist s) by (eapply (proj1 (Forall_forall (fun s => step_length a <= sg_dist s) _)); [exact Hsm|eapply zget_In; exact Es]).
    destruct (on_track_seg n1 _ _ tk s Ht Es ltac:(lra)) as [Ec Ee].
    rewrite (fits_true _ _ _ Ec Ee) in Hf by lra. discriminate.
Qed.
End S.
