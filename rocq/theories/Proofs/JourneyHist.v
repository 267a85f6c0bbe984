(** C81: what histories without jumps keep, in any arithmetic. *)
From Coq Require Import Lia.
From Verif.Model Require Import Base Num Geo Curve PropMap Types TypesSnap Track Route Navigator.
From Verif.Spec Require Import ListSpec TrackSpec RouteSpec NavSpec NumLaws RealSpec JourneySpec.
From Verif.Proofs Require Import BaseLemmas TrackLemmas RouteLemmas TrackRouteProofs NavLemmas NavSteps
  NavProofs NavProofs2 NavProofs3 DeviceProofs.
Open Scope num_scope.

Section S.
Context {T : Type} {N : Num T} {J : JsonLib T}.
Hypothesis Z0 : zero_eq_zero N.
Implicit Types n : navigator T.

Definition seg_view n : list (list (list (segment T))) :=
  map (fun r => map tk_segments (rt_tracks r)) (n_routes n).

Lemma cur_seg_view n : cur_seg n =
  match zget (seg_view n) (n_ri n) with
  | Some ts => match zget ts (n_ti n) with
               | Some ss => match zget ss (n_si n) with
                            | Some s => if segment_IsEmpty s then segment_zero else s
                            | None => segment_zero
                            end
               | None => segment_zero
               end
  | None => segment_zero
  end.
Proof.
  unfold cur_seg, cur_track, cur_route, seg_view. rewrite zget_map.
  destruct (zget (n_routes n) (n_ri n)) as [r|]; cbn; [|reflexivity].
  rewrite zget_map.
  destruct (TrackAt r (n_ti n)) as [t|] eqn:Et.
  - apply TrackAt_Some, zget_at_pos in Et. rewrite Et. cbn.
    destruct (zget (tk_segments t) (n_si n)) as [s|] eqn:Es.
    + now rewrite (SegmentAt_Some _ _ _ Es).
    + rewrite (SegmentAt_None _ _ Es). match goal with |- (if ?b then _ else _) = _ => destruct b end; reflexivity.
  - destruct (zget (rt_tracks r) (n_ti n)) as [t|] eqn:E; [|reflexivity].
    apply zget_at_pos, TrackAt_Some in E. congruence.
Qed.

Lemma cur_seg_same n n' : seg_view n' = seg_view n -> position n' = position n -> cur_seg n' = cur_seg n.
Proof. intros E [= E1 E2 E3]. rewrite !cur_seg_view, E, E1, E2, E3. reflexivity. Qed.

Lemma run_route_segments (r : route T) o :
  match o with RAddTrack _ | RRemoveTrack _ => False | _ => True end ->
  map tk_segments (rt_tracks (run_route r o)) = map tk_segments (rt_tracks r).
Proof.
  intros K. destruct o; cbn [run_route]; try contradiction.
  - unfold TrackByID. destruct (_ || _)%bool; [reflexivity|]. destruct (find _ _); reflexivity.
  - unfold route_ChangeName. destruct (ParseName name); reflexivity.
  - unfold route_ChangeColor. destruct hex; reflexivity.
  - unfold route_Props. destruct (rt_props r); reflexivity.
  - unfold upd_track. destruct (nth_error _ i) as [t|] eqn:E; [|reflexivity]. cbn.
    eapply map_set_nth_same; [exact E|]. unfold track_ChangeName. destruct (ParseName name); reflexivity.
  - unfold upd_track. destruct (nth_error _ i) as [t|] eqn:E; [|reflexivity]. cbn.
    eapply map_set_nth_same; [exact E|]. unfold track_ChangeColor. destruct parsed; reflexivity.
  - unfold upd_track. destruct (nth_error _ i) as [t|] eqn:E; [|reflexivity]. cbn.
    eapply map_set_nth_same; [exact E|]. unfold track_Props. destruct (tk_props t); reflexivity.
Qed.

(** lengths only depend on the segments *)
Lemma lengths_view P (r : route T) : lengths_ok P r <->
  Forall (fun ss => Forall (fun s => P (sg_dist s) = true) ss) (map tk_segments (rt_tracks r)).
Proof. unfold lengths_ok. now rewrite Forall_map. Qed.

Lemma fresh_In (rs : list (option (route T))) : forall ids r, In r (fresh_routes ids rs) -> In (Some r) rs.
Proof.
  induction rs as [|[x|] rs IH]; intros ids r H; cbn in *; [tauto| |right; eauto].
  destruct (in_dec _ _ _); [right; eauto|]. destruct H as [->|H]; [now left|right; eauto].
Qed.

Lemma lengths_step P n o n' : lengths_op P o ->
  Forall (lengths_ok P) (n_routes n) -> run_nav n o = Ret n' -> Forall (lengths_ok P) (n_routes n').
Proof.
  intros [Hk Ho] Hm H.
  assert (Q : travels o \/ ~ travels o) by (destruct o; cbn; auto).
  destruct Q as [Q|Q]; [rewrite (run_nav_stable n_routes stable_routes n _ n' Q H); exact Hm|].
  destruct o; cbn in Q; try tauto.
  - cbn in H. injection H as <-. destruct (C17_proof n rs) as [P1 P2].
    destruct rs as [|x rs]; [now rewrite (P1 eq_refl)|].
    destruct P2 as (n' & E & E1 & _); [discriminate|]. rewrite E. cbn. rewrite E1.
    apply Forall_app. split; [exact Hm|]. apply Forall_forall. intros r Hr. apply Ho.
    eapply fresh_In, Hr.
  - cbn in H. injection H as <-. unfold nav_ResetRoutes. destruct (n_routes n) eqn:E; cbn; [now rewrite E|constructor].
  - cbn in H. injection H as <-. destruct (C18_proof n id) as [(r & rest & _ & _ & _ & Hrm & n' & E & E1 & _)|(_ & E & _)].
    + rewrite E. cbn. rewrite E1. destruct Hrm as (pre & x & post & E2 & -> & _).
      rewrite E2 in Hm. apply Forall_app in Hm as [A B]. inversion B; subst. apply Forall_app. now split.
    + rewrite E. exact Hm.
  - cbn in H. injection H as <-. exact Hm.
  - cbn in H. injection H as <-. unfold nav_mutateRoute.
    destruct (nth_error (n_routes n) i) as [r|] eqn:E; [|exact Hm]. cbn.
    apply set_nth_Forall'; [exact Hm|]. apply lengths_view. rewrite run_route_segments.
    + apply lengths_view. exact (proj1 (Forall_forall _ _) Hm r (nth_error_In _ _ E)).
    + destruct o; try exact I; contradiction.
Qed.

Lemma lengths_history P opts uuid draws n0 ops n : navigator_New opts uuid draws = GOk n0 ->
  Forall (lengths_op P) ops -> run_navs n0 ops = Ret n -> Forall (lengths_ok P) (n_routes n).
Proof.
  intros H0 Hops. assert (Hm : Forall (lengths_ok P) (n_routes n0)).
  { apply New_start in H0 as (E1 & _). rewrite E1. constructor. }
  clear H0. revert n0 Hm. induction Hops as [|o ops Ho Hops IH]; intros n0 Hm H; cbn in H.
  - now injection H as <-.
  - destruct (run_nav n0 o) as [n1| |] eqn:E; try discriminate. cbn in H.
    eapply IH; [|exact H]. eapply lengths_step; eassumption.
Qed.

(** ** moves *)

Definition nonneg_pos n : Prop := (0 <= n_ri n /\ 0 <= n_ti n /\ 0 <= n_si n)%Z.

Lemma MoveToSegment_csd n r t i : nonneg_pos n ->
  snd (MoveToSegment n r t i) = n \/ n_csd (snd (MoveToSegment n r t i)) = f0 /\ nonneg_pos (snd (MoveToSegment n r t i)).
Proof.
  intros H. destruct (MoveToSegment_spec n r t i) as [(s & (rt & tk & A & B & C) & _ & ->)|(_ & ->)]; [|now left].
  right. apply zget_at_pos, zget_Some_range in A, B, C. unfold nonneg_pos. cbn. split; [reflexivity|lia].
Qed.

Lemma moves_csd n o : nonneg_pos n -> match o with
    NNextRoute | NPrevRoute | NMoveToRouteByID _ | NMoveToTrackByID _ _ | NMoveToRoute _
    | NMoveToTrack _ _ | NMoveToSegment _ _ _ => True | _ => False end ->
  exists n', run_nav n o = Ret n' /\ (n' = n \/ n_csd n' = f0 /\ nonneg_pos n').
Proof.
  intros Hn K. destruct o; try contradiction; cbn [run_nav]; (eexists; split; [reflexivity|]);
    try now apply MoveToSegment_csd.
  - unfold NextRoute. destruct (_ <? _)%Z; [now apply MoveToSegment_csd|now left].
  - unfold PrevRoute. destruct (_ <? _)%Z; [now apply MoveToSegment_csd|now left].
  - unfold MoveToRouteByID. destruct (_ =? _)%Z; [now left|now apply MoveToSegment_csd].
  - unfold MoveToTrackByID. destruct (_ =? _)%Z; [now left|]. destruct (zget _ _); [|now left].
    destruct (_ =? _)%Z; [now left|now apply MoveToSegment_csd].
Qed.

Lemma rewinding n o n' : match o with NAddRoute _ | NResetRoutes | NRemoveRoute _ | NReset => True | _ => False end ->
  run_nav n o = Ret n' -> n' = n \/ rewound n'.
Proof.
  intros K H. destruct o; try contradiction; cbn in H; injection H as <-.
  - destruct (C17_proof n rs) as [P1 P2]. destruct rs as [|x rs]; [now left|].
    destruct P2 as (n' & E & _ & E2 & E3); [discriminate|]. rewrite E. cbn [snd]. cbn zeta in *.
    destruct (fresh_routes (map rt_id (n_routes n)) (x :: rs)); [left; now apply E2|right].
    destruct E3 as (E3 & _); [discriminate|]. exact E3.
  - unfold nav_ResetRoutes. destruct (n_routes n); [now left|right]. repeat split.
  - destruct (C18_proof n id) as [(r & rest & _ & _ & _ & _ & n' & E & _ & E3 & _)|(_ & E & _)]; rewrite E;
      [right; exact E3|now left].
  - right. repeat split.
Qed.

Lemma rewound_nonneg n : rewound n -> n_csd n = f0 /\ nonneg_pos n.
Proof. intros ([= E1 E2 E3] & E & _). split; [exact E|]. unfold nonneg_pos. lia. Qed.

Lemma idle n o n' : keeps_tracks o ->
  match o with NRouteOp _ _ | NToOffline _ | NNextElevation _ | NShuffleElevation _ | NQuery | NIsFinish => True
                    | _ => False end -> run_nav n o = Ret n' ->
  position n' = position n /\ n_csd n' = n_csd n /\ seg_view n' = seg_view n.
Proof.
  intros Hk K H. destruct o; try contradiction; cbn [run_nav] in H.
  - injection H as <-. unfold nav_mutateRoute. destruct (nth_error _ i) as [r|] eqn:E; repeat split.
    unfold seg_view. cbn.
    eapply (map_set_nth_same (fun r => map tk_segments (rt_tracks r))); [exact E|].
    apply run_route_segments. destruct o; try exact I; contradiction.
  - unfold ToOffline in H. destruct (n_skip n); [injection H as <-; repeat split|].
    destruct (n_rnd n); [|discriminate]. injection H as <-. repeat split.
  - unfold NextElevation in H. destruct (n_elev n); [cbn [deref bind] in H|discriminate].
    destruct (sensor_Next _ _); [|discriminate..]. injection H as <-. repeat split.
  - unfold ShuffleElevation in H. destruct (n_elev n); [|discriminate]. injection H as <-. repeat split.
  - injection H as <-. unfold IsFinish. destruct (_ && _)%bool; repeat split.
  - repeat (match type of H with bind ?m _ = _ => destruct m; cbn [bind] in H; try discriminate end).
    injection H as <-. repeat split.
Qed.

(** ** segment progress *)
Section Q.
Variables (seg_ok : T -> bool) (fwd : T -> Prop) (Q : T -> T -> Prop).
Hypothesis Q0 : forall x, seg_ok x = true \/ x = f0 -> Q f0 x.
Hypothesis Q1 : forall c y d x, Q c y -> fwd d -> seg_ok x = true -> (c + d <=? x) = true -> Q (c + d) x.

Definition fwd_op (o : nav_op T) : Prop := match o with NNextLocation tick speed _ => fwd (tick * speed) | _ => True end.

Definition inv81 n : Prop :=
  nav_wf n /\ Forall (lengths_ok seg_ok) (n_routes n) /\ nonneg_pos n /\
  (segment_IsEmpty (cur_seg n) = true -> n_csd n = f0) /\ Q (n_csd n) (sg_dist (cur_seg n)).

Lemma cur_seg_ok n : Forall (lengths_ok seg_ok) (n_routes n) ->
  seg_ok (sg_dist (cur_seg n)) = true /\ segment_IsEmpty (cur_seg n) = false \/ cur_seg n = segment_zero.
Proof.
  intros H. rewrite cur_seg_view. unfold seg_view. rewrite zget_map.
  destruct (zget (n_routes n) (n_ri n)) as [r|] eqn:E; cbn; [|now right].
  pose proof (proj1 (Forall_forall _ _) H r (zget_In _ _ _ E)) as Hr.
  rewrite zget_map. destruct (zget (rt_tracks r) (n_ti n)) as [t|] eqn:Et; cbn; [|now right].
  pose proof (proj1 (Forall_forall _ _) Hr t (zget_In _ _ _ Et)) as Ht.
  destruct (zget (tk_segments t) (n_si n)) as [s|] eqn:Es; cbn; [|now right].
  destruct (segment_IsEmpty s) eqn:F; [now right|left].
  split; [|exact F]. exact (proj1 (Forall_forall _ _) Ht s (zget_In _ _ _ Es)).
Qed.

Lemma zero_inv n : nav_wf n -> Forall (lengths_ok seg_ok) (n_routes n) -> nonneg_pos n -> n_csd n = f0 -> inv81 n.
Proof.
  intros A B C D. split; [exact A|]. split; [exact B|]. split; [exact C|]. rewrite D. split; [auto|].
  apply Q0. destruct (cur_seg_ok n B) as [[H _]| ->]; auto.
Qed.

Lemma step_nonneg n tick speed draw b n' : NextLocation n tick speed draw = Ret (b, n') -> nonneg_pos n -> nonneg_pos n'.
Proof.
  intros F H. destruct (C26_proof Z0 _ _ _ _ _ _ F) as (_ & P). destruct H as (A & B & C).
  assert (Q' : position n' = position n \/ moves_forward n (position n') \/ leaves_track n (position n')) by tauto.
  unfold nonneg_pos. clear P F. unfold position in Q'. destruct Q' as [[= -> -> ->]|[(i & s & [= -> -> ->] & L & _)|Q']].
  - auto.
  - lia.
  - inversion Q'; subst; lia.
Qed.

Lemma inv_step n o n' : lengths_op seg_ok o -> no_jump_op o -> fwd_op o -> inv81 n -> run_nav n o = Ret n' -> inv81 n'.
Proof.
  intros Ho Hj Hf I H. pose proof I as (Hw & Hl & Hn & He & Hq).
  assert (Hl' : Forall (lengths_ok seg_ok) (n_routes n')) by (eapply lengths_step; eassumption).
  assert (Hw' : nav_wf n').
  { destruct (run_nav_wf Z0 n o Hw) as (n1 & E & W); [destruct o; try exact Logic.I; contradiction|].
    rewrite H in E. injection E as <-. exact W. }
  assert (R : n' = n \/ rewound n' -> inv81 n').
  { intros [->|R]; [exact I|]. apply rewound_nonneg in R as [R1 R2]. now apply zero_inv. }
  assert (M : (exists n1, run_nav n o = Ret n1 /\ (n1 = n \/ n_csd n1 = f0 /\ nonneg_pos n1)) -> inv81 n').
  { intros (n1 & E & [->|[E1 E2]]); rewrite H in E; injection E as ->; [exact I|now apply zero_inv]. }
  assert (V : position n' = position n /\ n_csd n' = n_csd n /\ seg_view n' = seg_view n -> inv81 n').
  { intros (E1 & E2 & E3). split; [exact Hw'|]. split; [exact Hl'|].
    split; [injection E1 as F1 F2 F3; unfold nonneg_pos in *; lia|].
    rewrite (cur_seg_same n n' E3 E1), E2. auto. }
  pose proof (proj1 Ho) as Hk.
  destruct o; try contradiction;
    try (apply R; eapply rewinding; [|exact H]; exact Logic.I);
    try (apply V; eapply idle; [| |exact H]; [exact Hk|exact Logic.I]);
    try (apply M; apply moves_csd; [exact Hn|exact Logic.I]).
  cbn [run_nav] in H. destruct (NextLocation n tick speed draw) as [[b m]| |] eqn:F; cbn in H; try discriminate.
  injection H as <-. pose proof (step_nonneg _ _ _ _ _ _ F Hn) as Hn'.
  destruct (NextLocation_inv Z0 _ _ _ _ _ _ F) as [(E & _ & ->)|[(E & O & _ & ->)|(E & O & Hi & St)]];
    [exact I|apply V; repeat split|].
  cbn in Hf. destruct St as [k Hk' Hfit|k Hk' Hfit Hlast|k Hk' Hfit Hlast Hemp Hrel].
  - unfold fits in Hfit. destruct (segment_IsEmpty (cur_seg (passed n k))) eqn:Hemp; [discriminate|].
    split; [exact Hw'|]. split; [exact Hl'|]. split; [exact Hn'|].
    change (cur_seg (advance (passed n k) (tick * speed))) with (cur_seg (passed n k)).
    change (n_csd (advance (passed n k) (tick * speed))) with (n_csd (passed n k) + tick * speed).
    split; [congruence|].
    assert (Hpl : Forall (lengths_ok seg_ok) (n_routes (passed n k))) by (rewrite (proj1 (passed_same n k)); exact Hl).
    destruct (cur_seg_ok _ Hpl) as [[Hs _]|Hs]; [|rewrite Hs, (zero_seg_empty Z0) in Hemp; discriminate].
    rewrite passed_csd in *. destruct k; [eapply Q1; eassumption|].
    eapply (Q1 f0 f0); try eassumption. apply Q0. now right.
  - apply zero_inv; auto. destruct (off_pure_rest (leave n) draw) as (E1 & E2 & E3 & E4 & E5 & _).
    rewrite E5. unfold leave. cbn. destruct (_ <? _)%Z; [reflexivity|]. destruct (_ <? _)%Z; reflexivity.
  - apply zero_inv; auto. destruct (off_pure_rest (passed n (S k)) draw) as (E1 & E2 & E3 & E4 & E5 & _).
    now rewrite E5, passed_csd.
Qed.

Lemma inv_history opts uuid draws n0 ops n : navigator_New opts uuid draws = GOk n0 ->
  Forall (lengths_op seg_ok) ops -> Forall no_jump_op ops -> Forall fwd_op ops -> run_navs n0 ops = Ret n -> inv81 n.
Proof.
  intros H0 Ho Hj Hf.
  assert (I0 : inv81 n0).
  { pose proof (New_start _ _ _ _ H0) as (E & R & _). apply rewound_nonneg in R as [R1 R2].
    apply zero_inv; auto; [eapply New_wf; exact H0|rewrite E; constructor]. }
  clear H0. revert n0 I0. induction Ho as [|o ops Ho Hos IH]; intros n0 I0 H; cbn in H.
  - now injection H as <-.
  - destruct (run_nav n0 o) as [n1| |] eqn:E; try discriminate. cbn in H.
    inversion Hj; subst. inversion Hf; subst.
    apply (IH ltac:(assumption) ltac:(assumption) n1); [|exact H]. eapply inv_step; eassumption.
Qed.
End Q.

Lemma SegmentDistance_len n : nav_wf n ->
  exists x, SegmentDistance n = Ret x /\ (x = sg_dist (cur_seg n) \/ segment_IsEmpty (cur_seg n) = true /\ x = f0).
Proof.
  intros [Hi _ _]. unfold SegmentDistance. rewrite CurrentSegment_pure by exact Hi. cbn [bind].
  destruct (segment_IsEmpty (cur_seg n)) eqn:E; eexists; split; try reflexivity; auto.
Qed.

Lemma C81_segment_proof : zero_le_zero N -> forall opts uuid draws n0 ops n,
  navigator_New opts uuid draws = GOk n0 ->
  Forall (lengths_op (fun x => f0 <=? x)) ops -> Forall no_jump_op ops ->
  run_navs n0 ops = Ret n ->
  exists x, SegmentDistance n = Ret x /\ (n_csd n <=? x) = true.
Proof.
  intros ZL opts uuid draws n0 ops n H0 Ho Hj H.
  assert (I : inv81 (fun x => f0 <=? x) (fun c x => (c <=? x) = true) n).
  { eapply (inv_history (fun x => f0 <=? x) (fun _ => True)); try eassumption.
    - intros x [E| ->]; [exact E|exact ZL].
    - auto.
    - apply Forall_forall. intros o _. destruct o; exact I. }
  destruct I as (Hw & _ & _ & He & Hq). destruct (SegmentDistance_len n Hw) as (x & E & [->|[Em ->]]).
  - eauto.
  - exists f0. split; [exact E|]. rewrite (He Em). exact ZL.
Qed.

(** ** offline periods *)

Lemma Uint32n_range draw m : uint32 draw -> (0 <= m <= 3600)%Z -> (0 <= Uint32n draw m <= m)%Z.
Proof.
  unfold uint32, Uint32n. intros Hd Hm.
  assert (A : (0 <= draw * m / 2 ^ 32 <= m)%Z).
  { split; [apply Z.div_pos; nia|]. apply Z.div_le_upper_bound; [lia|]. nia. }
  rewrite Z.mod_small; [exact A|]. lia.
Qed.

Lemma New_random opts uuid draws (n : navigator T) : navigator_New opts uuid draws = GOk n ->
  n_off n = 0%Z /\ forall r, n_rnd n = Some r -> (0 <= r_min r <= r_max r /\ r_max r <= 3600)%Z.
Proof.
  unfold navigator_New. intros H.
  set (o := fold_left apply_option opts defaultNavOptions) in *.
  destruct (validateOffline (o_minOff o) (o_maxOff o)) as [[mino maxo]|] eqn:E1; [|discriminate].
  destruct (validateElevation _ _) as [[mine maxe]|]; [|discriminate].
  destruct (NewSensor _ _ _ _ _ _ _); [|discriminate].
  injection H as <-. cbn. split; [reflexivity|]. intros r Hr. destruct (o_skip o); [discriminate|].
  injection Hr as <-. unfold validateOffline in E1.
  destruct (Z.ltb_spec (o_minOff o) 0); [discriminate|].
  destruct (Z.ltb_spec 3600 (o_maxOff o)); [discriminate|].
  assert (G : (mino <= maxo /\ maxo <= 3600)%Z).
  { destruct (Z.ltb_spec (o_maxOff o) (o_minOff o)) as [G1|G1].
    - destruct (Z.ltb_spec (o_maxOff o) (o_maxOff o - 1)); [lia|].
      destruct (_ && _)%bool; injection E1 as <- <-; lia.
    - destruct (Z.ltb_spec (o_maxOff o) (o_minOff o)); [lia|].
      destruct (_ && _)%bool; injection E1 as <- <-; lia. }
  unfold NewRandom. destruct (Z.ltb_spec mino 0) as [A|A], (Z.ltb_spec maxo 0) as [B|B];
    match goal with |- context [((?x =? 0) && (?y =? 0))%Z] => destruct (Z.eqb_spec x 0), (Z.eqb_spec y 0) end;
    cbn; lia.
Qed.

Lemma step_off n d draw b n' : step n d draw b n' ->
  n_skip n' = n_skip n /\ n_rnd n' = n_rnd n /\
  (n_off n' = n_off n \/ exists r, n_rnd n = Some r /\ n_off n' = random_Value r draw).
Proof.
  assert (O : forall m : navigator T, n_skip (off_pure m draw) = n_skip m /\ n_rnd (off_pure m draw) = n_rnd m /\
    (n_off (off_pure m draw) = n_off m \/ exists r, n_rnd m = Some r /\ n_off (off_pure m draw) = random_Value r draw)).
  { intros m. unfold off_pure. destruct (n_skip m) eqn:E; [now auto|].
    destruct (n_rnd m) as [r|] eqn:F; cbn; [|auto]. repeat split; eauto. }
  intros [k Hk Hf|k Hk Hf Hl|k Hk Hf Hl Hemp Hrel].
  - destruct (passed_same n k) as (_ & _ & _ & _ & _ & _ & _ & E1 & _ & _ & E2 & _ & E3 & _).
    change (n_skip (passed n k) = n_skip n /\ n_rnd (passed n k) = n_rnd n /\
      (n_off (passed n k) = n_off n \/ exists r, n_rnd n = Some r /\ n_off (passed n k) = random_Value r draw)). auto.
  - destruct (O (leave n)) as (-> & -> & O3). destruct (leave_rest n) as (E1 & E2 & _ & E4 & _).
    rewrite E2, E4 in O3. auto.
  - destruct (passed_same n (S k)) as (_ & _ & _ & _ & _ & _ & _ & E1 & _ & _ & E2 & _ & E3 & _).
    destruct (O (passed n (S k))) as (-> & -> & O3). rewrite E2, E1 in O3. auto.
Qed.

Lemma offline_step M n o n' : uint32_op o -> (0 <= M)%Z -> offline_at_most M n -> run_nav n o = Ret n' ->
  offline_at_most M n'.
Proof.
  intros Hu HM [H1 H2] H.
  assert (Hm : forall r t i, n_off (snd (MoveToSegment n r t i)) = n_off n \/ n_off (snd (MoveToSegment n r t i)) = 0%Z).
  { intros r t i. destruct (MoveToSegment_spec n r t i) as [(s & _ & _ & ->)|(_ & ->)]; [now right|now left]. }
  assert (Ernd : n_rnd n' = n_rnd n).
  { assert (Q : travels o \/ ~ travels o) by (destruct o; cbn; tauto). destruct Q as [Q|Q].
    - exact (run_nav_stable n_rnd stable_rnd n o n' Q H).
    - destruct o; cbn [travels] in Q; try tauto; cbn in H; injection H as <-.
      + unfold nav_AddRoute. destruct rs; [reflexivity|]. destruct (add_routes _ _ _) as [? []]; reflexivity.
      + unfold nav_ResetRoutes. destruct (n_routes n); reflexivity.
      + unfold nav_RemoveRoute. repeat (match goal with |- context [match ?b with _ => _ end] => destruct b end; try reflexivity).
      + unfold nav_RemoveTrack. repeat (match goal with |- context [match ?b with _ => _ end] => destruct b end; try reflexivity).
      + reflexivity.
      + unfold nav_mutateRoute. destruct (nth_error _ i); reflexivity. }
  assert (Eoff : n_off n' = n_off n \/ n_off n' = 0%Z \/ n_off n' = (n_off n - 1)%Z \/
                 exists r draw, uint32 draw /\ n_rnd n = Some r /\ n_off n' = random_Value r draw).
  { destruct o; cbn [run_nav] in H; try (injection H as <-).
    - left. unfold nav_AddRoute. destruct rs; [reflexivity|]. destruct (add_routes _ _ _) as [? []]; reflexivity.
    - left. unfold nav_ResetRoutes. destruct (n_routes n); reflexivity.
    - left. unfold nav_RemoveRoute. repeat (match goal with |- context [match ?b with _ => _ end] => destruct b end; try reflexivity).
    - left. unfold nav_RemoveTrack. repeat (match goal with |- context [match ?b with _ => _ end] => destruct b end; try reflexivity).
    - left. reflexivity.
    - left. unfold nav_mutateRoute. destruct (nth_error _ i); reflexivity.
    - unfold NextRoute. destruct (_ <? _)%Z; [|now left]. destruct (Hm (n_ri n + 1) 0 0)%Z; tauto.
    - unfold PrevRoute. destruct (_ <? _)%Z; [|now left]. match goal with |- context [MoveToRoute n ?x] => destruct (Hm x 0 0)%Z; tauto end.
    - unfold MoveToRouteByID. destruct (_ =? _)%Z; [now left|]. match goal with |- context [MoveToRoute n ?x] => destruct (Hm x 0 0)%Z; tauto end.
    - unfold MoveToTrackByID. destruct (_ =? _)%Z; [now left|]. destruct (zget _ _); [|now left].
      destruct (_ =? _)%Z; [now left|]. match goal with |- context [MoveToTrack n ?x ?y] => destruct (Hm x y 0)%Z; tauto end.
    - destruct (Hm r 0 0)%Z; tauto.
    - destruct (Hm r t 0)%Z; tauto.
    - destruct (Hm r t s)%Z; tauto.
    - left. destruct (DestinationTo_cases n meters) as [->|(r & ri & rd & ti & si & p & a & b & c & e & E & ->)]; reflexivity.
    - unfold ToOffline in H. destruct (n_skip n); [injection H as <-; now left|].
      destruct (n_rnd n) as [r|] eqn:F; [|discriminate]. injection H as <-. right. right. right. exists r, draw. auto.
    - left. unfold NextElevation in H. destruct (n_elev n); [cbn [deref bind] in H|discriminate].
      destruct (sensor_Next _ _); [|discriminate..]. injection H as <-. reflexivity.
    - left. unfold ShuffleElevation in H. destruct (n_elev n); [|discriminate]. injection H as <-. reflexivity.
    - destruct (NextLocation n tick speed draw) as [[b m]| |] eqn:F; cbn in H; try discriminate. injection H as <-.
      destruct (NextLocation_inv Z0 _ _ _ _ _ _ F) as [(_ & _ & ->)|[(_ & _ & _ & ->)|(_ & _ & _ & St)]];
        [now left|right; right; now left|].
      destruct (step_off _ _ _ _ _ St) as (_ & _ & [G|(r & Er & G)]); [now left|].
      right. right. right. exists r, draw. auto.
    - left. unfold IsFinish. destruct (_ && _)%bool; reflexivity.
    - left. repeat (match type of H with bind ?m _ = _ => destruct m; cbn [bind] in H; try discriminate end).
      injection H as <-. reflexivity. }
  split; [|rewrite Ernd; exact H2].
  destruct Eoff as [->|[->|[->|(r & draw & Hd & Er & ->)]]]; try lia. now apply (H2 r draw).
Qed.

Lemma C27_offline_proof opts uuid draws n0 ops n :
  navigator_New opts uuid draws = GOk n0 -> Forall uint32_op ops -> run_navs n0 ops = Ret n ->
  offline_at_most 3600 n.
Proof.
  intros H0 Hu H.
  assert (I0 : offline_at_most 3600 n0).
  { destruct (New_random _ _ _ _ H0) as [E1 E2]. split; [lia|]. intros r draw Hr Hd. specialize (E2 r Hr).
    unfold random_Value. rewrite Z.mod_small by lia.
    pose proof (Uint32n_range draw (r_max r - r_min r) Hd ltac:(lia)). lia. }
  clear H0. revert n0 I0 H. induction Hu as [|o ops Ho Hos IH]; intros n0 I0 H; cbn in H.
  - now injection H as <-.
  - destruct (run_nav n0 o) as [n1| |] eqn:E; try discriminate. cbn in H.
    apply (IH n1); [|exact H]. eapply offline_step; try eassumption. lia.
Qed.

End S.
