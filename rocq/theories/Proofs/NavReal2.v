(** C24: segment progress. *)
From Coq Require Import Reals Lra Lia.
From Flocq Require Import Core.Raux.
From Verif.Model Require Import Base Num NumR Geo Curve PropMap Types TypesSnap Track Route Navigator.
From Verif.Spec Require Import ListSpec TrackSpec RouteSpec NavSpec NumLaws SphereSpec RealSpec.
From Verif.Proofs Require Import BaseLemmas TrackLemmas RouteLemmas TrackRouteProofs NavLemmas NavSteps
  NavProofs NavProofs2 GeoLemmas GeoProofs NavReal.
Open Scope R_scope.

Section S.
Context {J : JsonLib R}.

(** ** the current segment depends on the segments only *)

Definition seg_view (n : navigator R) : list (list (list (segment R))) :=
  map (fun r => map tk_segments (rt_tracks r)) (n_routes n).

Lemma cur_seg_view n : cur_seg n =
  match zget (seg_view n) (n_ri n) with
  | Some ts => match zget ts (n_ti n) with
               | Some ss => match zget ss (n_si n) with
                            | Some s => if segment_IsEmpty s then segment_zero else s
                            | None => segment_zero
                            end
               | None => segment_zero
               end
  | None => segment_zero
  end.
Proof.
  unfold cur_seg, cur_track, cur_route, seg_view. rewrite zget_map.
  destruct (zget (n_routes n) (n_ri n)) as [r|]; cbn; [|reflexivity].
  rewrite zget_map.
  destruct (TrackAt r (n_ti n)) as [t|] eqn:Et.
  - apply TrackAt_Some, zget_at_pos in Et. rewrite Et. cbn.
    destruct (zget (tk_segments t) (n_si n)) as [s|] eqn:Es.
    + now rewrite (SegmentAt_Some _ _ _ Es).
    + rewrite (SegmentAt_None _ _ Es). match goal with |- (if ?b then _ else _) = _ => destruct b end; reflexivity.
  - destruct (zget (rt_tracks r) (n_ti n)) as [t|] eqn:E; [|reflexivity].
    apply zget_at_pos, TrackAt_Some in E. congruence.
Qed.

Lemma cur_seg_same n n' : seg_view n' = seg_view n -> position n' = position n -> cur_seg n' = cur_seg n.
Proof. intros E [= E1 E2 E3]. rewrite !cur_seg_view, E, E1, E2, E3. reflexivity. Qed.

Lemma run_route_segments r o :
  match o with RAddTrack _ | RRemoveTrack _ => False | _ => True end ->
  map tk_segments (rt_tracks (run_route r o)) = map tk_segments (rt_tracks r).
Proof.
  intros K. destruct o; cbn [run_route]; try contradiction.
  - unfold TrackByID. destruct (_ || _)%bool; [reflexivity|]. destruct (find _ _); reflexivity.
  - unfold route_ChangeName. destruct (ParseName name); reflexivity.
  - unfold route_ChangeColor. destruct hex; reflexivity.
  - unfold route_Props. destruct (rt_props r); reflexivity.
  - unfold upd_track. destruct (nth_error _ i) as [t|] eqn:E; [|reflexivity]. cbn.
    eapply map_set_nth_same; [exact E|]. unfold track_ChangeName. destruct (ParseName name); reflexivity.
  - unfold upd_track. destruct (nth_error _ i) as [t|] eqn:E; [|reflexivity]. cbn.
    eapply map_set_nth_same; [exact E|]. unfold track_ChangeColor. destruct parsed; reflexivity.
  - unfold upd_track. destruct (nth_error _ i) as [t|] eqn:E; [|reflexivity]. cbn.
    eapply map_set_nth_same; [exact E|]. unfold track_Props. destruct (tk_props t); reflexivity.
Qed.

Lemma cur_seg_nonneg n : Forall measured_route (n_routes n) -> 0 <= sg_dist (cur_seg n).
Proof.
  intros H. rewrite cur_seg_view. unfold seg_view. rewrite zget_map.
  destruct (zget (n_routes n) (n_ri n)) as [r|] eqn:E; cbn; [|lra].
  assert (Hr : measured_route r) by (eapply Forall_forall; [exact H|eapply zget_In; exact E]).
  rewrite zget_map. destruct (zget (rt_tracks r) (n_ti n)) as [t|] eqn:Et; cbn; [|lra].
  assert (Ht : measured_track t) by (eapply Forall_forall; [apply Hr|eapply zget_In; exact Et]).
  destruct (zget (tk_segments t) (n_si n)) as [s|] eqn:Es; cbn; [|lra].
  assert (Hs : 0 <= sg_dist s).
  { eapply (proj1 (Forall_forall (fun s => 0 <= sg_dist s) (tk_segments t))); [apply Ht|eapply zget_In; exact Es]. }
  match goal with |- context[if ?b then _ else _] => destruct b end; cbn; lra.
Qed.

Lemma cur_seg_at_pos n rt tk s : at_pos (n_routes n) (n_ri n) rt -> at_pos (rt_tracks rt) (n_ti n) tk ->
  at_pos (tk_segments tk) (n_si n) s -> 0 < sg_dist s -> cur_seg n = s.
Proof.
  intros A B C D. apply zget_at_pos in A, B, C. rewrite cur_seg_view. unfold seg_view.
  rewrite zget_map, A. cbn. rewrite zget_map, B. cbn. rewrite C.
  unfold segment_IsEmpty. change (feq (sg_dist s) f0) with (Req_bool (sg_dist s) 0).
  rewrite Req_bool_false by lra. reflexivity.
Qed.

(** ** moves *)

Lemma MoveToSegment_csd n r t i : snd (MoveToSegment n r t i) = n \/ n_csd (snd (MoveToSegment n r t i)) = 0.
Proof.
  destruct (C30_proof n r t i) as [(s & n' & _ & _ & -> & _ & _ & _ & H & _)|(_ & ->)]; [right; exact H|now left].
Qed.

Lemma moves_csd n o : match o with
    NNextRoute | NPrevRoute | NMoveToRouteByID _ | NMoveToTrackByID _ _ | NMoveToRoute _
    | NMoveToTrack _ _ | NMoveToSegment _ _ _ => True | _ => False end ->
  exists n', run_nav n o = Ret n' /\ (n' = n \/ n_csd n' = 0).
Proof.
  intros K. destruct o; try contradiction; cbn [run_nav]; (eexists; split; [reflexivity|]);
    try apply MoveToSegment_csd.
  - unfold NextRoute. destruct (_ <? _)%Z; [apply MoveToSegment_csd|now left].
  - unfold PrevRoute. destruct (_ <? _)%Z; [apply MoveToSegment_csd|now left].
  - unfold MoveToRouteByID. destruct (_ =? _)%Z; [now left|apply MoveToSegment_csd].
  - unfold MoveToTrackByID. destruct (_ =? _)%Z; [now left|]. destruct (zget _ _); [|now left].
    destruct (_ =? _)%Z; [now left|apply MoveToSegment_csd].
Qed.

(** ** jumps *)

Lemma jump_tracks_at d l : Forall (fun t => 0 <= tk_dist t) l -> forall i cur ti crd x ti' crd' rd',
  jump_tracks d i l cur ti crd d = (x, ti', crd', rd') -> rd' = d.
Proof.
  induction 1 as [|t l Ht H IH]; intros i cur ti crd x ti' crd' rd' E; cbn [jump_tracks] in E.
  - now injection E as _ _ _ <-.
  - destruct (tk_dist t + d >? d)%num eqn:F; [now injection E as _ _ _ <-|].
    change (Rlt_bool d (tk_dist t + d) = false) in F.
    destruct (Rlt_bool_spec d (tk_dist t + d)); [discriminate|].
    assert (E0 : tk_dist t = 0) by lra. rewrite E0 in E. cbn [fadd RNum] in E. rewrite ?Rplus_0_r in E; rewrite ?Rplus_0_r in E.
    eapply IH, E.
Qed.

Lemma jump_segments_at d l : Forall (fun s => 0 <= sg_dist s) l ->
  forall i cur si crd ctd x si' rd' crd' ctd',
  jump_segments d i l cur si d crd ctd = (x, si', rd', crd', ctd') -> rd' = d.
Proof.
  induction 1 as [|t l Ht H IH]; intros i cur si crd ctd x si' rd' crd' ctd' E; cbn [jump_segments] in E.
  - now injection E as _ _ <- _ _.
  - destruct (segment_IsEmpty t); [eapply IH, E|].
    destruct (sg_dist t + d >? d)%num eqn:F; [now injection E as _ _ <- _ _|].
    change (Rlt_bool d (sg_dist t + d) = false) in F.
    destruct (Rlt_bool_spec d (sg_dist t + d)); [discriminate|].
    assert (E0 : sg_dist t = 0) by lra. rewrite E0 in E. cbn [fadd RNum] in E. rewrite ?Rplus_0_r in E; rewrite ?Rplus_0_r in E; rewrite ?Rplus_0_r in E.
    eapply IH, E.
Qed.

Lemma jump_tracks_In d l : forall i cur ti crd rd t ti' crd' rd',
  (forall x, cur = Some x -> In x l) \/ cur = None ->
  jump_tracks d i l cur ti crd rd = (Some t, ti', crd', rd') -> cur = Some t \/ In t l.
Proof.
  induction l as [|y l IH]; intros i cur ti crd rd t ti' crd' rd' Hc E; cbn [jump_tracks] in E.
  - injection E as -> _ _ _. now left.
  - destruct (_ >? _)%num; [injection E as <- _ _ _; right; now left|].
    right. revert E. generalize (ti + i)%Z (crd + tk_dist y)%num (rd + tk_dist y)%num. intros a b c E.
    assert (G : forall l i cur ti crd rd, jump_tracks d i l cur ti crd rd = (Some t, ti', crd', rd') ->
               cur = Some t \/ In t l).
    { clear. induction l as [|y l IH]; intros i cur ti crd rd E; cbn [jump_tracks] in E.
      - injection E as -> _ _ _. now left.
      - destruct (_ >? _)%num; [injection E as <- _ _ _; right; now left|].
        apply IH in E as [[= ->]|E]; right; [now left|now right]. }
    apply G in E as [[= ->]|E]; [now left|now right].
Qed.

Lemma DestinationTo_total_csd n : measured n -> n_routes n <> [] ->
  snd (DestinationTo n (n_dist n)) = n \/ n_csd (snd (DestinationTo n (n_dist n))) = 0.
Proof.
  intros [Hd Hm] Hne.
  destruct (exists_last Hne) as (pre & r & Er).
  assert (HR : jump_routes (n_dist n) 0 (n_routes n) None 0 0 =
     (Some r, (0 + acc_index 0 (List.length (n_routes n) - 1))%Z, 0 + rsum (map rt_dist (n_routes n)))).
  { apply jump_routes_end.
    - intros l1 l2 x E. rewrite Rplus_0_l, Hd.
      apply (Forall_prefix_rsum (map rt_dist (n_routes n))) with (l2 := map rt_dist l2).
      + apply Forall_map. eapply Forall_impl; [apply measured_route_nonneg|exact Hm].
      + rewrite E, map_app. reflexivity.
    - exact Hne.
    - rewrite Er. apply last_last. }
  assert (Hr : measured_route r).
  { rewrite Er in Hm. apply Forall_app in Hm as [_ Hm]. now inversion Hm. }
  enough (H : exists b n', DestinationTo n (n_dist n) = (b, n') /\ (n' = n \/ n_csd n' = 0))
    by (destruct H as (? & ? & -> & ?); assumption).
  unfold DestinationTo. assert (E2 : (n_dist n >? n_dist n)%num = false) by (apply Rlt_bool_false; lra).
  rewrite E2. destruct (n_dist n <? f1)%num; [do 2 eexists; split; [reflexivity|now left]|].
  change (f0 (T := R)) with 0 at 1. rewrite HR.
  replace (0 + rsum (map rt_dist (n_routes n))) with (n_dist n) by lra.
  destruct (jump_tracks (n_dist n) 0 (rt_tracks r) None 0 f0 (n_dist n)) as [[[x ti] crd] rd] eqn:Et.
  destruct x as [t|]; [|do 2 eexists; split; [reflexivity|now left]].
  assert (Hrd : rd = n_dist n).
  { eapply jump_tracks_at; [|exact Et]. eapply Forall_impl; [apply measured_track_nonneg|apply Hr]. }
  subst rd.
  assert (Ht : measured_track t).
  { apply jump_tracks_In in Et as [|Et]; [discriminate| |now right].
    eapply Forall_forall; [apply Hr|exact Et]. }
  destruct (jump_segments (n_dist n) 0 (tk_segments t) segment_zero 0 (n_dist n) crd f0)
    as [[[[s si] rd] crd'] ctd] eqn:Es.
  apply jump_segments_at in Es; [|apply Ht]. subst rd.
  destruct (segment_IsEmpty s); (do 2 eexists; split; [reflexivity|]); [now left|right]. cbn.
  replace (n_dist n - n_dist n) with 0 by ring. apply Rabs_R0.
Qed.

Lemma two_by_two_index n kr kt rt tk : two_by_two n ->
  nth_error (n_routes n) kr = Some rt -> nth_error (rt_tracks rt) kt = Some tk ->
  acc_index 0 kr = Z.of_nat kr /\ acc_index 0 kt = Z.of_nat kt.
Proof.
  intros [H1 H2] A B.
  assert (kr < 2)%nat by (pose proof (nth_error_Some (n_routes n) kr); rewrite A in *; assert (kr < List.length (n_routes n))%nat by (apply H; discriminate); lia).
  assert (Hrt : (List.length (rt_tracks rt) <= 2)%nat).
  { eapply (proj1 (Forall_forall (fun r => (List.length (rt_tracks r) <= 2)%nat) (n_routes n))); [exact H2|eapply nth_error_In; exact A]. }
  assert (kt < 2)%nat.
  { assert (nth_error (rt_tracks rt) kt <> None) by congruence. apply nth_error_Some in H0. lia. }
  destruct kr as [|[|]]; [| |lia]; destruct kt as [|[|]]; try lia; split; reflexivity.
Qed.

Lemma DestinationTo_clamp n m : DestinationTo n m = DestinationTo n (if Rlt_bool (n_dist n) m then n_dist n else m).
Proof.
  destruct (Rlt_bool_spec (n_dist n) m); [now apply C21_beyond_proof|reflexivity].
Qed.

Lemma DestinationTo_progress n m : measured n -> two_by_two n ->
  let n' := snd (DestinationTo n m) in
  n' = n \/ 0 <= n_csd n' <= sg_dist (cur_seg n').
Proof.
  intros Hm H2. rewrite DestinationTo_clamp.
  set (d := if Rlt_bool (n_dist n) m then n_dist n else m).
  assert (Hd : d <= n_dist n) by (unfold d; destruct (Rlt_bool_spec (n_dist n) m); lra).
  cbn zeta.
  destruct (Rlt_or_le d 1) as [H1|H1].
  { left. rewrite C21_below_one_proof; [reflexivity|exact H1|now right]. }
  destruct (Rle_lt_or_eq_dec _ _ Hd) as [Hlt|Heq].
  - destruct (DestinationTo_spec n d Hm (conj H1 Hlt)) as (kr & kt & ks & rt & tk & s & A & B & C & D & E).
    right. rewrite E. cbn [snd].
    destruct (two_by_two_index n kr kt rt tk H2 A B) as [I1 I2].
    assert (Ec : cur_seg (snd (DestinationTo n d)) = s).
    { rewrite E. cbn [snd]. eapply cur_seg_at_pos; cbn.
      - rewrite I1. apply at_pos_nat. exact A.
      - rewrite I2. apply at_pos_nat. exact B.
      - apply at_pos_nat. exact C.
      - lra. }
    rewrite E in Ec. cbn [snd] in Ec. rewrite Ec. cbn. lra.
  - rewrite Heq. destruct (n_routes n) as [|r l] eqn:Er.
    + left. unfold DestinationTo. rewrite Er. cbn [jump_routes]. destruct (_ <? f1)%num; reflexivity.
    + destruct (DestinationTo_total_csd n Hm) as [E|E]; [congruence|now left|].
      right. rewrite E. split; [lra|]. apply cur_seg_nonneg.
      rewrite (DestinationTo_stable n_routes stable_routes). apply Hm.
Qed.

(** ** steps *)

Lemma step_progress n d draw b n' : Forall measured_route (n_routes n) ->
  0 <= n_csd n -> 0 <= d -> step n d draw b n' -> 0 <= n_csd n' <= sg_dist (cur_seg n').
Proof.
  intros Hm Hc Hd H. destruct H as [k Hk Hf|k Hk Hf Hl|k Hk Hf Hl He Hr].
  - apply fits_inv in Hf as [He Hle].
    replace (cur_seg (advance (passed n k) d)) with (cur_seg (passed n k)) by reflexivity.
    cbn [n_csd advance set_point updateDist set_cur].
    change (Rle_bool (n_csd (passed n k) + d) (sg_dist (cur_seg (passed n k))) = true) in Hle.
    destruct (Rle_bool_spec (n_csd (passed n k) + d) (sg_dist (cur_seg (passed n k)))); [|discriminate].
    split; [|assumption]. change (0 <= n_csd (passed n k) + d). rewrite passed_csd.
    destruct k; [lra|]. change (f0 (T := R)) with 0. lra.
  - destruct (off_pure_rest (leave n) draw) as (E1 & E2 & E3 & E4 & E5 & _).
    assert (En : n_csd (off_pure (leave n) draw) = 0).
    { rewrite E5. unfold leave. cbn. destruct (_ <? _)%Z; [reflexivity|]. destruct (_ <? _)%Z; reflexivity. }
    rewrite En. split; [lra|]. apply cur_seg_nonneg. rewrite E1, leave_routes. exact Hm.
  - destruct (off_pure_rest (passed n (S k)) draw) as (E1 & E2 & E3 & E4 & E5 & _).
    assert (En : n_csd (off_pure (passed n (S k)) draw) = 0) by (rewrite E5, passed_csd; reflexivity).
    rewrite En. split; [lra|].
    apply cur_seg_nonneg. rewrite E1, (proj1 (passed_same n (S k))). exact Hm.
Qed.

Lemma NextLocation_progress n tick speed draw b n' : Forall measured_route (n_routes n) ->
  0 <= n_csd n <= sg_dist (cur_seg n) -> 0 <= tick * speed ->
  NextLocation n tick speed draw = Ret (b, n') -> 0 <= n_csd n' <= sg_dist (cur_seg n').
Proof.
  intros Hm Hc Hd H. destruct (NextLocation_inv zero_eq_zero_R _ _ _ _ _ _ H)
    as [(E & -> & ->)|[(E & O & -> & ->)|(E & O & I & St)]]; [exact Hc|exact Hc|].
  eapply step_progress; [exact Hm|apply Hc|exact Hd|exact St].
Qed.

Definition inv24 (n : navigator R) : Prop :=
  nav_wf n /\ measured n /\ 0 <= n_csd n <= sg_dist (cur_seg n).

Lemma zero_csd n : measured n -> n_csd n = 0 -> 0 <= n_csd n <= sg_dist (cur_seg n).
Proof. intros [_ H] ->. split; [lra|now apply cur_seg_nonneg]. Qed.

Lemma inv24_step n o n' : measured_op o -> forward_op o ->
  match o with NDestinationTo _ => two_by_two n | _ => True end ->
  inv24 n -> run_nav n o = Ret n' -> inv24 n'.
Proof.
  intros Ho Hf Hj (Hw & Hm & Hc) H.
  assert (Hm' : measured n') by (eapply measured_step; eassumption).
  assert (Hw' : nav_wf n').
  { destruct (run_nav_wf zero_eq_zero_R n o Hw) as (n1 & E & W).
    - destruct o; try exact I. destruct Hj as [Hj _]. unfold zlen. lia.
    - rewrite H in E. injection E as <-. exact W. }
  split; [exact Hw'|]. split; [exact Hm'|].
  assert (Hsame : n' = n \/ n_csd n' = 0 -> 0 <= n_csd n' <= sg_dist (cur_seg n')).
  { intros [->|E]; [exact Hc|now apply zero_csd]. }
  assert (Hview : seg_view n' = seg_view n -> position n' = position n -> n_csd n' = n_csd n ->
                  0 <= n_csd n' <= sg_dist (cur_seg n')).
  { intros E1 E2 E3. rewrite (cur_seg_same n n' E1 E2), E3. exact Hc. }
  destruct o.
  - apply Hsame. cbn in H. injection H as <-. destruct (C17_proof n rs) as [P1 P2].
    destruct rs as [|x rs]; [now left|].
    destruct P2 as (n' & E & _ & E2 & E3); [discriminate|]. rewrite E. cbn [snd]. cbn zeta in *.
    destruct (fresh_routes (map rt_id (n_routes n)) (x :: rs)).
    + left. now apply E2.
    + right. destruct E3 as (E3 & _); [discriminate|]. apply E3.
  - apply Hsame. cbn in H. injection H as <-. unfold nav_ResetRoutes. destruct (n_routes n); [now left|now right].
  - apply Hsame. cbn in H. injection H as <-.
    destruct (C18_proof n id) as [(r & rest & _ & _ & _ & _ & n' & E & _ & E3 & _)|(_ & E & _)]; rewrite E.
    + right. apply E3.
    + now left.
  - destruct Ho as [[] _].
  - apply Hsame. right. cbn in H. injection H as <-. reflexivity.
  - cbn in H. injection H as <-. unfold nav_mutateRoute in *.
    destruct (nth_error (n_routes n) i) as [r|] eqn:E; [|exact Hc].
    apply Hview; try reflexivity. unfold seg_view. cbn.
    eapply (map_set_nth_same (fun r => map tk_segments (rt_tracks r))); [exact E|].
    apply run_route_segments. destruct Ho as [Ho _]. destruct o; try exact I; contradiction.
  - apply Hsame. destruct (moves_csd n NNextRoute I) as (n1 & E & C). rewrite H in E. now injection E as <-.
  - apply Hsame. destruct (moves_csd n NPrevRoute I) as (n1 & E & C). rewrite H in E. now injection E as <-.
  - apply Hsame. destruct (moves_csd n (NMoveToRouteByID id) I) as (n1 & E & C). rewrite H in E. now injection E as <-.
  - apply Hsame. destruct (moves_csd n (NMoveToTrackByID rid tid) I) as (n1 & E & C). rewrite H in E. now injection E as <-.
  - apply Hsame. destruct (moves_csd n (NMoveToRoute r) I) as (n1 & E & C). rewrite H in E. now injection E as <-.
  - apply Hsame. destruct (moves_csd n (NMoveToTrack r t) I) as (n1 & E & C). rewrite H in E. now injection E as <-.
  - apply Hsame. destruct (moves_csd n (NMoveToSegment r t s) I) as (n1 & E & C). rewrite H in E. now injection E as <-.
  - cbn in H. injection H as <-. destruct (DestinationTo_progress n meters Hm Hj) as [E|E]; [rewrite E; exact Hc|exact E].
  - cbn in H. unfold ToOffline in H. destruct (n_skip n); [injection H as <-; exact Hc|].
    destruct (n_rnd n); [|discriminate]. injection H as <-. exact Hc.
  - cbn in H. unfold NextElevation in H. destruct (n_elev n); [cbn [deref bind] in H|discriminate].
    destruct (sensor_Next _ _); [|discriminate..]. injection H as <-. exact Hc.
  - cbn in H. unfold ShuffleElevation in H. destruct (n_elev n); [|discriminate]. injection H as <-. exact Hc.
  - cbn [run_nav] in H. destruct (NextLocation n tick speed draw) as [[b m]| |] eqn:F; cbn in H; try discriminate.
    injection H as <-. eapply NextLocation_progress; [apply Hm|exact Hc|exact Hf|exact F].
  - cbn in H. injection H as <-. unfold IsFinish. destruct (_ && _)%bool; exact Hc.
  - cbn [run_nav] in H.
    repeat (match type of H with bind ?m _ = _ => destruct m; cbn [bind] in H; try discriminate end).
    injection H as <-. exact Hc.
Qed.

Lemma SegmentDistance_pure n : nav_wf n -> SegmentDistance n = Ret (sg_dist (cur_seg n)).
Proof.
  intros [Hi _ _]. unfold SegmentDistance. rewrite CurrentSegment_pure by exact Hi. cbn [bind].
  destruct (segment_IsEmpty (cur_seg n)) eqn:E; [|reflexivity].
  unfold segment_IsEmpty in E. change (Req_bool (sg_dist (cur_seg n)) 0 = true) in E.
  destruct (Req_bool_spec (sg_dist (cur_seg n)) 0) as [E0|]; [now rewrite E0|discriminate].
Qed.

Lemma C24_proof opts uuid draws n0 ops n :
  navigator_New opts uuid draws = GOk n0 ->
  Forall measured_op ops -> Forall forward_op ops -> jumps_two_by_two n0 ops ->
  run_navs n0 ops = Ret n ->
  exists x, SegmentDistance n = Ret x /\ 0 <= n_csd n <= x.
Proof.
  intros H0 Ho Hf Hj H.
  assert (I0 : inv24 n0).
  { pose proof (measured_start _ _ _ _ H0) as Hm. split; [eapply New_wf; exact H0|]. split; [exact Hm|].
    apply zero_csd; [exact Hm|]. apply New_start in H0 as (_ & (_ & E & _) & _). exact E. }
  assert (I : inv24 n).
  { clear H0. revert n0 I0 Hj H. induction Ho as [|o ops Ho Hos IH]; intros n0 I0 Hj H; cbn in H, Hj.
    - now injection H as <-.
    - destruct (run_nav n0 o) as [n1| |] eqn:E; try discriminate. cbn in H.
      pose proof (Forall_inv Hf) as Hf1. apply Forall_inv_tail in Hf. destruct Hj as [Hj1 Hj2].
      apply (IH Hf n1); [|exact Hj2|exact H]. eapply inv24_step; eassumption. }
  destruct I as (Hw & _ & Hc). eexists. split; [now apply SegmentDistance_pure|exact Hc].
Qed.
End S.
