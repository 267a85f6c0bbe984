(** Proofs of the navigator properties that hold in any arithmetic (continued). *)
From Coq Require Import Lia.
From Verif.Model Require Import Base Num Geo Curve PropMap Types TypesSnap Track Route Navigator.
From Verif.Spec Require Import ListSpec TrackSpec RouteSpec NavSpec NumLaws.
From Verif.Proofs Require Import BaseLemmas RouteLemmas NavLemmas NavSteps NavProofs.
Open Scope num_scope.

Section L.
Context {T : Type} {N : Num T} {J : JsonLib T}.
Implicit Types n : navigator T.

(** ** C19 *)

Lemma run_route_dist (r : route T) o :
  match o with RAddTrack _ | RRemoveTrack _ => False | _ => True end ->
  rt_dist (run_route r o) = rt_dist r.
Proof.
  destruct o; cbn; try contradiction; intros _; try reflexivity.
  - unfold TrackByID. destruct (_ || _)%bool; [reflexivity|]. now destruct (find _ _).
  - unfold route_ChangeName. now destruct (ParseName _).
  - unfold route_ChangeColor. now destruct hex.
  - unfold route_Props. now destruct (rt_props r).
  - unfold upd_track. now destruct (nth_error _ _).
  - unfold upd_track. now destruct (nth_error _ _).
  - unfold upd_track. now destruct (nth_error _ _).
Qed.

Lemma map_set_nth_same {A B} (f : A -> B) i x y l : nth_error l i = Some x -> f y = f x ->
  map f (set_nth i y l) = map f l.
Proof.
  revert i. induction l as [|z l IH]; intros [|i] H E; cbn in *; try discriminate.
  - injection H as ->. now rewrite E.
  - now rewrite IH.
Qed.

Lemma total_step n o n' : keeps_tracks o -> n_dist n = total_of_routes n ->
  run_nav n o = Ret n' -> n_dist n' = total_of_routes n'.
Proof.
  intros K H E. assert (Q : travels o \/ ~ travels o) by (destruct o; cbn; auto).
  destruct Q as [Q|Q].
  { unfold total_of_routes. now rewrite (run_nav_stable _ stable_routes _ _ _ Q E),
      (run_nav_stable _ stable_dist _ _ _ Q E). }
  destruct o; cbn in Q; try tauto; cbn [run_nav] in E; injection E as <-.
  - destruct rs as [|x rs]; [exact H|].
    destruct (C17_proof n (x :: rs)) as [_ G]. destruct G as (n' & G1 & G2 & G3 & G4); [discriminate|].
    rewrite G1. cbn [snd]. cbn zeta in *.
    destruct (fresh_routes (map rt_id (n_routes n)) (x :: rs)) eqn:F.
    + now rewrite G3.
    + now apply G4.
  - unfold nav_ResetRoutes. destruct (n_routes n) eqn:F; cbn.
    all: try exact H; reflexivity.
  - destruct (C18_proof n id) as [(r & rest & _ & _ & _ & _ & n' & -> & _ & _ & G & _)|(_ & -> & _)];
      [exact G|exact H].
  - apply (total_calc (resetIndexes n)).
  - unfold nav_mutateRoute. destruct (nth_error _ i) as [x|] eqn:F; [|exact H].
    cbn. unfold total_of_routes. cbn.
    rewrite (map_set_nth_same rt_dist i x _ _ F); [exact H|].
    apply run_route_dist. destruct o; auto.
Qed.

Lemma C19_proof opts uuid draws n0 ops n :
  navigator_New opts uuid draws = GOk n0 -> Forall keeps_tracks ops -> run_navs n0 ops = Ret n ->
  n_dist n = total_of_routes n.
Proof.
  intros H. destruct (New_start _ _ _ _ H) as (H1 & _ & H2 & _).
  assert (G : n_dist n0 = total_of_routes n0) by (unfold total_of_routes; now rewrite H1, H2).
  clear H H1 H2. revert n0 G. induction ops as [|o ops IH]; intros n0 G K E; cbn in E.
  - now injection E as <-.
  - inversion K; subst. destruct (run_nav n0 o) as [n1| |] eqn:F; cbn in E; try discriminate.
    eapply IH; [|eassumption..]. eapply total_step; eauto.
Qed.

Lemma C19_reset_proof n : n_dist (nav_Reset n) = total_of_routes (nav_Reset n).
Proof. apply (total_calc (resetIndexes n)). Qed.

(** ** C20 *)

Lemma C20_partial_proof (Z0 : zero_eq_zero N) opts uuid draws n0 ops :
  navigator_New opts uuid draws = GOk n0 -> jumps_on_at_most_two_routes n0 ops ->
  exists n, run_navs n0 ops = Ret n /\ on_a_route n /\
    exists cur, CurrentRoute n = Ret cur /\
      match cur with
      | None => n_routes n = []
      | Some r => at_pos (n_routes n) (n_ri n) r
      end.
Proof.
  intros H Hj. destruct (run_navs_wf Z0 ops n0 (New_wf _ _ _ _ H) Hj) as (n & E & W).
  exists n. split; [exact E|]. pose proof (wf_idx _ W) as Hi. split; [now apply on_a_route_idx|].
  exists (cur_route n). split; [now apply CurrentRoute_pure|].
  unfold cur_route. destruct (zget (n_routes n) (n_ri n)) as [r|] eqn:F.
  - now apply zget_at_pos.
  - destruct Hi as [Hi|Hi]; [exact Hi|]. destruct (zget_range _ _ Hi) as (r & Hr). congruence.
Qed.

(** ** C23 *)

Lemma cur_seg_at n s : cur_seg n = s -> segment_IsEmpty s = false -> zero_eq_zero N ->
  segment_at n (n_ri n) (n_ti n) (n_si n) s.
Proof.
  intros <- He Z0. unfold cur_seg in *. destruct (seg_of_nonempty _ _ Z0 He) as (tr & Ht & Hg).
  unfold cur_track, cur_route in Ht. destruct (zget (n_routes n) (n_ri n)) as [r|] eqn:E; [|discriminate].
  exists r, tr. split; [now apply zget_at_pos|]. split; [now apply TrackAt_Some|].
  now apply zget_at_pos.
Qed.

Lemma fits_inv n d : fits n d = true ->
  segment_IsEmpty (cur_seg n) = false /\ (n_csd n + d <=? sg_dist (cur_seg n)) = true.
Proof. unfold fits. destruct (segment_IsEmpty _); [discriminate|auto]. Qed.

Lemma DestinationTo_along (s : segment T) x : segment_DestinationTo s x = point_along s x.
Proof. unfold segment_DestinationTo, point_along. now destruct (Destination _ _ _ _). Qed.

Lemma C23_proof (Z0 : zero_eq_zero N) n tick speed draw n' :
  NextLocation n tick speed draw = Ret (true, n') ->
  let d := tick * speed in
  exists s, segment_at n (n_ri n) (n_ti n) (n_si n') s /\
    n_ri n' = n_ri n /\ n_ti n' = n_ti n /\ (n_si n <= n_si n')%Z /\
    n_cd n' = n_cd n + d /\ n_crd n' = n_crd n + d /\ n_ctd n' = n_ctd n + d /\
    n_csd n' = (if (n_si n' =? n_si n)%Z then n_csd n else f0) + d /\
    (n_csd n' <=? sg_dist s) = true /\
    n_point n' = point_along s (if (n_si n' =? 0)%Z && (n_csd n =? f0) then f1 else n_csd n') /\
    n_routes n' = n_routes n /\ n_dist n' = n_dist n /\ n_ver n' = n_ver n /\ n_off n' = n_off n /\
    n_elev n' = n_elev n /\
    (n_skip n = true \/ (n_off n <= 0)%Z) /\
    (* the segments passed over on the way were too short for the step *)
    (forall i si, (n_si n <= i < n_si n')%Z -> segment_at n (n_ri n) (n_ti n) i si ->
       ((if (i =? n_si n)%Z then n_csd n else f0) + d <=? sg_dist si) = false).
Proof.
  intros E d. apply (NextLocation_inv Z0) in E as [(_ & ? & _)|[(_ & _ & ? & _)|(Hne & Ho & Hi & St)]];
    try discriminate.
  inversion St as [k Hk Hfit| |]; subst n'.
  destruct (fits_inv _ _ Hfit) as [He Hle].
  pose proof (passed_same n k) as (E1 & E2 & E3 & E4 & E5 & E6 & E7 & E8 & E9 & E10 & E11 & E12 & E13 & E14).
  pose proof (cur_seg_at _ _ eq_refl He Z0) as Hat.
  exists (cur_seg (passed n k)).
  assert (Hcs : n_csd (passed n k) = if (n_si (passed n k) =? n_si n)%Z then n_csd n else f0).
  { rewrite passed_csd, E4. destruct k; [now rewrite Z.add_0_r, Z.eqb_refl|].
    destruct (Z.eqb_spec (n_si n + Z.of_nat (S k)) (n_si n)); [lia|reflexivity]. }
  cbn [advance set_point updateDist set_cur n_ri n_ti n_si n_cd n_crd n_ctd n_csd n_point n_routes
       n_dist n_ver n_off n_elev].
  unfold segment_at in *. rewrite E1, E2, E3 in Hat.
  split; [exact Hat|]. split; [exact E2|]. split; [exact E3|]. split; [rewrite E4; lia|].
  rewrite E5, E6, E7. split; [reflexivity|]. split; [reflexivity|]. split; [reflexivity|].
  split; [now rewrite <- Hcs|]. split; [exact Hle|]. split.
  { unfold isStartSegment. rewrite !DestinationTo_along.
    destruct (n_si (passed n k) =? 0)%Z eqn:S0; cbn [andb]; [|reflexivity].
    destruct k as [|k]; cbn [passed n_csd] in *.
    - destruct (n_csd n =? f0); reflexivity.
    - (* si' = 0 after passing segments is impossible: those segments have non-negative index *)
      exfalso. apply Z.eqb_eq in S0. rewrite E4 in S0.
      destruct (Hk 0%nat ltac:(lia)) as (_ & _ & Hne0 & _). cbn [passed] in Hne0.
      destruct (cur_seg_at n _ eq_refl Hne0 Z0) as (? & ? & _ & _ & Hp & _). lia. }
  rewrite E8. split; [exact E1|]. split; [exact E12|]. split; [exact E14|]. split; [reflexivity|].
  split; [exact E10|]. split.
  { unfold offline_tick in Ho. destruct (n_skip n); [now left|right]. cbn in Ho. now apply Z.ltb_ge in Ho. }
  intros i si Hr (r & tk & A1 & A2 & A3). rewrite E4 in Hr.
  destruct (Hk (Z.to_nat (i - n_si n)) ltac:(lia)) as (Hf & _ & Hne' & _).
  pose proof (passed_same n (Z.to_nat (i - n_si n))) as (F1 & F2 & F3 & F4 & _).
  destruct (cur_seg_at _ _ eq_refl Hne' Z0) as (r' & tk' & B1 & B2 & B3).
  rewrite F1, F2 in B1. rewrite F3 in B2. rewrite F4 in B3.
  replace (n_si n + Z.of_nat (Z.to_nat (i - n_si n)))%Z with i in * by lia.
  apply zget_at_pos in A1, A2, A3, B1, B2, B3.
  assert (r' = r) by congruence. subst r'. assert (tk' = tk) by congruence. subst tk'.
  assert (Hs : cur_seg (passed n (Z.to_nat (i - n_si n))) = si) by congruence.
  unfold fits in Hf. rewrite Hne', Hs, passed_csd in Hf. rewrite <- Hf. f_equal. f_equal.
  destruct (Z.eqb_spec i (n_si n)).
  - now replace (Z.to_nat (i - n_si n)) with O by lia.
  - destruct (Z.to_nat (i - n_si n)) eqn:G; [lia|reflexivity].
Qed.

(** ** C26 *)

Lemma leave_pos n : idx_ok n -> n_routes n <> [] -> leaves_track n (position (leave n)).
Proof.
  intros Hi Hne. destruct Hi as [Hi|Hi]; [contradiction|]. destruct (zget_range _ _ Hi) as (r & Hr).
  assert (A : at_pos (n_routes n) (n_ri n) r) by now apply zget_at_pos.
  unfold leave, cur_route. cbn. rewrite Hr. unfold NumTracks.
  destruct (n_ti n <? zlen (rt_tracks r) - 1)%Z eqn:E.
  - apply Z.ltb_lt in E. apply (to_next_track n r); [exact A|lia].
  - apply Z.ltb_ge in E. destruct (n_ri n <? zlen (n_routes n) - 1)%Z eqn:F.
    + apply Z.ltb_lt in F. apply (to_next_route n r); [exact A|lia|lia].
    + apply Z.ltb_ge in F. apply (to_start n r); [exact A|lia|lia].
Qed.

Lemma C26_proof (Z0 : zero_eq_zero N) n tick speed draw b n' :
  NextLocation n tick speed draw = Ret (b, n') ->
  n_routes n' = n_routes n /\
  ((waiting n /\ b = false /\ position n' = position n) \/
   (~ waiting n /\ b = true /\ (position n' = position n \/ moves_forward n (position n'))) \/
   (~ waiting n /\ b = false /\ (moves_forward n (position n') \/ leaves_track n (position n')))).
Proof.
  intros E. split; [eapply (NextLocation_stable n_routes stable_routes); eauto|].
  apply (NextLocation_inv Z0) in E as [(Hne & -> & ->)|[(Hne & Ho & -> & ->)|(Hne & Ho & Hi & St)]].
  { left. split; [now left|auto]. }
  { left. split; [|auto]. right. unfold offline_tick in Ho. apply andb_prop in Ho as [H1 H2].
    apply negb_true_iff in H1. apply Z.ltb_lt in H2. auto. }
  assert (Hw : ~ waiting n).
  { intros [W|[W1 W2]]; [contradiction|]. unfold offline_tick in Ho. rewrite W1 in Ho. cbn in Ho.
    apply Z.ltb_ge in Ho. lia. }
  right.
  assert (Fw : forall k, segment_at n (n_ri n) (n_ti n) (n_si n + Z.of_nat k)%Z (cur_seg (passed n k)) ->
    position (passed n k) = position n \/ moves_forward n (position (passed n k))).
  { intros k Hat. destruct k; [now left|right]. exists (n_si n + Z.of_nat (S k))%Z. eexists.
    split; [reflexivity|]. split; [lia|exact Hat]. }
  assert (At : forall k, segment_IsEmpty (cur_seg (passed n k)) = false ->
    segment_at n (n_ri n) (n_ti n) (n_si n + Z.of_nat k)%Z (cur_seg (passed n k))).
  { intros k He. pose proof (cur_seg_at _ _ eq_refl He Z0) as Hat.
    pose proof (passed_same n k) as (E1 & E2 & E3 & E4 & _).
    unfold segment_at in *. rewrite E1, E2, E3, E4 in Hat. exact Hat. }
  inversion St as [k Hk Hfit|k Hk Hfit Hc|k Hk Hfit Hl He Hr]; subst b n'.
  - left. split; [exact Hw|]. split; [reflexivity|]. apply fits_inv in Hfit as [He _]. apply (Fw k). auto.
  - right. split; [exact Hw|]. split; [reflexivity|]. right. unfold position. destruct (off_pure_rest (leave n) draw) as (_ & -> & -> & -> & _).
    now apply leave_pos.
  - right. split; [exact Hw|]. split; [reflexivity|]. left. unfold position. destruct (off_pure_rest (passed n (S k)) draw) as (_ & -> & -> & -> & _).
    destruct (At k He) as (r & tk & A1 & A2 & A3).
    assert (Hlt : (n_si n + Z.of_nat (S k) < zlen (tk_segments tk))%Z).
    { pose proof A3 as A3'. apply zget_at_pos, zget_Some_range in A3'.
      unfold is_last in Hl. rewrite passed_cur_track in Hl.
      assert (cur_track n = Some tk) as Hct.
      { unfold cur_track, cur_route. apply zget_at_pos in A1. rewrite A1. now apply TrackAt_Some. }
      rewrite Hct in Hl. apply Z.eqb_neq in Hl.
      pose proof (passed_same n k) as (_ & _ & _ & E4 & _). rewrite E4 in Hl. unfold NumSegments in Hl. lia. }
    assert (0 <= n_si n + Z.of_nat k)%Z by (destruct A3; assumption).
    destruct (zget_range (tk_segments tk) (n_si n + Z.of_nat (S k))%Z) as (s & Hs); [lia|].
    exists (n_si n + Z.of_nat (S k))%Z, s. split; [reflexivity|]. split; [lia|].
    exists r, tk. split; [exact A1|]. split; [exact A2|]. now apply zget_at_pos.
Qed.

(** ** C29 *)

Lemma C29_proof n args :
  n_routes n <> [] -> n_skip n = false -> (zlen args <= n_off n)%Z ->
  locations n args = Ret (repeat false (List.length args), set_off n (n_off n - zlen args)%Z).
Proof.
  revert n. induction args as [|[[tick speed] draw] args IH]; intros n H1 H2 H3; cbn [locations].
  - cbn. rewrite zlen_nil, Z.sub_0_r. now destruct n.
  - rewrite zlen_cons in *. pose proof (zlen_nonneg args).
    rewrite NextLocation_offline; [|assumption|].
    2:{ unfold offline_tick. rewrite H2. cbn. apply Z.ltb_lt. lia. }
    cbn [bind]. rewrite IH; cbn [n_routes n_skip n_off set_off]; [|assumption|assumption|lia].
    cbn [bind]. replace (n_off n - (1 + zlen args))%Z with (n_off n - 1 - zlen args)%Z by lia.
    reflexivity.
Qed.

Lemma C29_enter_proof n draw n' : ToOffline n draw = Ret n' ->
  (n_skip n = true /\ n' = n) \/
  (n_skip n = false /\ exists r, n_rnd n = Some r /\ n' = set_off n (random_Value r draw)).
Proof.
  unfold ToOffline. destruct (n_skip n); [intros [= <-]; auto|].
  destruct (n_rnd n); [|discriminate]. intros [= <-]. right. eauto.
Qed.

(** ** C30 *)

Lemma at_pos_dec {A} (l : list A) i : (exists x, at_pos l i x) <-> (0 <= i < zlen l)%Z.
Proof.
  split.
  - intros (x & H). eapply zget_Some_range, zget_at_pos, H.
  - intros H. destruct (zget_range _ _ H) as (x & Hx). exists x. now apply zget_at_pos.
Qed.

Definition move_result n r t i (s : segment T) : navigator T :=
  set_off (set_idx (set_point (set_cur n f0
     (if (r =? n_ri n)%Z then n_crd n else f0)
     (if ((r =? n_ri n) && (t =? n_ti n))%Z then n_ctd n else f0) (n_cd n)) (sg_a s)) r t i) 0.

Lemma MoveToSegment_spec n r t i :
  (exists s, segment_at n r t i s /\ (r, t, i) <> position n /\
     MoveToSegment n r t i = (true, move_result n r t i s)) \/
  (((forall s, ~ segment_at n r t i s) \/ (r, t, i) = position n) /\
     MoveToSegment n r t i = (false, n)).
Proof.
  unfold MoveToSegment.
  destruct (Z.eqb_spec (zlen (n_routes n)) 0) as [L|L].
  { right. split; [left|reflexivity]. intros s (rt & tk & A & _).
    apply zget_at_pos, zget_Some_range in A. lia. }
  destruct ((n_ri n =? r) && (n_ti n =? t) && (n_si n =? i))%Z eqn:Same.
  { right. split; [right|reflexivity]. rewrite !Bool.andb_true_iff, !Z.eqb_eq in Same.
    unfold position. destruct Same as [[-> ->] ->]. reflexivity. }
  assert (Hdiff : (r, t, i) <> position n).
  { unfold position. intros [= -> -> ->]. rewrite !Z.eqb_refl in Same. discriminate. }
  destruct ((r <? 0) || (zlen (n_routes n) - 1 <? r))%Z eqn:B1.
  { right. split; [left|reflexivity]. intros s (rt & tk & A & _).
    apply zget_at_pos, zget_Some_range in A. rewrite Bool.orb_true_iff, !Z.ltb_lt in B1. lia. }
  destruct (zget (n_routes n) r) as [rt|] eqn:Hr.
  2:{ right. split; [left|reflexivity]. intros s (rt & tk & A & _). apply zget_at_pos in A. congruence. }
  destruct (Z.eqb_spec (zlen (rt_tracks rt)) 0) as [L2|L2].
  { right. split; [left|reflexivity]. intros s (rt' & tk & A & A' & _).
    apply zget_at_pos in A. assert (rt' = rt) by congruence. subst.
    apply zget_at_pos, zget_Some_range in A'. lia. }
  destruct ((t <? 0) || (zlen (rt_tracks rt) - 1 <? t))%Z eqn:B2.
  { right. split; [left|reflexivity]. intros s (rt' & tk & A & A' & _).
    apply zget_at_pos in A. assert (rt' = rt) by congruence. subst.
    apply zget_at_pos, zget_Some_range in A'. rewrite Bool.orb_true_iff, !Z.ltb_lt in B2. lia. }
  destruct (TrackAt rt t) as [tk|] eqn:Ht.
  2:{ right. split; [left|reflexivity]. intros s (rt' & tk & A & A' & _).
      apply zget_at_pos in A. assert (rt' = rt) by congruence. subst.
      apply TrackAt_Some in A'. congruence. }
  destruct ((i <? 0) || (zlen (tk_segments tk) - 1 <? i))%Z eqn:B3.
  { right. split; [left|reflexivity]. intros s (rt' & tk' & A & A' & A'').
    apply zget_at_pos in A. assert (rt' = rt) by congruence. subst.
    apply TrackAt_Some in A'. assert (tk' = tk) by congruence. subst.
    apply zget_at_pos, zget_Some_range in A''. rewrite Bool.orb_true_iff, !Z.ltb_lt in B3. lia. }
  left. rewrite Bool.orb_false_iff, !Z.ltb_ge in B3.
  destruct (zget_range (tk_segments tk) i) as (s & Hs); [lia|].
  exists s. rewrite (SegmentAt_Some _ _ _ Hs).
  split. { exists rt, tk. split; [now apply zget_at_pos|]. split; [now apply TrackAt_Some|now apply zget_at_pos]. }
  split; [exact Hdiff|]. unfold move_result.
  destruct (Z.eqb_spec r (n_ri n)) as [->|], (Z.eqb_spec t (n_ti n)) as [->|];
    destruct (Z.eqb_spec i (n_si n)) as [->|]; try reflexivity.
  exfalso. now apply Hdiff.
Qed.

(** the readable form *)
Lemma C30_proof n r t i :
  (exists s n', segment_at n r t i s /\ (r, t, i) <> position n /\
     MoveToSegment n r t i = (true, n') /\
     position n' = (r, t, i) /\ n_point n' = sg_a s /\ n_off n' = 0%Z /\
     n_csd n' = f0 /\
     (n_ctd n' = if ((r =? n_ri n) && (t =? n_ti n))%Z then n_ctd n else f0) /\
     (n_crd n' = if (r =? n_ri n)%Z then n_crd n else f0) /\
     n_cd n' = n_cd n /\ n_routes n' = n_routes n /\ n_dist n' = n_dist n /\
     n_ver n' = n_ver n /\ n_elev n' = n_elev n /\ n_rnd n' = n_rnd n /\ n_skip n' = n_skip n) \/
  (((forall s, ~ segment_at n r t i s) \/ (r, t, i) = position n) /\
     MoveToSegment n r t i = (false, n)).
Proof.
  destruct (MoveToSegment_spec n r t i) as [(s & H1 & H2 & H3)|H]; [left|now right].
  exists s. eexists. split; [exact H1|]. split; [exact H2|]. split; [exact H3|]. repeat split.
Qed.

Lemma find_index_first {A} (f : A -> bool) (P : A -> Prop) l i x : (forall y, f y = true <-> P y) ->
  (0 <= i)%Z -> at_pos l i x -> P x -> (forall j y, (0 <= j < i)%Z -> at_pos l j y -> ~ P y) ->
  find_index f l = Some (Z.to_nat i).
Proof.
  intros Hf Hi Hx HP Hpre. pose proof (find_index_spec f l) as S.
  destruct Hx as [_ Hx]. destruct (nth_error_split _ _ Hx) as (l1 & l2 & E1 & E2).
  destruct (find_index f l) as [k|].
  - destruct S as (pre & z & post & F1 & F2 & F3 & ->). f_equal.
    destruct (Nat.lt_trichotomy (List.length pre) (Z.to_nat i)) as [L|[L|L]]; [|exact L|].
    + exfalso. apply (Hpre (Z.of_nat (List.length pre)) z); [lia| |now apply Hf].
      split; [lia|]. rewrite Nat2Z.id, F1. now rewrite nth_error_app2, Nat.sub_diag by lia.
    + exfalso. rewrite Forall_forall in F3. assert (In x pre).
      { rewrite F1 in Hx. rewrite nth_error_app1 in Hx by lia. eapply nth_error_In; eauto. }
      specialize (F3 _ H). apply Hf in HP. congruence.
  - exfalso. rewrite Forall_forall in S. apply nth_error_In in Hx. specialize (S _ Hx).
    apply Hf in HP. congruence.
Qed.

Lemma find_index_absent {A} (f : A -> bool) (P : A -> Prop) l : (forall y, f y = true <-> P y) ->
  Forall (fun y => ~ P y) l -> find_index f l = None.
Proof.
  intros Hf H. pose proof (find_index_spec f l) as S. destruct (find_index f l) as [k|]; [|reflexivity].
  destruct S as (pre & z & post & F1 & F2 & _). exfalso. rewrite Forall_forall in H.
  apply (H z); [rewrite F1; apply in_elt|now apply Hf].
Qed.

Lemma C30_ids_proof n :
  (forall r, MoveToRoute n r = MoveToSegment n r 0 0) /\
  (forall r t, MoveToTrack n r t = MoveToSegment n r t 0) /\
  (forall id i, id <> ""%string -> first_at (fun r => rt_id r = id) (n_routes n) i ->
     MoveToRouteByID n id = MoveToSegment n i 0 0) /\
  (forall id, (id = ""%string \/ Forall (fun r => rt_id r <> id) (n_routes n)) ->
     MoveToRouteByID n id = (false, n)) /\
  (forall rid tid i r j, rid <> ""%string -> first_at (fun r => rt_id r = rid) (n_routes n) i ->
     at_pos (n_routes n) i r -> first_at (fun t => tk_id t = tid) (rt_tracks r) j ->
     MoveToTrackByID n rid tid = MoveToSegment n i j 0) /\
  (forall rid tid, (rid = ""%string \/ Forall (fun r => rt_id r <> rid) (n_routes n)) ->
     MoveToTrackByID n rid tid = (false, n)) /\
  (forall rid tid i r, rid <> ""%string -> first_at (fun r => rt_id r = rid) (n_routes n) i ->
     at_pos (n_routes n) i r -> Forall (fun t => tk_id t <> tid) (rt_tracks r) ->
     MoveToTrackByID n rid tid = (false, n)).
Proof.
  assert (Eq1 : forall id (r : route T), String.eqb (rt_id r) id = true <-> rt_id r = id)
    by (intros; apply String.eqb_eq).
  assert (Eq2 : forall id (t : track T), String.eqb (tk_id t) id = true <-> tk_id t = id)
    by (intros; apply String.eqb_eq).
  assert (Ix : forall id i, id <> ""%string -> first_at (fun r => rt_id r = id) (n_routes n) i ->
    indexRoute n id = i /\ (i =? -1)%Z = false).
  { intros id i Hid [(x & Hx & HP) Hpre]. unfold indexRoute.
    destruct (Z.eqb_spec (slen id) 0) as [L|_].
    { exfalso. destruct id; [now apply Hid|]. unfold slen in L. cbn in L. lia. }
    assert (0 <= i)%Z by now destruct Hx.
    rewrite (find_index_first _ _ _ i x (Eq1 id)) by assumption.
    rewrite Z2Nat.id by assumption. split; [reflexivity|]. apply Z.eqb_neq. lia. }
  assert (Ixn : forall id, (id = ""%string \/ Forall (fun r => rt_id r <> id) (n_routes n)) ->
    indexRoute n id = (-1)%Z).
  { intros id [->|H]; [reflexivity|]. unfold indexRoute. destruct (_ =? 0)%Z; [reflexivity|].
    now rewrite (find_index_absent _ _ _ (Eq1 id)). }
  split; [reflexivity|]. split; [reflexivity|]. split.
  { intros id i Hid H. unfold MoveToRouteByID. destruct (Ix _ _ Hid H) as [-> ->]. reflexivity. }
  split.
  { intros id H. unfold MoveToRouteByID. now rewrite (Ixn _ H). }
  split.
  { intros rid tid i r j Hid H Hr [(t & Ht & HP) Hpre]. unfold MoveToTrackByID.
    destruct (Ix _ _ Hid H) as [-> ->].
    pose proof Hr as Hr'. apply zget_at_pos in Hr'. rewrite Hr'.
    unfold indexTrack. assert (0 <= j)%Z by now destruct Ht.
    rewrite (find_index_first _ _ _ j t (Eq2 tid)) by assumption.
    rewrite Z2Nat.id by assumption. destruct (Z.eqb_spec j (-1)); [lia|reflexivity]. }
  split.
  { intros rid tid H. unfold MoveToTrackByID. now rewrite (Ixn _ H). }
  intros rid tid i r Hid H Hr HF. unfold MoveToTrackByID.
  destruct (Ix _ _ Hid H) as [-> ->]. apply zget_at_pos in Hr. rewrite Hr.
  unfold indexTrack. now rewrite (find_index_absent _ _ _ (Eq2 tid)).
Qed.

(** ** C31 *)

Lemma C31_proof n :
  ((exists s, segment_at n (n_ri n + 1) 0 0 s) -> (0 <= n_ri n)%Z ->
     exists n', NextRoute n = (true, n') /\ position n' = (n_ri n + 1, 0, 0)%Z) /\
  ((forall s, ~ segment_at n (n_ri n + 1) 0 0 s) -> NextRoute n = (false, n)) /\
  ((exists s, segment_at n (n_ri n - 1) 0 0 s) ->
     exists n', PrevRoute n = (true, n') /\ position n' = (n_ri n - 1, 0, 0)%Z) /\
  ((forall s, ~ segment_at n (n_ri n - 1) 0 0 s) -> PrevRoute n = (false, n)) /\
  (forall n1, NextRoute n = (true, n1) -> (exists s, segment_at n (n_ri n) 0 0 s) ->
     exists n2, PrevRoute n1 = (true, n2) /\ position n2 = (n_ri n, 0, 0)%Z).
Proof.
  assert (Pv : forall m, (exists s, segment_at m (n_ri m - 1) 0 0 s) ->
     exists n', PrevRoute m = (true, n') /\ position n' = (n_ri m - 1, 0, 0)%Z).
  { intros m (s & Hs). unfold PrevRoute.
    assert (0 <= n_ri m - 1)%Z by (destruct Hs as (? & ? & [? _] & _); assumption).
    destruct (Z.ltb_spec 0 (n_ri m)); [|lia].
    unfold MoveToRoute. destruct (MoveToSegment_spec m (n_ri m - 1) 0 0) as [(s' & _ & _ & ->)|[[H1|H1] _]].
    - eexists. split; reflexivity.
    - exfalso. eapply H1, Hs.
    - exfalso. unfold position in H1. injection H1. lia. }
  split; [|split; [|split; [|split]]].
  - intros (s & Hs) H0. unfold NextRoute.
    assert (n_ri n + 1 < zlen (n_routes n))%Z.
    { destruct Hs as (? & ? & A & _). apply zget_at_pos, zget_Some_range in A. lia. }
    destruct (Z.ltb_spec (n_ri n) (zlen (n_routes n) - 1)); [|lia].
    unfold MoveToRoute. destruct (MoveToSegment_spec n (n_ri n + 1) 0 0) as [(s' & _ & _ & ->)|[[H2|H2] _]].
    + eexists. split; reflexivity.
    + exfalso. eapply H2, Hs.
    + exfalso. unfold position in H2. injection H2. lia.
  - intros H. unfold NextRoute. destruct (_ <? _)%Z; [|reflexivity].
    unfold MoveToRoute. destruct (MoveToSegment_spec n (n_ri n + 1) 0 0) as [(s' & H1 & _ & _)|[_ H1]];
      [exfalso; eapply H, H1|exact H1].
  - apply Pv.
  - intros H. unfold PrevRoute. destruct (_ <? _)%Z; [|reflexivity].
    unfold MoveToRoute. destruct (MoveToSegment_spec n (n_ri n - 1) 0 0) as [(s' & H1 & _ & _)|[_ H1]];
      [exfalso; eapply H, H1|exact H1].
  - intros n1 H (s & Hs). unfold NextRoute in H. destruct (_ <? _)%Z; [|discriminate].
    unfold MoveToRoute in H.
    destruct (MoveToSegment_spec n (n_ri n + 1) 0 0) as [(s' & _ & _ & E)|[_ E]]; rewrite E in H;
      [|discriminate].
    injection H as <-. destruct (Pv (move_result n (n_ri n + 1) 0 0 s')) as (n2 & E2 & P2).
    + exists s. cbn. replace (n_ri n + 1 - 1)%Z with (n_ri n) by lia. exact Hs.
    + exists n2. split; [exact E2|]. rewrite P2. cbn. f_equal; f_equal; lia.
Qed.

End L.
