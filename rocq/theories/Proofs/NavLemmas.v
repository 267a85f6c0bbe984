(** Pure readings of the navigator under its well-formedness invariant, and the
    characterisation of the NextLocation loop. *)
From Coq Require Import Lia.
From Verif.Model Require Import Base Num Geo Curve PropMap Types Track Route Navigator.
From Verif.Spec Require Import ListSpec TrackSpec RouteSpec NavSpec NumLaws.
From Verif.Proofs Require Import BaseLemmas.
Open Scope num_scope.

Section L.
Context {T : Type} {N : Num T} {J : JsonLib T}.
Implicit Types n : navigator T.

(** ** well-formedness *)

Definition idx_ok n : Prop := n_routes n = [] \/ (0 <= n_ri n < zlen (n_routes n))%Z.
Definition rnd_ok n : Prop := n_skip n = false -> exists r, n_rnd n = Some r.
Definition elev_ok n : Prop :=
  exists e, n_elev n = Some e /\ cv_points (s_gen e) <> [].

Record nav_wf n : Prop := { wf_idx : idx_ok n; wf_rnd : rnd_ok n; wf_elev : elev_ok n }.

Lemma on_a_route_idx n : on_a_route n <-> idx_ok n.
Proof.
  unfold on_a_route, idx_ok. split; (intros [H|H]; [now left|right]).
  - destruct H as (r & H). apply zget_at_pos in H. eapply zget_Some_range, H.
  - destruct (zget_range _ _ H) as (r & Hr). exists r. now apply zget_at_pos.
Qed.

(** ** pure readings *)

Definition cur_route n : option (route T) := zget (n_routes n) (n_ri n).
Definition cur_track n : option (track T) :=
  match cur_route n with Some r => TrackAt r (n_ti n) | None => None end.
Definition seg_of (t : option (track T)) (i : Z) : segment T :=
  match t with
  | None => segment_zero
  | Some t => if segment_IsEmpty (SegmentAt t i) then segment_zero else SegmentAt t i
  end.
Definition cur_seg n : segment T := seg_of (cur_track n) (n_si n).

Lemma zget_nil {A} i : zget (@nil A) i = None.
Proof. unfold zget. destruct (i <? 0)%Z; [reflexivity|]. now destruct (Z.to_nat i). Qed.

Lemma CurrentRoute_pure n : idx_ok n -> CurrentRoute n = Ret (cur_route n).
Proof.
  intros [H|H]; unfold CurrentRoute, cur_route.
  - rewrite H, zget_nil. reflexivity.
  - destruct (zget_range _ _ H) as (r & Hr). rewrite Hr. cbn.
    destruct (n_routes n); [now rewrite zget_nil in Hr|reflexivity].
Qed.

Lemma CurrentTrack_pure n : idx_ok n -> CurrentTrack n = Ret (cur_track n).
Proof. intros H. unfold CurrentTrack. rewrite CurrentRoute_pure by assumption. reflexivity. Qed.

Lemma CurrentSegment_pure n : idx_ok n -> CurrentSegment n = Ret (cur_seg n).
Proof.
  intros H. unfold CurrentSegment. rewrite CurrentRoute_pure by assumption. cbn.
  unfold cur_seg, seg_of, cur_track. destruct (cur_route n) as [r|]; [|reflexivity].
  destruct (TrackAt r (n_ti n)); reflexivity.
Qed.

Lemma TrackAt_Some (r : route T) i t :
  TrackAt r i = Some t <-> at_pos (rt_tracks r) i t.
Proof.
  unfold TrackAt. rewrite <- zget_at_pos.
  destruct ((zlen (rt_tracks r) =? 0) || (zlen (rt_tracks r) - 1 <? i) || (i <? 0))%Z eqn:E;
    [|reflexivity].
  split; [discriminate|]. intros H. apply zget_Some_range in H.
  rewrite !Bool.orb_true_iff, Z.eqb_eq, !Z.ltb_lt in E. lia.
Qed.

Lemma SegmentAt_Some (t : track T) i s :
  zget (tk_segments t) i = Some s -> SegmentAt t i = s.
Proof.
  intros H. unfold SegmentAt. rewrite H. apply zget_Some_range in H.
  destruct ((zlen (tk_segments t) =? 0) || (zlen (tk_segments t) - 1 <? i) || (i <? 0))%Z eqn:E;
    [|reflexivity].
  rewrite !Bool.orb_true_iff, Z.eqb_eq, !Z.ltb_lt in E. lia.
Qed.

Lemma SegmentAt_None (t : track T) i :
  zget (tk_segments t) i = None -> SegmentAt t i = segment_zero.
Proof.
  intros H. unfold SegmentAt. rewrite H.
  destruct ((zlen (tk_segments t) =? 0) || (zlen (tk_segments t) - 1 <? i) || (i <? 0))%Z; reflexivity.
Qed.

Lemma zero_seg_empty : zero_eq_zero N -> segment_IsEmpty (segment_zero (T := T)) = true.
Proof. intros H. exact H. Qed.

(** a non-empty current segment really is a segment of the current track *)
Lemma seg_of_nonempty t i : zero_eq_zero N ->
  segment_IsEmpty (seg_of t i) = false ->
  exists tr, t = Some tr /\ zget (tk_segments tr) i = Some (seg_of t i).
Proof.
  intros Z0 H. destruct t as [tr|]; cbn in *.
  - exists tr. split; [reflexivity|].
    destruct (zget (tk_segments tr) i) as [s|] eqn:E.
    + rewrite (SegmentAt_Some _ _ _ E) in *. destruct (segment_IsEmpty s); [|reflexivity].
      rewrite zero_seg_empty in H by assumption. discriminate.
    + rewrite (SegmentAt_None _ _ E) in *. rewrite zero_seg_empty in H by assumption.
      rewrite zero_seg_empty in H by assumption. discriminate.
  - rewrite zero_seg_empty in H by assumption. discriminate.
Qed.

Definition off_pure n (draw : Z) : navigator T :=
  if n_skip n then n
  else match n_rnd n with Some r => set_off n (random_Value r draw) | None => n end.

Lemma ToOffline_pure n draw : rnd_ok n -> ToOffline n draw = Ret (off_pure n draw).
Proof.
  intros H. unfold ToOffline, off_pure. destruct (n_skip n) eqn:E; [reflexivity|].
  destruct (H E) as (r & ->). reflexivity.
Qed.

(** Leaving the current track: next track, else first track of the next route, else rewind. *)
Definition leave n : navigator T :=
  let n := set_cur n f0 (n_crd n) f0 (n_cd n) in
  let ntr := match cur_route n with Some r => NumTracks r | None => 0%Z end in
  if (n_ti n <? ntr - 1)%Z then set_idx n (n_ri n) (n_ti n + 1)%Z 0
  else
    let n := set_cur n f0 f0 f0 (n_cd n) in
    if (n_ri n <? zlen (n_routes n) - 1)%Z then set_idx n (n_ri n + 1)%Z 0 0
    else set_cur (set_idx n 0 0 0) f0 f0 f0 (fdec 1 10).

Lemma idx_ok_ext n n' : n_routes n' = n_routes n -> n_ri n' = n_ri n -> idx_ok n -> idx_ok n'.
Proof. unfold idx_ok. intros -> ->. auto. Qed.

Lemma nextTrack_pure n : idx_ok n -> n_routes n <> [] ->
  exists b n1, nextTrack n = Ret (b, n1) /\ (if b : bool then n1 else nextRoute n1) = leave n.
Proof.
  intros H Hne. destruct H as [H|H]; [contradiction|].
  unfold nextTrack.
  rewrite CurrentRoute_pure by (right; exact H). cbn.
  unfold cur_route. cbn. destruct (zget_range _ _ H) as (r & Hr). rewrite Hr.
  unfold leave, cur_route. cbn. rewrite Hr.
  destruct (n_ti n <? NumTracks r - 1)%Z.
  - eexists _, _. split; reflexivity.
  - eexists _, _. split; [reflexivity|]. unfold nextRoute. cbn.
    destruct (n_ri n <? zlen (n_routes n) - 1)%Z; reflexivity.
Qed.

Lemma leave_routes n : n_routes (leave n) = n_routes n.
Proof.
  unfold leave. cbn.
  destruct (n_ti n <? _)%Z; [reflexivity|]. destruct (n_ri n <? _)%Z; reflexivity.
Qed.

Lemma leave_idx_ok n : idx_ok n -> idx_ok (leave n).
Proof.
  intros [H|H]; [left; now rewrite leave_routes|right].
  rewrite leave_routes. unfold leave. cbn.
  destruct (n_ti n <? _)%Z; cbn; [assumption|].
  destruct (n_ri n <? _)%Z eqn:E; cbn; [apply Z.ltb_lt in E|]; lia.
Qed.

Lemma leave_rest n : n_skip (leave n) = n_skip n /\ n_rnd (leave n) = n_rnd n /\
  n_elev (leave n) = n_elev n /\ n_off (leave n) = n_off n /\ n_point (leave n) = n_point n /\
  n_dist (leave n) = n_dist n /\ n_ver (leave n) = n_ver n.
Proof.
  unfold leave. cbn.
  destruct (n_ti n <? _)%Z; [repeat split|]. destruct (n_ri n <? _)%Z; repeat split.
Qed.

Lemma off_pure_rest n draw :
  let n' := off_pure n draw in
  n_routes n' = n_routes n /\ n_ri n' = n_ri n /\ n_ti n' = n_ti n /\ n_si n' = n_si n /\
  n_csd n' = n_csd n /\ n_crd n' = n_crd n /\ n_ctd n' = n_ctd n /\ n_cd n' = n_cd n /\
  n_point n' = n_point n /\ n_elev n' = n_elev n /\ n_rnd n' = n_rnd n /\
  n_dist n' = n_dist n /\ n_skip n' = n_skip n /\ n_ver n' = n_ver n.
Proof.
  cbn zeta. unfold off_pure. destruct (n_skip n) eqn:E; [repeat split; auto|].
  destruct (n_rnd n) eqn:F; cbn; rewrite ?E, ?F; repeat split; auto; congruence.
Qed.

(** ** the loop *)

(** the state after k segments have been passed *)
Definition passed n (k : nat) : navigator T :=
  match k with
  | O => n
  | _ => set_idx (set_cur n f0 (n_crd n) (n_ctd n) (n_cd n)) (n_ri n) (n_ti n) (n_si n + Z.of_nat k)%Z
  end.

(** a step of d metres fits into the current segment *)
Definition fits n (d : T) : bool :=
  if segment_IsEmpty (cur_seg n) then false else n_csd n + d <=? sg_dist (cur_seg n).

Definition is_last n : bool :=
  match cur_track n with Some t => (n_si n =? NumSegments t - 1)%Z | None => false end.

(** the segment is passed over: too short for the step, not last, non-empty and linked *)
Definition passable n d : Prop :=
  fits n d = false /\ is_last n = false /\ segment_IsEmpty (cur_seg n) = false /\
  segment_hasRelation (cur_seg n) = true.

Definition advance n d : navigator T :=
  set_point (updateDist n d)
    (if isStartSegment n then segment_DestinationTo (cur_seg n) f1
     else segment_DestinationTo (cur_seg n) (n_csd n + d)).

(** what one (online) NextLocation call does *)
Inductive step n (d : T) (draw : Z) : bool -> navigator T -> Prop :=
| step_advance k :
    (forall j, (j < k)%nat -> passable (passed n j) d) ->
    fits (passed n k) d = true ->
    step n d draw true (advance (passed n k) d)
| step_leave k :
    (forall j, (j < k)%nat -> passable (passed n j) d) ->
    fits (passed n k) d = false ->
    (cur_track n = None \/ is_last (passed n k) = true \/
     segment_IsEmpty (cur_seg (passed n k)) = true) ->
    step n d draw false (off_pure (leave n) draw)
| step_break k :
    (forall j, (j < k)%nat -> passable (passed n j) d) ->
    fits (passed n k) d = false ->
    is_last (passed n k) = false ->
    segment_IsEmpty (cur_seg (passed n k)) = false ->
    segment_hasRelation (cur_seg (passed n k)) = false ->
    step n d draw false (off_pure (passed n (S k)) draw).

Lemma passed_same n k :
  n_routes (passed n k) = n_routes n /\ n_ri (passed n k) = n_ri n /\ n_ti (passed n k) = n_ti n /\
  n_si (passed n k) = (n_si n + Z.of_nat k)%Z /\ n_crd (passed n k) = n_crd n /\
  n_ctd (passed n k) = n_ctd n /\ n_cd (passed n k) = n_cd n /\ n_off (passed n k) = n_off n /\
  n_point (passed n k) = n_point n /\ n_elev (passed n k) = n_elev n /\
  n_rnd (passed n k) = n_rnd n /\ n_dist (passed n k) = n_dist n /\
  n_skip (passed n k) = n_skip n /\ n_ver (passed n k) = n_ver n.
Proof. destruct k; cbn; repeat split; lia. Qed.

Lemma passed_csd n k : n_csd (passed n k) = match k with O => n_csd n | _ => f0 end.
Proof. now destruct k. Qed.

Lemma passed_cur_track n k : cur_track (passed n k) = cur_track n.
Proof. unfold cur_track, cur_route. now destruct k. Qed.

Lemma passed_cur_seg n k : cur_seg (passed n k) = seg_of (cur_track n) (n_si n + Z.of_nat k)%Z.
Proof.
  unfold cur_seg. rewrite passed_cur_track. destruct (passed_same n k) as (_ & _ & _ & -> & _). reflexivity.
Qed.

Lemma passed_S n k :
  set_idx (set_cur (passed n k) f0 (n_crd (passed n k)) (n_ctd (passed n k)) (n_cd (passed n k)))
          (n_ri (passed n k)) (n_ti (passed n k)) (n_si (passed n k) + 1)%Z = passed n (S k).
Proof.
  destruct k; cbn.
  - reflexivity.
  - unfold set_idx, set_cur; cbn. f_equal. lia.
Qed.

Lemma leave_passed n k : leave (passed n k) = leave n.
Proof. destruct k; reflexivity. Qed.

Lemma leave_bumped n : leave (set_idx (set_cur n f0 (n_crd n) (n_ctd n) (n_cd n)) (n_ri n) (n_ti n) (n_si n + 1)%Z) = leave n.
Proof. reflexivity. Qed.

Lemma set_idx_id n : set_idx n (n_ri n) (n_ti n) (n_si n) = n.
Proof. now destruct n. Qed.

Lemma isValidDistance_pure n d : idx_ok n -> isValidDistance n d = Ret (fits n d).
Proof. intros H. unfold isValidDistance. rewrite CurrentSegment_pure by assumption. reflexivity. Qed.

Definition left_over n : nat :=
  match cur_track n with
  | Some t => Z.to_nat (NumSegments t - Z.max 0 (n_si n))
  | None => O
  end.

Lemma cur_seg_updateDist n d : cur_seg (updateDist n d) = cur_seg n.
Proof. reflexivity. Qed.

(** Partial correctness without any well-formedness premise. *)
Lemma next_loop_inv (Z0 : zero_eq_zero N) n d draw : n_routes n <> [] ->
  forall fuel k, (forall j, (j < k)%nat -> passable (passed n j) d) ->
  forall b n', next_loop fuel (passed n k) d draw = Ret (b, n') -> idx_ok n /\ step n d draw b n'.
Proof.
  intros Hne. induction fuel as [|fuel IH]; intros k Hk b n' H; [discriminate|].
  pose proof (passed_same n k) as (Er & Eri & _ & Esi & _ & _ & _ & _ & _ & _ & Ernd & _ & Eskip & _).
  assert (Hidx : idx_ok n).
  { destruct (zget (n_routes n) (n_ri n)) as [r|] eqn:E.
    - right. now apply zget_Some_range in E.
    - exfalso. cbn [next_loop] in H. unfold isValidDistance, CurrentSegment, CurrentRoute in H.
      rewrite Er, Eri, E in H. cbn in H. destruct (n_routes n); [contradiction|discriminate]. }
  split; [exact Hidx|].
  assert (Hik : idx_ok (passed n k)) by (eapply idx_ok_ext; eauto).
  cbn [next_loop] in H. rewrite isValidDistance_pure in H by assumption. cbn [bind] in H.
  destruct (fits (passed n k) d) eqn:Hfit.
  - rewrite CurrentSegment_pure in H by exact Hik. cbn [bind] in H. rewrite cur_seg_updateDist in H.
    assert (He : segment_IsEmpty (cur_seg (passed n k)) = false).
    { unfold fits in Hfit. destruct (segment_IsEmpty (cur_seg (passed n k))); congruence. }
    rewrite He in H. injection H as <- <-. apply (step_advance n d draw k Hk Hfit).
  - unfold nextSegment in H. rewrite CurrentTrack_pure in H by assumption. cbn [bind] in H.
    rewrite passed_cur_track in H.
    assert (Hoff : forall m, (let* n2 := ToOffline m draw in Ret (false, n2)) = Ret (b, n') ->
      b = false /\ n' = off_pure m draw).
    { intros m. unfold ToOffline, off_pure. destruct (n_skip m); [now intros [= <- <-]|].
      destruct (n_rnd m); [now intros [= <- <-]|discriminate]. }
    assert (Hleave : forall m, idx_ok m -> n_routes m <> [] -> leave m = leave n ->
      (let* (moved, n0) := nextTrack m in
       let n1 := if moved : bool then n0 else nextRoute n0 in
       let* n2 := ToOffline n1 draw in Ret (false, n2)) = Ret (b, n') ->
      b = false /\ n' = off_pure (leave n) draw).
    { intros m Hm1 Hm2 Hm4. destruct (nextTrack_pure m Hm1 Hm2) as (b0 & n1 & -> & Hb). cbn [bind].
      rewrite Hb, Hm4. apply Hoff. }
    destruct (cur_track n) as [t|] eqn:Ht.
    2:{ cbn [bind] in H. rewrite zero_seg_empty in H by assumption.
        apply Hleave in H as [-> ->]; [|assumption|congruence|apply leave_passed].
        apply (step_leave n d draw k Hk Hfit). auto. }
    destruct (n_si (passed n k) =? NumSegments t - 1)%Z eqn:Hlast.
    { cbn [bind] in H. rewrite zero_seg_empty in H by assumption.
      apply Hleave in H as [-> ->]; [|assumption|congruence|apply leave_passed].
      apply (step_leave n d draw k Hk Hfit).
      right; left. unfold is_last. rewrite passed_cur_track, Ht. exact Hlast. }
    rewrite CurrentSegment_pure in H by assumption. cbn [bind] in H. rewrite passed_S in H.
    assert (Hl : is_last (passed n k) = false).
    { unfold is_last. rewrite passed_cur_track, Ht. exact Hlast. }
    assert (Hi' : idx_ok (passed n (S k))).
    { pose proof (passed_same n (S k)) as (Er' & Eri' & _). eapply idx_ok_ext; eauto. }
    destruct (segment_IsEmpty (cur_seg (passed n k))) eqn:He.
    { apply Hleave in H as [-> ->]; [|assumption| |apply leave_passed].
      - apply (step_leave n d draw k Hk Hfit). auto.
      - pose proof (passed_same n (S k)) as (Er' & _). congruence. }
    destruct (segment_hasRelation (cur_seg (passed n k))) eqn:Hrel.
    + apply IH in H; [apply H|].
      intros j Hj. destruct (Nat.eq_dec j k) as [->|]; [|apply Hk; lia].
      unfold passable. auto.
    + apply Hoff in H as [-> ->]. apply (step_break n d draw k); auto.
Qed.

(** Total correctness. *)
Lemma next_loop_ret (Z0 : zero_eq_zero N) d draw :
  forall fuel n, idx_ok n -> rnd_ok n -> n_routes n <> [] -> (left_over n < fuel)%nat ->
  exists r, next_loop fuel n d draw = Ret r.
Proof.
  induction fuel as [|fuel IH]; intros n Hi Hr Hne Hf; [lia|].
  cbn [next_loop]. rewrite isValidDistance_pure by assumption. cbn [bind].
  destruct (fits n d) eqn:Hfit.
  - rewrite CurrentSegment_pure by exact Hi. cbn [bind]. destruct (segment_IsEmpty _); eauto.
  - unfold nextSegment. rewrite CurrentTrack_pure by assumption. cbn [bind].
    assert (Hleave : forall m, idx_ok m -> n_routes m <> [] -> rnd_ok m -> exists r,
      (let* (moved, n0) := nextTrack m in
       let n1 := if moved : bool then n0 else nextRoute n0 in
       let* n2 := ToOffline n1 draw in Ret (false, n2)) = Ret r).
    { intros m Hm1 Hm2 Hm3. destruct (nextTrack_pure m Hm1 Hm2) as (b & n1 & -> & Hb). cbn [bind].
      rewrite Hb, ToOffline_pure; [cbn; eauto|].
      unfold rnd_ok in *. destruct (leave_rest m) as (-> & -> & _). exact Hm3. }
    destruct (cur_track n) as [t|] eqn:Ht.
    2:{ cbn [bind]. rewrite zero_seg_empty by assumption. auto. }
    destruct (n_si n =? NumSegments t - 1)%Z.
    { cbn [bind]. rewrite zero_seg_empty by assumption. auto. }
    rewrite CurrentSegment_pure by assumption. cbn [bind].
    destruct (segment_IsEmpty (cur_seg n)) eqn:He.
    { apply Hleave; [exact Hi|exact Hne|exact Hr]. }
    destruct (segment_hasRelation (cur_seg n)).
    2:{ rewrite ToOffline_pure; [cbn; eauto|exact Hr]. }
    apply IH; [exact Hi|exact Hr|exact Hne|].
    unfold cur_seg in He.
    destruct (seg_of_nonempty _ _ Z0 He) as (tr & Htr & Hg).
    rewrite Ht in Htr. injection Htr as <-. apply zget_Some_range in Hg.
    unfold left_over in *. rewrite Ht in Hf.
    replace (cur_track _) with (cur_track n) by reflexivity. rewrite Ht. cbn.
    unfold NumSegments in *. lia.
Qed.

Lemma fold_max_le (l : list (track T)) t m : In t l ->
  (List.length (tk_segments t) <=
   fold_right (fun t m => Nat.max (List.length (tk_segments t)) m) m l)%nat.
Proof.
  induction l as [|x l IH]; cbn; [easy|]. intros [->|H]; [lia|]. specialize (IH H). lia.
Qed.
Lemma fold_max_ge (l : list (track T)) m :
  (m <= fold_right (fun t m => Nat.max (List.length (tk_segments t)) m) m l)%nat.
Proof. induction l; cbn; lia. Qed.

Lemma fold_max_routes (l : list (route T)) r t : In r l -> In t (rt_tracks r) ->
  (List.length (tk_segments t) <=
   fold_right (fun r m => fold_right (fun t m => Nat.max (List.length (tk_segments t)) m) m
                                     (rt_tracks r)) O l)%nat.
Proof.
  induction l as [|x l IH]; cbn; [easy|]. intros [->|H] Ht.
  - now apply fold_max_le.
  - specialize (IH H Ht). pose proof (fold_max_ge (rt_tracks x)
      (fold_right (fun r m => fold_right (fun t m => Nat.max (List.length (tk_segments t)) m) m
                                     (rt_tracks r)) O l)). lia.
Qed.

Lemma cur_track_In n t : cur_track n = Some t -> exists r, In r (n_routes n) /\ In t (rt_tracks r).
Proof.
  unfold cur_track, cur_route. destruct (zget (n_routes n) (n_ri n)) as [r|] eqn:E; [|discriminate].
  intros H. apply TrackAt_Some, zget_at_pos in H. exists r. split; eapply zget_In; eassumption.
Qed.

Lemma left_over_fuel n : (left_over n < nav_fuel n)%nat.
Proof.
  unfold left_over. destruct (cur_track n) as [t|] eqn:E.
  - destruct (cur_track_In n t E) as (r & Hr & Ht). pose proof (fold_max_routes _ _ _ Hr Ht).
    unfold nav_fuel, NumSegments, zlen. lia.
  - unfold nav_fuel. lia.
Qed.

End L.
