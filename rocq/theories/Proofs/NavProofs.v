(** Proofs of the navigator properties that hold in any arithmetic. *)
From Coq Require Import Lia.
From Verif.Model Require Import Base Num Geo Curve PropMap Types TypesSnap Track Route Navigator.
From Verif.Spec Require Import ListSpec TrackSpec RouteSpec NavSpec NumLaws.
From Verif.Proofs Require Import BaseLemmas RouteLemmas NavLemmas NavSteps.
Open Scope num_scope.

Section L.
Context {T : Type} {N : Num T} {J : JsonLib T}.
Implicit Types n : navigator T.

(** ** C17 *)

Lemma hasRoute_In (l : list (route T)) id : hasRoute l id = true <-> In id (map rt_id l).
Proof.
  unfold hasRoute. rewrite existsb_exists, in_map_iff. split.
  - intros (x & H1 & H2). apply String.eqb_eq in H2. eauto.
  - intros (x & H1 & H2). exists x. split; [assumption|]. apply String.eqb_eq. auto.
Qed.

Lemma fresh_ext ids ids' (rs : list (option (route T))) :
  (forall i, In i ids <-> In i ids') -> fresh_routes ids rs = fresh_routes ids' rs.
Proof.
  revert ids ids'. induction rs as [|[x|] rs IH]; intros ids ids' H; cbn; [reflexivity| |now apply IH].
  destruct (in_dec string_dec (rt_id x) ids) as [i|i], (in_dec string_dec (rt_id x) ids') as [j|j].
  - now apply IH.
  - exfalso. now apply j, H.
  - exfalso. now apply i, H.
  - f_equal. apply IH. intros y. cbn. now rewrite H.
Qed.

Lemma add_routes_fresh (rs : list (option (route T))) : forall l ok,
  add_routes l rs ok =
  (l ++ fresh_routes (map rt_id l) rs, (ok + zlen (fresh_routes (map rt_id l) rs))%Z).
Proof.
  induction rs as [|[x|] rs IH]; intros l ok; cbn.
  - rewrite app_nil_r. f_equal. unfold zlen. cbn. lia.
  - destruct (in_dec string_dec (rt_id x) (map rt_id l)) as [i|i].
    + assert (hasRoute l (rt_id x) = true) as -> by now apply hasRoute_In. apply IH.
    + assert (hasRoute l (rt_id x) = false) as ->.
      { apply Bool.not_true_iff_false. now rewrite hasRoute_In. }
      rewrite IH, map_app. cbn.
      rewrite (fresh_ext (map rt_id l ++ [rt_id x]) (rt_id x :: map rt_id l)).
      * rewrite <- app_assoc, zlen_cons. cbn. f_equal. lia.
      * intros y. rewrite in_app_iff. cbn. tauto.
  - apply IH.
Qed.

Lemma total_calc n : n_dist (calcRouteDistance n) = total_of_routes n.
Proof.
  unfold total_of_routes, fsum. cbn. generalize (f0 (T := T)) as z.
  induction (n_routes n) as [|r l IH]; intros z; cbn; auto.
Qed.

Lemma C17_proof n rs :
  (rs = [] -> nav_AddRoute n rs = (Some ErrNoRoutes, n)) /\
  (rs <> [] -> exists n', nav_AddRoute n rs = (None, n') /\
     let new := fresh_routes (map rt_id (n_routes n)) rs in
     n_routes n' = n_routes n ++ new /\
     (new = [] -> n' = n) /\
     (new <> [] -> rewound n' /\ n_dist n' = total_of_routes n' /\ same_settings n n' /\
                   n_ver n' = (n_ver n + 1)%Z)).
Proof.
  split; [now intros ->|]. intros Hne. unfold nav_AddRoute. destruct rs as [|x rs]; [contradiction|].
  rewrite add_routes_fresh. eexists. split; [reflexivity|]. cbn zeta.
  set (new := fresh_routes _ _). replace (0 + zlen new)%Z with (zlen new) by lia.
  destruct (0 <? zlen new)%Z eqn:E.
  - split; [reflexivity|]. split; [intros ->; discriminate|]. intros _.
    split; [repeat split|]. split; [|split; [repeat split|reflexivity]].
    apply (total_calc (resetIndexes (set_routes n (n_routes n ++ new)))).
  - apply Z.ltb_ge in E. assert (new = []) as ->.
    { destruct new; [reflexivity|]. rewrite zlen_cons in E. pose proof (zlen_nonneg new). lia. }
    split; [reflexivity|]. split; [|contradiction]. intros _. rewrite app_nil_r. now destruct n.
Qed.

Lemma fresh_nodup (rs : list (option (route T))) : forall ids,
  NoDup (map rt_id (fresh_routes ids rs)) /\
  (forall i, In i (map rt_id (fresh_routes ids rs)) -> ~ In i ids).
Proof.
  induction rs as [|[x|] rs IH]; intros ids; cbn.
  - split; [constructor|easy].
  - destruct (in_dec string_dec (rt_id x) ids) as [i|i]; [apply IH|].
    destruct (IH (rt_id x :: ids)) as [H1 H2]. cbn. split.
    + constructor; [|exact H1]. intros Hin. apply (H2 _ Hin). now left.
    + intros j [<-|Hj]; [exact i|]. intros Hj'. apply (H2 _ Hj). now right.
  - apply IH.
Qed.

Lemma NoDup_app_disj {A} (l l' : list A) : NoDup l -> NoDup l' ->
  (forall x, In x l' -> ~ In x l) -> NoDup (l ++ l').
Proof.
  induction l as [|a l IH]; cbn; intros H1 H2 H3; [exact H2|].
  inversion H1; subst. constructor.
  - rewrite in_app_iff. intros [H|H]; [contradiction|]. apply (H3 _ H). now left.
  - apply IH; auto. intros x Hx Hx'. apply (H3 _ Hx). now right.
Qed.

Lemma set_nth_ids i (r r' : route T) l : nth_error l i = Some r -> rt_id r' = rt_id r ->
  map rt_id (set_nth i r' l) = map rt_id l.
Proof.
  revert i. induction l as [|x l IH]; intros [|i] H E; cbn in *; try discriminate.
  - injection H as ->. now rewrite E.
  - now rewrite IH.
Qed.

Lemma run_route_id (r : route T) o : rt_id (run_route r o) = rt_id r.
Proof.
  destruct o; cbn; try reflexivity.
  - destruct t; reflexivity.
  - unfold route_RemoveTrack. destruct (_ || _)%bool; [reflexivity|]. now destruct (find_index _ _).
  - unfold TrackByID. destruct (_ || _)%bool; [reflexivity|]. now destruct (find _ _).
  - unfold route_ChangeName. now destruct (ParseName _).
  - unfold route_ChangeColor. now destruct hex.
  - unfold route_Props. now destruct (rt_props r).
  - unfold upd_track. now destruct (nth_error _ _).
  - unfold upd_track. now destruct (nth_error _ _).
  - unfold upd_track. now destruct (nth_error _ _).
Qed.

(** Fields that neither moves nor steps touch. *)
Record stable0 {X} (f : navigator T -> X) : Prop := {
  st_idx : forall n a b c, f (set_idx n a b c) = f n;
  st_cur : forall n a b c d, f (set_cur n a b c d) = f n;
  st_off : forall n a, f (set_off n a) = f n;
  st_point : forall n p, f (set_point n p) = f n }.
Record stable {X} (f : navigator T -> X) : Prop := {
  st_base :> stable0 f;
  st_elev : forall n e, f (set_elev n e) = f n }.

Lemma stable_routes : stable n_routes. Proof. repeat constructor. Qed.
Lemma stable_dist : stable n_dist. Proof. repeat constructor. Qed.
Lemma stable_ver : stable n_ver. Proof. repeat constructor. Qed.
Lemma stable_skip : stable n_skip. Proof. repeat constructor. Qed.
Lemma stable_rnd : stable n_rnd. Proof. repeat constructor. Qed.

Section Stable.
Context {X : Type} (f : navigator T -> X) (Hf : stable0 f).

Ltac st := repeat first [rewrite (st_idx f Hf) | rewrite (st_cur f Hf) | rewrite (st_off f Hf)
                        | rewrite (st_point f Hf)].

Lemma MoveToSegment_stable n r t s : f (snd (MoveToSegment n r t s)) = f n.
Proof.
  unfold MoveToSegment. repeat (match goal with
    | |- context [if ?b then _ else _] => destruct b
    | |- context [match ?b with Some _ => _ | None => _ end] => destruct b
    end; try reflexivity); cbn [snd]; st; reflexivity.
Qed.

Lemma next_loop_stable fuel : forall n d draw b n',
  next_loop fuel n d draw = Ret (b, n') -> f n' = f n.
Proof.
  induction fuel as [|fuel IH]; intros n d draw b n'; cbn [next_loop]; [discriminate|].
  destruct (isValidDistance n d) as [[]| |]; cbn [bind]; try discriminate.
  - destruct (CurrentSegment _) as [s| |]; cbn [bind]; try discriminate.
    unfold updateDist. destruct (segment_IsEmpty s); intros [= <- <-]; st; reflexivity.
  - destruct (nextSegment n) as [[s n1]| |] eqn:E1; cbn [bind]; try discriminate.
    assert (R1 : f n1 = f n).
    { revert E1. unfold nextSegment. destruct (CurrentTrack n) as [[t|]| |]; cbn [bind]; try discriminate.
      - destruct (_ =? _)%Z; [now intros [= <- <-]|].
        destruct (CurrentSegment n) as [s'| |]; cbn [bind]; try discriminate. intros [= <- <-]. now st.
      - now intros [= <- <-]. }
    assert (Hoff : forall m, (let* n2 := ToOffline m draw in Ret (false, n2)) = Ret (b, n') ->
              f n' = f m).
    { intros m. unfold ToOffline. destruct (n_skip m); cbn [bind]; [now intros [= <- <-]|].
      destruct (n_rnd m); cbn [deref bind]; [intros [= <- <-]; now st|discriminate]. }
    destruct (segment_IsEmpty s).
    + destruct (nextTrack n1) as [[mv n2]| |] eqn:E2; cbn [bind]; try discriminate.
      intros H. apply Hoff in H. rewrite H, <- R1.
      assert (R2 : f n2 = f n1).
      { revert E2. unfold nextTrack. cbv zeta.
        destruct (CurrentRoute _) as [[r|]| |]; cbn [bind]; try discriminate.
        - destruct (_ <? _)%Z; intros [= <- <-]; now st.
        - intros [= <- <-]. now st. }
      destruct mv; [exact R2|]. unfold nextRoute. destruct (_ <? _)%Z; st; exact R2.
    + destruct (segment_hasRelation s).
      * intros H. apply IH in H. congruence.
      * intros H. apply Hoff in H. congruence.
Qed.

Lemma NextLocation_stable n tick speed draw b n' :
  NextLocation n tick speed draw = Ret (b, n') -> f n' = f n.
Proof.
  destruct (n_routes n) eqn:E.
  - rewrite NextLocation_empty by assumption. now intros [= <- <-].
  - assert (Hne : n_routes n <> []) by congruence.
    destruct (offline_tick n) eqn:F.
    + rewrite NextLocation_offline by assumption. intros [= <- <-]. now st.
    + rewrite NextLocation_online by assumption. apply next_loop_stable.
Qed.

Lemma NextRoute_stable n : f (snd (NextRoute n)) = f n.
Proof. unfold NextRoute. destruct (_ <? _)%Z; [apply MoveToSegment_stable|reflexivity]. Qed.
Lemma PrevRoute_stable n : f (snd (PrevRoute n)) = f n.
Proof. unfold PrevRoute. destruct (_ <? _)%Z; [apply MoveToSegment_stable|reflexivity]. Qed.
Lemma MoveToRouteByID_stable n id : f (snd (MoveToRouteByID n id)) = f n.
Proof. unfold MoveToRouteByID. destruct (_ =? _)%Z; [reflexivity|apply MoveToSegment_stable]. Qed.
Lemma MoveToTrackByID_stable n r t : f (snd (MoveToTrackByID n r t)) = f n.
Proof.
  unfold MoveToTrackByID. destruct (_ =? _)%Z; [reflexivity|].
  destruct (zget _ _); [|reflexivity]. destruct (_ =? _)%Z; [reflexivity|apply MoveToSegment_stable].
Qed.
Lemma DestinationTo_stable n m : f (snd (DestinationTo n m)) = f n.
Proof.
  destruct (DestinationTo_cases n m) as [->|(r & ri & rd & ti & si & p & a & b & c & e & E & ->)];
    [reflexivity|]. now st.
Qed.

(** The calls that leave routes, total, version and settings alone. *)
Definition travels (o : nav_op T) : Prop :=
  match o with
  | NAddRoute _ | NResetRoutes | NRemoveRoute _ | NRemoveTrack _ _ | NRouteOp _ _ | NReset => False
  | _ => True
  end.

Lemma run_nav_stable0 n o n' : travels o ->
  (forall e, f (set_elev n e) = f n) \/ match o with NNextElevation _ | NShuffleElevation _ => False | _ => True end ->
  run_nav n o = Ret n' -> f n' = f n.
Proof.
  destruct o; cbn [run_nav travels]; intros K He E; try contradiction.
  - injection E as <-. apply NextRoute_stable.
  - injection E as <-. apply PrevRoute_stable.
  - injection E as <-. apply MoveToRouteByID_stable.
  - injection E as <-. apply MoveToTrackByID_stable.
  - injection E as <-. apply MoveToSegment_stable.
  - injection E as <-. apply MoveToSegment_stable.
  - injection E as <-. apply MoveToSegment_stable.
  - injection E as <-. apply DestinationTo_stable.
  - unfold ToOffline in E. destruct (n_skip n); [now injection E as <-|].
    destruct (n_rnd n); [|discriminate]. injection E as <-. now st.
  - unfold NextElevation in E. destruct (n_elev n); [cbn [deref bind] in E|discriminate].
    destruct (sensor_Next _ _); [|discriminate..]. injection E as <-. destruct He as [He|[]]. apply He.
  - unfold ShuffleElevation in E. destruct (n_elev n); [|discriminate]. injection E as <-. destruct He as [He|[]]. apply He.
  - destruct (NextLocation n tick speed draw) as [[b m]| |] eqn:F; cbn in E; try discriminate.
    injection E as <-. eapply NextLocation_stable; eauto.
  - injection E as <-. unfold IsFinish. destruct (_ && _)%bool; [|reflexivity]. cbn [snd]. now st.
  - repeat (match type of E with bind ?m _ = _ => destruct m; cbn [bind] in E; try discriminate end).
    now injection E as <-.
Qed.
End Stable.

Lemma run_nav_stable {X} (f : navigator T -> X) (Hf : stable f) n o n' : travels o -> run_nav n o = Ret n' -> f n' = f n.
Proof. intros K E. eapply (run_nav_stable0 f Hf); [exact K|left; apply (st_elev f Hf)|exact E]. Qed.

Lemma del_nth_ids (l : list (route T)) i : NoDup (map rt_id l) -> NoDup (map rt_id (del_nth i l)).
Proof.
  revert i. induction l as [|x l IH]; intros [|i] H; cbn in *; auto; inversion H; subst; auto.
  constructor; [|now apply IH]. intros Hin. apply H2. rewrite in_map_iff in *.
  destruct Hin as (y & Hy & Hin). exists y. split; [exact Hy|].
  clear - Hin. revert i Hin. induction l as [|z l IH]; intros [|i]; cbn; auto. intros [->|Hin]; eauto.
Qed.

Lemma ids_step n o n' : NoDup (map rt_id (n_routes n)) -> run_nav n o = Ret n' ->
  NoDup (map rt_id (n_routes n')).
Proof.
  intros H E. assert (K : travels o \/ ~ travels o) by (destruct o; cbn; auto).
  destruct K as [K|K]; [now rewrite (run_nav_stable _ stable_routes _ _ _ K E)|].
  destruct o; cbn in K; try tauto; cbn [run_nav] in E; injection E as <-.
  - destruct rs as [|x rs]; [exact H|].
    destruct (C17_proof n (x :: rs)) as [_ G]. destruct G as (n' & G1 & G2 & _); [discriminate|].
    rewrite G1. cbn [snd]. rewrite G2. clear G1 G2.
    rewrite map_app. destruct (fresh_nodup (x :: rs) (map rt_id (n_routes n))) as [G1 G2].
    now apply NoDup_app_disj.
  - unfold nav_ResetRoutes. destruct (n_routes n) eqn:F; cbn; [now rewrite F|constructor].
  - unfold nav_RemoveRoute. destruct (_ || _)%bool; [exact H|].
    destruct (find_index _ _); [|exact H]. cbn. now apply del_nth_ids.
  - unfold nav_RemoveTrack. destruct (_ || _)%bool; [exact H|].
    destruct (find_index _ _) as [i|]; [|exact H].
    destruct (nth_error _ i) as [x|] eqn:F; [|exact H].
    pose proof (run_route_id x (RRemoveTrack tid)) as G. cbn in G.
    destruct (route_RemoveTrack x tid) as [[] x'] eqn:F'; [|exact H]. cbn in *.
    now rewrite (set_nth_ids i x).
  - exact H.
  - unfold nav_mutateRoute. destruct (nth_error _ i) as [x|] eqn:F; [|exact H].
    cbn. rewrite (set_nth_ids i x); [exact H|exact F|apply run_route_id].
Qed.

Lemma ids_steps ops : forall n n', NoDup (map rt_id (n_routes n)) -> run_navs n ops = Ret n' ->
  NoDup (map rt_id (n_routes n')).
Proof.
  induction ops as [|o ops IH]; intros n n' H E; cbn in E.
  - now injection E as <-.
  - destruct (run_nav n o) as [n1| |] eqn:F; cbn in E; try discriminate.
    eapply IH; [|exact E]. eapply ids_step; eauto.
Qed.

Lemma New_start opts uuid draws n : navigator_New opts uuid draws = GOk n ->
  n_routes n = [] /\ rewound n /\ n_dist n = f0 /\ n_off n = 0%Z /\ n_ver n = 0%Z /\
  n_point n = mkPoint f0 f0 /\ n_skip n = o_skip (fold_left apply_option opts defaultNavOptions).
Proof.
  unfold navigator_New. set (o := fold_left _ _ _).
  destruct (validateOffline _ _) as [[mino maxo]|]; [|discriminate].
  destruct (validateElevation _ _) as [[mine maxe]|]; [|discriminate].
  destruct (NewSensor _ _ _ _ _ _ _) as [s|] eqn:E; [|discriminate].
  intros [= <-]. repeat split.
Qed.

Lemma C17_distinct_proof opts uuid draws n0 ops n :
  navigator_New opts uuid draws = GOk n0 -> run_navs n0 ops = Ret n ->
  NoDup (map rt_id (n_routes n)).
Proof.
  intros H. apply ids_steps. destruct (New_start _ _ _ _ H) as (-> & _). constructor.
Qed.

(** ** C18 *)

Lemma C18_proof n id :
  (exists r rest, (1 <= slen id <= 36)%Z /\ RouteByID n id = GOk r /\
     first_with (fun x => rt_id x = id) (n_routes n) r /\
     removes_first (fun x => rt_id x = id) (n_routes n) rest /\
     exists n', nav_RemoveRoute n id = (true, n') /\ n_routes n' = rest /\ rewound n' /\
       n_dist n' = total_of_routes n' /\ same_settings n n' /\ n_ver n' = (n_ver n + 1)%Z) \/
  (RouteByID n id = GErr ErrRouteNotFound /\ nav_RemoveRoute n id = (false, n) /\
   ((1 <= slen id <= 36)%Z -> Forall (fun x => rt_id x <> id) (n_routes n))).
Proof.
  unfold RouteByID, nav_RemoveRoute.
  destruct ((slen id =? 0) || (36 <? slen id))%Z eqn:L.
  - right. repeat split. intros H.
    apply Bool.orb_true_iff in L. rewrite Z.eqb_eq, Z.ltb_lt in L. lia.
  - apply Bool.orb_false_iff in L as [L1 L2]. apply Z.eqb_neq in L1. apply Z.ltb_ge in L2.
    pose proof (slen_nonneg id) as L3.
    pose proof (find_index_spec (fun r : route T => String.eqb (rt_id r) id) (n_routes n)) as FI.
    pose proof (find_spec (fun r : route T => String.eqb (rt_id r) id) (n_routes n)) as FS.
    destruct (find_index _ _) as [i|] eqn:Ei.
    + destruct FI as (pre & x & post & E1 & E3 & E4 & E2).
      destruct (find _ _) as [r|] eqn:Ef.
      * destruct FS as (pre' & post' & F1 & F2 & F3).
        left. exists r, (pre ++ post). apply String.eqb_eq in E3, F2.
        assert (P : forall l : list (route T), Forall (fun y => String.eqb (rt_id y) id = false) l ->
                  Forall (fun y => rt_id y <> id) l).
        { intros l. apply Forall_impl. intros a Ha. now apply eqb_str_false. }
        split; [lia|]. split; [reflexivity|]. split.
        { exists pre', post'. auto. }
        split. { exists pre, x, post. auto. }
        eexists. split; [reflexivity|]. cbn. subst i. rewrite E1, del_nth_app.
        split; [reflexivity|]. split; [repeat split|]. split; [|repeat split].
        apply (total_calc (resetIndexes (nav_nextVersion (set_routes n (pre ++ post))))).
      * exfalso. rewrite Forall_forall in FS. specialize (FS x). rewrite E3 in FS.
        enough (true = false) by discriminate. apply FS. rewrite E1. apply in_elt.
    + right. destruct (find _ _) as [r|] eqn:Ef.
      * exfalso. destruct FS as (pre' & post' & F1 & F2 & F3).
        rewrite Forall_forall in FI. specialize (FI r). rewrite F2 in FI.
        enough (true = false) by discriminate. apply FI. rewrite F1. apply in_elt.
      * repeat split. intros _. revert FI. apply Forall_impl. intros a Ha. now apply eqb_str_false.
Qed.

End L.
