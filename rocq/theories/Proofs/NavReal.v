(** Navigator over the reals: measured lengths, DestinationTo (C21), segment progress (C24). *)
From Coq Require Import Reals Lra Lia.
From Flocq Require Import Core.Raux.
From Verif.Model Require Import Base Num NumR Geo Curve PropMap Types TypesSnap Track Route Navigator.
From Verif.Spec Require Import ListSpec TrackSpec RouteSpec NavSpec NumLaws SphereSpec RealSpec.
From Verif.Proofs Require Import BaseLemmas TrackLemmas RouteLemmas TrackRouteProofs NavLemmas NavSteps
  NavProofs NavProofs2 GeoLemmas GeoProofs.
Open Scope R_scope.

(** ** sums *)

Lemma rsum_cons x l : rsum (x :: l) = x + rsum l. Proof. reflexivity. Qed.
Lemma rsum_nil : rsum [] = 0. Proof. reflexivity. Qed.
Global Arguments rsum : simpl never.

Lemma rsum_app l k : rsum (l ++ k) = rsum l + rsum k.
Proof. induction l as [|x l IH]; cbn; rewrite ?rsum_cons, ?rsum_nil, ?IH; ring. Qed.

Lemma fold_left_rsum l : forall acc, fold_left Rplus l acc = acc + rsum l.
Proof. induction l as [|x l IH]; intros acc; cbn; rewrite ?IH, ?rsum_cons, ?rsum_nil; ring. Qed.

Lemma fsum_rsum l : fsum l = rsum l.
Proof.
  unfold fsum. change (fold_left Rplus l 0 = rsum l). rewrite fold_left_rsum. ring.
Qed.

Lemma rsum_nonneg l : Forall (fun x => 0 <= x) l -> 0 <= rsum l.
Proof. induction 1; rewrite ?rsum_cons, ?rsum_nil; lra. Qed.

(** ** measured objects *)

Lemma measured_track_nonneg t : measured_track t -> 0 <= tk_dist t.
Proof. intros [-> H]. apply rsum_nonneg, Forall_map, H. Qed.

Lemma measured_route_nonneg r : measured_route r -> 0 <= rt_dist r.
Proof.
  intros [-> H]. apply rsum_nonneg, Forall_map. eapply Forall_impl; [|exact H].
  apply measured_track_nonneg.
Qed.

Lemma NewTrack_measured pts uuid color t : NewTrack pts uuid color = GOk t -> measured_track t.
Proof.
  intros HN. destruct (@C14_proof R RNum pts uuid color) as [H1 H2].
  destruct (Nat.lt_ge_cases (List.length pts) 2) as [Hl|Hl]; [rewrite H1 in HN by assumption; discriminate|].
  destruct (H2 Hl) as (t' & E & (F & _ & _ & D & _) & _). rewrite HN in E. injection E as <-.
  split.
  - rewrite D, fsum_rsum. f_equal. clear -F. induction F as [|pq s lp ls (A & B & C & _) F IH]; cbn [map]; [reflexivity|now rewrite C, IH].
  - clear -F. induction F as [|pq s lp ls (A & B & C & _) F IH]; constructor; auto.
    rewrite C. apply Distance_range.
Qed.

Lemma NewRoute_measured uuid color : measured_route (NewRoute uuid color).
Proof. split; [reflexivity|constructor]. Qed.

Lemma AddTrack_measured r t : measured_route r -> (forall x, t = Some x -> measured_track x) ->
  measured_route (AddTrack r t).
Proof.
  intros [H1 H2] Ht. destruct t as [t|]; [|split; assumption].
  specialize (Ht t eq_refl). split.
  - pose proof (run_route_step r (RAddTrack (Some t))) as [_ E].
    { unfold route_inv. rewrite fsum_rsum. exact H1. }
    rewrite <- fsum_rsum. exact E.
  - cbn. apply Forall_app. split; [exact H2|]. repeat constructor; apply Ht.
Qed.

(** ** DestinationTo *)

(** index the loops arrive at: i + (i+1) + ... + (i+k) *)
Fixpoint acc_index (i : Z) (k : nat) : Z :=
  match k with O => i | S k => (i + acc_index (i + 1) k)%Z end.

Lemma acc_index_tri k : forall i, (2 * acc_index i k = (Z.of_nat k + 1) * (2 * i + Z.of_nat k))%Z.
Proof.
  induction k as [|k IH]; intros i; cbn [acc_index]; [lia|].
  rewrite Z.mul_add_distr_l, IH. lia.
Qed.

Lemma jump_routes_spec d l : forall i cur ri rd,
  rd <= d < rd + rsum (map rt_dist l) ->
  exists k r, nth_error l k = Some r /\
    jump_routes d i l cur ri rd = (Some r, (ri + acc_index i k)%Z, rd + rsum (map rt_dist (firstn k l))) /\
    rd + rsum (map rt_dist (firstn k l)) <= d < rd + rsum (map rt_dist (firstn k l)) + rt_dist r.
Proof.
  induction l as [|r l IH]; intros i cur ri rd H; cbn [map] in H; rewrite ?rsum_cons, ?rsum_nil in H; [lra|].
  cbn [jump_routes]. change (?a >? ?b) with (Rlt_bool b a). cbn [fadd RNum].
  destruct (Rlt_bool_spec d (rt_dist r + rd)) as [Hb|Hb].
  - exists 0%nat, r. cbn. rewrite rsum_nil, Rplus_0_r. repeat split; lra.
  - destruct (IH (i + 1)%Z (Some r) (ri + i)%Z (rd + rt_dist r)) as (k & r' & E1 & E2 & E3); [lra|].
    exists (S k), r'. split; [exact E1|]. rewrite E2. cbn [firstn map acc_index]. rewrite !rsum_cons. split; [|lra]. f_equal; [|ring]. f_equal. lia.
Qed.

Lemma jump_tracks_spec d l : forall i cur ti crd rd,
  rd <= d < rd + rsum (map tk_dist l) ->
  exists k t, nth_error l k = Some t /\
    jump_tracks d i l cur ti crd rd =
      (Some t, (ti + acc_index i k)%Z, crd + rsum (map tk_dist (firstn k l)),
       rd + rsum (map tk_dist (firstn k l))) /\
    rd + rsum (map tk_dist (firstn k l)) <= d < rd + rsum (map tk_dist (firstn k l)) + tk_dist t.
Proof.
  induction l as [|r l IH]; intros i cur ti crd rd H; cbn [map] in H; rewrite ?rsum_cons, ?rsum_nil in H; [lra|].
  cbn [jump_tracks]. change (?a >? ?b) with (Rlt_bool b a). cbn [fadd RNum].
  destruct (Rlt_bool_spec d (tk_dist r + rd)) as [Hb|Hb].
  - exists 0%nat, r. cbn. rewrite rsum_nil, !Rplus_0_r. repeat split; lra.
  - destruct (IH (i + 1)%Z (Some r) (ti + i)%Z (crd + tk_dist r) (rd + tk_dist r)) as (k & r' & E1 & E2 & E3); [lra|].
    exists (S k), r'. split; [exact E1|]. rewrite E2. cbn [firstn map acc_index]. rewrite !rsum_cons. split; [|lra]. f_equal; [f_equal; [f_equal; lia|ring]|ring].
Qed.

Lemma jump_segments_spec d l : forall i cur si rd crd ctd,
  rd <= d < rd + rsum (map sg_dist l) ->
  exists k s, nth_error l k = Some s /\
    jump_segments d i l cur si rd crd ctd =
      (s, (i + Z.of_nat k)%Z, rd + rsum (map sg_dist (firstn k l)),
       crd + rsum (map sg_dist (firstn k l)), ctd + rsum (map sg_dist (firstn k l))) /\
    rd + rsum (map sg_dist (firstn k l)) <= d < rd + rsum (map sg_dist (firstn k l)) + sg_dist s.
Proof.
  induction l as [|r l IH]; intros i cur si rd crd ctd H; cbn [map] in H; rewrite ?rsum_cons, ?rsum_nil in H; [lra|].
  cbn [jump_segments]. unfold segment_IsEmpty. change (?a =? ?b)%num with (Req_bool a b).
  change (?a >? ?b) with (Rlt_bool b a). cbn [fadd RNum].
  change (f0 (T := R)) with 0.
  destruct (Req_bool_spec (sg_dist r) 0) as [He|He].
  - destruct (IH (i + 1)%Z r si rd crd ctd) as (k & r' & E1 & E2 & E3); [lra|].
    exists (S k), r'. split; [exact E1|]. rewrite E2. cbn [firstn map]. rewrite !rsum_cons. rewrite He. split; [|lra].
    f_equal; [f_equal; [f_equal; [f_equal; lia|ring]|ring]|ring].
  - destruct (Rlt_bool_spec d (sg_dist r + rd)) as [Hb|Hb].
    + exists 0%nat, r. cbn. rewrite rsum_nil, !Rplus_0_r, Z.add_0_r. repeat split; lra.
    + destruct (IH (i + 1)%Z r i (rd + sg_dist r) (crd + sg_dist r) (ctd + sg_dist r)) as (k & r' & E1 & E2 & E3); [lra|].
      exists (S k), r'. split; [exact E1|]. rewrite E2. cbn [firstn map]. rewrite !rsum_cons. split; [|lra].
      f_equal; [f_equal; [f_equal; [f_equal; lia|ring]|ring]|ring].
Qed.

Lemma DestinationTo_spec n d : measured n -> 1 <= d < n_dist n ->
  exists kr kt ks rt tk s,
    nth_error (n_routes n) kr = Some rt /\ nth_error (rt_tracks rt) kt = Some tk /\ nth_error (tk_segments tk) ks = Some s /\ let r0 := before rt_dist (n_routes n) (Z.of_nat kr) in
    let t0 := before tk_dist (rt_tracks rt) (Z.of_nat kt) in
    let s0 := before sg_dist (tk_segments tk) (Z.of_nat ks) in
    r0 + t0 + s0 <= d < r0 + t0 + s0 + sg_dist s /\ DestinationTo n d =
      (true, set_idx (set_cur (set_point n (point_along s (d - (r0 + t0 + s0))))
                 (d - (r0 + t0 + s0)) (d - r0) (d - (r0 + t0)) d)
               (acc_index 0 kr) (acc_index 0 kt) (Z.of_nat ks)).
Proof.
  intros [Hd Hm] H.
  destruct (jump_routes_spec d (n_routes n) 0 None 0 0) as (kr & rt & R1 & R2 & R3).
  { rewrite <- Hd. lra. }
  assert (Hrt : measured_route rt) by (eapply Forall_forall; [exact Hm|eapply nth_error_In; eassumption]).
  destruct Hrt as [Hrd Hrt].
  destruct (jump_tracks_spec d (rt_tracks rt) 0 None 0 0 (0 + rsum (map rt_dist (firstn kr (n_routes n)))))
    as (kt & tk & T1 & T2 & T3).
  { rewrite <- Hrd. lra. }
  assert (Htk : measured_track tk) by (eapply Forall_forall; [exact Hrt|eapply nth_error_In; eassumption]).
  destruct Htk as [Htd Htk].
  destruct (jump_segments_spec d (tk_segments tk) 0 segment_zero 0
     (0 + rsum (map rt_dist (firstn kr (n_routes n))) + rsum (map tk_dist (firstn kt (rt_tracks rt))))
     (0 + rsum (map tk_dist (firstn kt (rt_tracks rt)))) 0)
    as (ks & s & S1 & S2 & S3).
  { rewrite <- Htd. lra. }
  exists kr, kt, ks, rt, tk, s. repeat (split; [assumption|]). cbn zeta.
  unfold before. rewrite !Nat2Z.id.
  set (r0 := rsum (map rt_dist (firstn kr (n_routes n)))) in *.
  set (t0 := rsum (map tk_dist (firstn kt (rt_tracks rt)))) in *.
  set (s0 := rsum (map sg_dist (firstn ks (tk_segments tk)))) in *.
  split; [lra|].
  unfold DestinationTo. change (?a >? ?b) with (Rlt_bool b a). change (?a <? ?b) with (Rlt_bool a b).
  change (f1 (T := R)) with 1. change (f0 (T := R)) with 0.
  rewrite (Rlt_bool_false (n_dist n) d) by lra. rewrite (Rlt_bool_false d 1) by lra.
  rewrite R2, T2, S2. unfold segment_IsEmpty. change (?a =? ?b)%num with (Req_bool a b).
  change (f0 (T := R)) with 0. rewrite Req_bool_false by lra.
  rewrite DestinationTo_along. cbn [fabs fsub fadd RNum].
  rewrite Rabs_right by lra.
  replace (d - (0 + r0 + t0 + s0)) with (d - (r0 + t0 + s0)) by ring.
  rewrite !Z.add_0_l. f_equal. unfold set_idx, set_cur, set_point. cbn.
  f_equal; ring.
Qed.

(** C21 *)
Lemma at_pos_nat {A} (l : list A) k x : nth_error l k = Some x -> at_pos l (Z.of_nat k) x.
Proof. intros H. split; [lia|]. now rewrite Nat2Z.id. Qed.

Lemma C21_proof n d : measured n -> 1 <= d < n_dist n ->
  exists r t i rt tk s n',
    at_pos (n_routes n) r rt /\ at_pos (rt_tracks rt) t tk /\ at_pos (tk_segments tk) i s /\
    path_before n rt tk r t i <= d < path_before n rt tk r t i + sg_dist s /\
    DestinationTo n d = (true, n') /\
    n_cd n' = d /\
    n_crd n' = d - before rt_dist (n_routes n) r /\
    n_ctd n' = d - before rt_dist (n_routes n) r - before tk_dist (rt_tracks rt) t /\
    n_csd n' = d - path_before n rt tk r t i /\
    n_point n' = point_along s (d - path_before n rt tk r t i) /\
    n_routes n' = n_routes n /\ n_dist n' = n_dist n /\ n_ver n' = n_ver n /\ n_off n' = n_off n /\
    n_elev n' = n_elev n /\ n_skip n' = n_skip n /\ n_rnd n' = n_rnd n /\
    (2 * n_ri n' = r * (r + 1) /\ 2 * n_ti n' = t * (t + 1) /\ n_si n' = i)%Z.
Proof.
  intros Hm Hd. destruct (DestinationTo_spec n d Hm Hd) as (kr & kt & ks & rt & tk & s & A & B & C & D & E).
  exists (Z.of_nat kr), (Z.of_nat kt), (Z.of_nat ks), rt, tk, s. eexists.
  split; [now apply at_pos_nat|]. split; [now apply at_pos_nat|]. split; [now apply at_pos_nat|].
  split; [exact D|]. split; [exact E|]. cbn. unfold path_before.
  repeat split; try ring; try (rewrite acc_index_tri; lia).
Qed.

Lemma C21_below_one_proof n d : d < 1 -> 1 <= n_dist n \/ d <= n_dist n -> DestinationTo n d = (false, n).
Proof.
  intros H H2. unfold DestinationTo. change (?a >? ?b) with (Rlt_bool b a).
  change (?a <? ?b) with (Rlt_bool a b). change (f1 (T := R)) with 1.
  destruct (Rlt_bool_spec (n_dist n) d); rewrite Rlt_bool_true by lra; reflexivity.
Qed.

Lemma C21_beyond_proof n d : n_dist n < d -> DestinationTo n d = DestinationTo n (n_dist n).
Proof.
  intros H. unfold DestinationTo.
  assert (E1 : (d >? n_dist n)%num = true) by (apply Rlt_bool_true; lra).
  assert (E2 : (n_dist n >? n_dist n)%num = false) by (apply Rlt_bool_false; lra).
  rewrite E1, E2. reflexivity.
Qed.

(** DestinationTo(total): the start of the last route, not the end of the path. *)
Lemma jump_routes_end d l : forall i cur ri rd r,
  (forall l1 l2 x, l = l1 ++ x :: l2 -> rd + rsum (map rt_dist l1) + rt_dist x <= d) ->
  l <> [] -> last l r = r ->
  jump_routes d i l cur ri rd = (Some r, (ri + acc_index i (List.length l - 1))%Z, rd + rsum (map rt_dist l)).
Proof.
  induction l as [|x l IH]; intros i cur ri rd r H Hne Hlast; [congruence|].
  cbn [jump_routes]. change (?a >? ?b) with (Rlt_bool b a). cbn [fadd RNum].
  rewrite Rlt_bool_false.
  2:{ pose proof (H [] l x eq_refl) as H0. cbn in H0. rewrite rsum_nil in H0. lra. }
  destruct l as [|y l].
  - cbn in *. subst. rewrite rsum_cons, rsum_nil. f_equal. ring.
  - rewrite (IH _ _ _ _ r).
    + cbn [map List.length Nat.sub]. rewrite (rsum_cons (rt_dist x)).
      replace (S (List.length l) - 0)%nat with (S (List.length l)) by lia. cbn [acc_index].
      rewrite Nat.sub_0_r. f_equal; [|ring]. f_equal. lia.
    + intros l1 l2 z E. pose proof (H (x :: l1) l2 z) as H0. cbn [map app] in H0. rewrite rsum_cons in H0.
      rewrite E in H0. specialize (H0 eq_refl). lra.
    + discriminate.
    + exact Hlast.
Qed.

Lemma Forall_prefix_rsum (l : list R) : Forall (fun x => 0 <= x) l ->
  forall l1 l2 x, l = l1 ++ x :: l2 -> rsum l1 + x <= rsum l.
Proof.
  intros H l1 l2 x ->. rewrite rsum_app, rsum_cons.
  apply Forall_app in H as [_ H]. inversion H; subst. pose proof (rsum_nonneg _ H3). lra.
Qed.

Lemma C21_at_total_proof n pre r t ts s ss : measured n -> 1 <= n_dist n ->
  n_routes n = pre ++ [r] -> rt_tracks r = t :: ts -> tk_segments t = s :: ss -> 0 < sg_dist s ->
  exists n', DestinationTo n (n_dist n) = (true, n') /\
    n_cd n' = n_dist n /\ n_crd n' = 0 /\ n_ctd n' = 0 /\ n_csd n' = 0 /\
    n_point n' = point_along s 0 /\ n_ti n' = 0%Z /\ n_si n' = 0%Z.
Proof.
  intros [Hd Hm] H1 Er Et Es Hs.
  assert (HR : jump_routes (n_dist n) 0 (n_routes n) None 0 0 =
     (Some r, (0 + acc_index 0 (List.length (n_routes n) - 1))%Z, 0 + rsum (map rt_dist (n_routes n)))).
  { apply jump_routes_end.
    - intros l1 l2 x E. rewrite Rplus_0_l, Hd.
      apply (Forall_prefix_rsum (map rt_dist (n_routes n))) with (l2 := map rt_dist l2).
      + apply Forall_map. eapply Forall_impl; [apply measured_route_nonneg|exact Hm].
      + rewrite E, map_app. reflexivity.
    - rewrite Er. destruct pre; discriminate.
    - rewrite Er. apply last_last. }
  eexists. split.
  { unfold DestinationTo. change (?a >? ?b) with (Rlt_bool b a). change (?a <? ?b) with (Rlt_bool a b).
    change (f1 (T := R)) with 1. change (f0 (T := R)) with 0.
    rewrite (Rlt_bool_false (n_dist n) (n_dist n)) by lra. rewrite (Rlt_bool_false (n_dist n) 1) by lra.
    rewrite HR, Et. cbn [jump_tracks]. change (?a >? ?b) with (Rlt_bool b a). cbn [fadd RNum].
    assert (Hmr : measured_route r).
    { rewrite Er in Hm. apply Forall_app in Hm as [_ Hm]. now inversion Hm. }
    destruct Hmr as [_ Hmt]. rewrite Et in Hmt. inversion Hmt as [|? ? [Htd Hts] _]; subst.
    rewrite Es in Htd, Hts. cbn [map] in Htd. rewrite rsum_cons in Htd.
    inversion Hts as [|? ? _ Hss]; subst.
    pose proof (rsum_nonneg (map sg_dist ss)) as Hn. rewrite Forall_map in Hn. specialize (Hn Hss).
    rewrite Rlt_bool_true by lra. rewrite Es. cbn [jump_segments].
    unfold segment_IsEmpty. change (?a =? ?b)%num with (Req_bool a b). change (f0 (T := R)) with 0.
    rewrite Req_bool_false by lra. change (?a >? ?b) with (Rlt_bool b a). cbn [fadd RNum].
    rewrite Rlt_bool_true by lra.
    rewrite Req_bool_false by lra. rewrite DestinationTo_along. cbn [fabs fsub RNum].
    replace (n_dist n - (0 + rsum (map rt_dist (n_routes n)))) with 0 by lra.
    rewrite Rabs_R0. reflexivity. }
  cbn. repeat split; try ring. lra.
Qed.

(** ** measured navigators are the reachable ones *)

Lemma set_nth_Forall {A} (P : A -> Prop) i x l : Forall P l -> P x -> Forall P (set_nth i x l).
Proof.
  intros H Hx. revert i. induction H; intros [|i]; cbn; constructor; auto.
Qed.
Lemma del_nth_Forall {A} (P : A -> Prop) i l : Forall P l -> Forall P (del_nth i l).
Proof.
  intros H. revert i. induction H; intros [|i]; cbn; auto.
Qed.

Lemma upd_track_measured r i f : measured_route r ->
  (forall t, tk_dist (f t) = tk_dist t /\ tk_segments (f t) = tk_segments t) ->
  measured_route (upd_track r i f).
Proof.
  intros [H1 H2] Hf. unfold upd_track. destruct (nth_error (rt_tracks r) i) as [t|] eqn:E; [|now split].
  split; cbn.
  - rewrite H1. f_equal. symmetry. eapply map_set_nth_same; [exact E|apply Hf].
  - apply set_nth_Forall; [exact H2|].
    assert (Ht : measured_track t) by (eapply Forall_forall; [exact H2|eapply nth_error_In; exact E]).
    unfold measured_track. destruct (Hf t) as [-> ->]. exact Ht.
Qed.

Lemma route_op_measured r o : measured_route r ->
  match o with RAddTrack (Some t) => measured_track t | _ => True end ->
  measured_route (run_route r o).
Proof.
  intros H Ho. destruct o; cbn [run_route].
  - apply AddTrack_measured; [exact H|]. intros x ->. exact Ho.
  - pose proof (run_route_step r (RRemoveTrack id)) as [_ E].
    { unfold route_inv. rewrite fsum_rsum. apply H. }
    split; [rewrite <- fsum_rsum; exact E|].
    cbn. unfold route_RemoveTrack. destruct (_ || _)%bool; [apply H|].
    destruct (find_index _ _); cbn; [apply del_nth_Forall, H|apply H].
  - unfold TrackByID. destruct (_ || _)%bool; [exact H|]. destruct (find _ _); exact H.
  - unfold route_ChangeName. destruct (ParseName name); exact H.
  - unfold route_ChangeColor. destruct hex; exact H.
  - unfold route_Props. destruct (rt_props r); exact H.
  - apply upd_track_measured; [exact H|]. intros t. unfold track_ChangeName. destruct (ParseName name); split; reflexivity.
  - apply upd_track_measured; [exact H|]. intros t. unfold track_ChangeColor. destruct parsed; split; reflexivity.
  - apply upd_track_measured; [exact H|]. intros t. unfold track_Props. destruct (tk_props t); split; reflexivity.
Qed.

Lemma fresh_In (rs : list (option (route R))) : forall ids r, In r (fresh_routes ids rs) -> In (Some r) rs.
Proof.
  induction rs as [|[x|] rs IH]; intros ids r H; cbn in *; [tauto| |right; eauto].
  destruct (in_dec _ _ _); [right; eauto|]. destruct H as [->|H]; [now left|right; eauto].
Qed.

Section M.
Context {J : JsonLib R}.

Lemma measured_routes_step n o n' : measured_op o ->
  Forall measured_route (n_routes n) -> run_nav n o = Ret n' -> Forall measured_route (n_routes n').
Proof.
  intros [Hk Ho] Hm H.
  assert (Q : travels o \/ ~ travels o) by (destruct o; cbn; auto).
  destruct Q as [Q|Q]; [rewrite (run_nav_stable n_routes stable_routes n _ n' Q H); exact Hm|].
  destruct o; cbn in Q; try tauto.
  - cbn in H. injection H as <-. destruct (C17_proof n rs) as [P1 P2].
    destruct rs as [|x rs]; [now rewrite (P1 eq_refl)|].
    destruct P2 as (n' & E & E1 & _); [discriminate|]. rewrite E. cbn. rewrite E1.
    apply Forall_app. split; [exact Hm|]. apply Forall_forall. intros r Hr. apply Ho.
    eapply fresh_In, Hr.
  - cbn in H. injection H as <-. unfold nav_ResetRoutes. destruct (n_routes n) eqn:E; cbn; [now rewrite E|constructor].
  - cbn in H. injection H as <-. destruct (C18_proof n id) as [(r & rest & _ & _ & _ & Hrm & n' & E & E1 & _)|(_ & E & _)].
    + rewrite E. cbn. rewrite E1. destruct Hrm as (pre & x & post & E2 & -> & _).
      rewrite E2 in Hm. apply Forall_app in Hm as [A B]. inversion B; subst. apply Forall_app. now split.
    + rewrite E. exact Hm.
  - cbn in H. injection H as <-. exact Hm.
  - cbn in H. injection H as <-. unfold nav_mutateRoute.
    destruct (nth_error (n_routes n) i) as [r|] eqn:E; [|exact Hm]. cbn.
    apply set_nth_Forall; [exact Hm|]. apply route_op_measured.
    + eapply Forall_forall; [exact Hm|eapply nth_error_In; exact E].
    + destruct o; try exact I. contradiction.
Qed.

Lemma measured_step n o n' : measured_op o -> measured n -> run_nav n o = Ret n' -> measured n'.
Proof.
  intros Ho [H1 H2] H. split; [|eapply measured_routes_step; eassumption].
  rewrite <- fsum_rsum in *. eapply total_step; [apply Ho|exact H1|exact H].
Qed.

Lemma measured_start opts uuid draws n : navigator_New opts uuid draws = GOk n -> measured n.
Proof.
  intros H. apply New_start in H as (E1 & _ & E2 & _). unfold measured. rewrite E1. split; [|constructor].
  cbn [map]. rewrite rsum_nil. exact E2.
Qed.

Lemma measured_history opts uuid draws n0 ops n : navigator_New opts uuid draws = GOk n0 ->
  Forall measured_op ops -> run_navs n0 ops = Ret n -> measured n.
Proof.
  intros H0 Hops. assert (Hm : measured n0) by (eapply measured_start; exact H0). clear H0.
  revert n0 Hm. induction Hops as [|o ops Ho Hops IH]; intros n0 Hm H; cbn in H.
  - now injection H as <-.
  - destruct (run_nav n0 o) as [n1| |] eqn:E; try discriminate. cbn in H.
    eapply IH; [|exact H]. eapply measured_step; eassumption.
Qed.
End M.
