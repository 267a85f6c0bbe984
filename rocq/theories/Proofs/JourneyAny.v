(** C81: journeys in any arithmetic. *)
From Coq Require Import Lia.
From Verif.Model Require Import Base Num Geo Curve PropMap Types TypesSnap Track Route Navigator.
From Verif.Spec Require Import ListSpec TrackSpec RouteSpec NavSpec NumLaws RealSpec JourneySpec.
From Verif.Proofs Require Import BaseLemmas TrackLemmas RouteLemmas TrackRouteProofs NavLemmas NavSteps
  NavProofs NavProofs2 NavProofs3 NavReal6 JourneyHist.
Open Scope num_scope.

Definition zsum (l : list Z) : Z := fold_right Z.add 0%Z l.
Definition zbefore {A} (f : A -> Z) (l : list A) (i : Z) : Z := zsum (map f (firstn (Z.to_nat i) l)).

Lemma zsum_app a b : zsum (a ++ b) = (zsum a + zsum b)%Z.
Proof. induction a; cbn; [reflexivity|]. unfold zsum in *. lia. Qed.
Lemma zsum_nonneg {A} (f : A -> Z) l : Forall (fun x => 0 <= f x)%Z l -> (0 <= zsum (map f l))%Z.
Proof. induction 1; cbn; [lia|]. unfold zsum in *. lia. Qed.

Lemma zsum_firstn_S {A} (f : A -> Z) k : forall l x, nth_error l k = Some x ->
  zsum (map f (firstn (S k) l)) = (zsum (map f (firstn k l)) + f x)%Z.
Proof.
  induction k; intros l x H; destruct l as [|y l]; try discriminate; cbn in H.
  - injection H as ->. change (f x + 0 = 0 + f x)%Z. lia.
  - specialize (IHk l x H). cbn [firstn map] in *. unfold zsum in *. cbn [fold_right] in *. lia.
Qed.
Lemma zbefore_step {A} (f : A -> Z) l i x : zget l i = Some x -> zbefore f l (i + 1) = (zbefore f l i + f x)%Z.
Proof.
  intros H. pose proof (zget_Some_range _ _ _ H) as R. unfold zbefore.
  replace (Z.to_nat (i + 1)) with (S (Z.to_nat i)) by lia. apply zsum_firstn_S.
  apply zget_at_pos in H. destruct H as (_ & H). exact H.
Qed.
Lemma zbefore_total {A} (f : A -> Z) l i : Forall (fun x => 0 <= f x)%Z l -> (zbefore f l i <= zsum (map f l))%Z.
Proof.
  intros H. unfold zbefore. rewrite <- (firstn_skipn (Z.to_nat i) l) at 2. rewrite map_app, zsum_app.
  assert (0 <= zsum (map f (skipn (Z.to_nat i) l)))%Z; [|lia].
  apply zsum_nonneg. rewrite Forall_forall in *. intros x Hx. apply H.
  rewrite <- (firstn_skipn (Z.to_nat i) l). apply in_or_app. now right.
Qed.
Lemma zbefore_at {A} (f : A -> Z) l i x : Forall (fun x => 0 <= f x)%Z l -> zget l i = Some x ->
  (zbefore f l i + f x <= zsum (map f l))%Z.
Proof. intros H E. rewrite <- (zbefore_step f l i x E). now apply zbefore_total. Qed.
Lemma zbefore_0 {A} (f : A -> Z) l : zbefore f l 0 = 0%Z. Proof. reflexivity. Qed.
Lemma zbefore_mono {A} (f : A -> Z) l : Forall (fun x => 0 <= f x)%Z l -> forall k i, (0 <= i)%Z ->
  (zbefore f l i <= zbefore f l (i + Z.of_nat k))%Z.
Proof.
  intros H. induction k; intros i Hi; [rewrite Z.add_0_r; lia|].
  rewrite Nat2Z.inj_succ. replace (i + Z.succ (Z.of_nat k))%Z with (i + Z.of_nat k + 1)%Z by lia.
  specialize (IHk i Hi). destruct (zget l (i + Z.of_nat k)) as [x|] eqn:E.
  - rewrite (zbefore_step f l _ x E). apply zget_In in E. rewrite Forall_forall in H. specialize (H x E). lia.
  - apply zget_None in E. unfold zbefore in *. unfold zlen in E.
    rewrite (firstn_all2 (n := Z.to_nat (i + Z.of_nat k + 1))) by lia.
    rewrite (firstn_all2 (n := Z.to_nat (i + Z.of_nat k))) in IHk by lia. lia.
Qed.

Section S.
Context {T : Type} {N : Num T} {J : JsonLib T}.
Hypothesis Z0 : zero_eq_zero N.
Implicit Types n : navigator T.

Definition cur_tracks n : list (track T) := match cur_route n with Some r => rt_tracks r | None => [] end.
Definition cur_segs n : list (segment T) := match cur_track n with Some t => tk_segments t | None => [] end.

Lemma cur_track_zget n t : cur_track n = Some t -> exists r, cur_route n = Some r /\ zget (rt_tracks r) (n_ti n) = Some t.
Proof.
  unfold cur_track. destruct (cur_route n) as [r|]; [|discriminate]. intros H. exists r. split; [reflexivity|].
  now apply TrackAt_Some, zget_at_pos in H.
Qed.
Lemma cur_track_None n r : cur_route n = Some r -> cur_track n = None -> ~ (0 <= n_ti n < zlen (rt_tracks r))%Z.
Proof.
  unfold cur_track. intros -> H Hr. apply zget_range in Hr as (t & Hr).
  apply zget_at_pos, TrackAt_Some in Hr. congruence.
Qed.
Lemma cur_track_segs n r t : cur_route n = Some r -> zget (rt_tracks r) (n_ti n) = Some t -> cur_segs n = tk_segments t.
Proof.
  intros Er Et. unfold cur_segs, cur_track. rewrite Er. destruct (TrackAt r (n_ti n)) as [t'|] eqn:F.
  - apply TrackAt_Some, zget_at_pos in F. congruence.
  - exfalso. apply (cur_track_None n r Er); [unfold cur_track; now rewrite Er|]. now apply zget_Some_range in Et.
Qed.
Lemma nonempty_zget n : segment_IsEmpty (cur_seg n) = false -> zget (cur_segs n) (n_si n) = Some (cur_seg n).
Proof.
  intros H. unfold cur_seg in *. destruct (seg_of_nonempty _ _ Z0 H) as (t & E1 & E2).
  unfold cur_segs. rewrite E1 in *. exact E2.
Qed.
Lemma out_empty n : zget (cur_segs n) (n_si n) = None -> segment_IsEmpty (cur_seg n) = true.
Proof.
  intros H. destruct (segment_IsEmpty (cur_seg n)) eqn:E; [reflexivity|]. apply nonempty_zget in E. congruence.
Qed.
Lemma fits_cases n d : fits n d = true -> segment_IsEmpty (cur_seg n) = false /\ (n_csd n + d <=? sg_dist (cur_seg n)) = true.
Proof. unfold fits. destruct (segment_IsEmpty (cur_seg n)); [discriminate|auto]. Qed.

Lemma seg_in_routes n : segment_IsEmpty (cur_seg n) = false -> exists r t,
  In r (n_routes n) /\ In t (rt_tracks r) /\ In (cur_seg n) (tk_segments t).
Proof.
  intros H. apply nonempty_zget in H. unfold cur_segs in H. destruct (cur_track n) as [t|] eqn:E; [|now rewrite zget_nil in H].
  apply cur_track_zget in E as (r & Er & Et). exists r, t.
  split; [eapply zget_In; exact Er|]. split; [eapply zget_In; exact Et|eapply zget_In; exact H].
Qed.

(** ** completion *)
Section C.
Variables (K : Z) (used : T -> Z) (good : T -> Prop) (seg_ok : T -> bool) (pos : T -> Prop).
Hypothesis HK : (0 <= K)%Z.
Hypothesis U0 : used f0 = 0%Z.
Hypothesis P0 : pos f0.
Hypothesis Htenth : (fdec 1 10 =? fdec 1 10) = true.
Hypothesis Hgain : forall c d x, pos c -> good d -> seg_ok x = true -> (c + d <=? x) = true ->
  pos (c + d) /\ (used c + 1 <= used (c + d)%num <= K)%Z.

Definition ws (s : segment T) : Z := (K + 1)%Z.
Definition wt (t : track T) : Z := (zsum (map ws (tk_segments t)) + 1)%Z.
Definition wr (r : route T) : Z := (zsum (map wt (rt_tracks r)) + 1)%Z.

Lemma ws_nonneg l : Forall (fun s => 0 <= ws s)%Z l.
Proof. apply Forall_forall. intros s _. unfold ws. lia. Qed.
Lemma wt_nonneg l : Forall (fun s => 0 <= wt s)%Z l.
Proof. apply Forall_forall. intros s _. unfold wt. pose proof (zsum_nonneg ws _ (ws_nonneg (tk_segments s))). lia. Qed.
Lemma wr_nonneg l : Forall (fun s => 0 <= wr s)%Z l.
Proof. apply Forall_forall. intros s _. unfold wr. pose proof (zsum_nonneg wt _ (wt_nonneg (rt_tracks s))). lia. Qed.

Definition at_s n := (zbefore ws (cur_segs n) (n_si n) + used (n_csd n))%Z.
Definition at_t n := zbefore wt (cur_tracks n) (n_ti n).
Definition at_r n := zbefore wr (n_routes n) (n_ri n).

Definition placed n : Prop :=
  Forall (lengths_ok seg_ok) (n_routes n) /\ pos (n_csd n) /\ (0 <= used (n_csd n) <= K)%Z /\
  (segment_IsEmpty (cur_seg n) = true -> n_csd n = f0) /\ (0 <= n_si n)%Z /\ (0 <= n_ti n)%Z /\ (0 <= n_ri n)%Z.

Lemma zero_placed n : Forall (lengths_ok seg_ok) (n_routes n) -> n_csd n = f0 ->
  (0 <= n_si n)%Z -> (0 <= n_ti n)%Z -> (0 <= n_ri n)%Z -> placed n.
Proof. intros H E A B C. unfold placed. rewrite E, U0. repeat split; auto; lia. Qed.

Lemma at_s_le n : placed n -> (at_s n <= zsum (map ws (cur_segs n)))%Z.
Proof.
  intros (_ & _ & Hu & Hc & _). unfold at_s.
  destruct (zget (cur_segs n) (n_si n)) as [s|] eqn:E.
  - pose proof (zbefore_at ws _ _ _ (ws_nonneg _) E) as B. unfold ws in B at 2. lia.
  - rewrite Hc, U0 by now apply out_empty. pose proof (zbefore_total ws (cur_segs n) (n_si n) (ws_nonneg _)). lia.
Qed.
Lemma at_t_le n : (at_t n + zsum (map ws (cur_segs n)) <= zsum (map wt (cur_tracks n)))%Z.
Proof.
  unfold at_t, cur_segs. destruct (cur_track n) as [t|] eqn:E.
  - apply cur_track_zget in E as (r & Er & Et). unfold cur_tracks in *. rewrite Er in *.
    pose proof (zbefore_at wt _ _ _ (wt_nonneg _) Et) as B. unfold wt in B at 2. lia.
  - pose proof (zbefore_total wt (cur_tracks n) (n_ti n) (wt_nonneg _)). cbn [map zsum fold_right]. lia.
Qed.
Lemma at_r_le n : (at_r n + zsum (map wt (cur_tracks n)) <= zsum (map wr (n_routes n)))%Z.
Proof.
  unfold at_r, cur_tracks. destruct (cur_route n) as [r|] eqn:E.
  - pose proof (zbefore_at wr _ _ _ (wr_nonneg _) E) as B. unfold wr in B at 2. lia.
  - pose proof (zbefore_total wr (n_routes n) (n_ri n) (wr_nonneg _)). cbn [map zsum fold_right]. lia.
Qed.

Lemma passed_at_s n k : placed n ->
  (forall j, (j < k)%nat -> segment_IsEmpty (cur_seg (passed n j)) = false) ->
  (at_s (passed n k) >= at_s n + (match k with O => 0 | _ => 1 end))%Z.
Proof.
  intros Hp Hk. destruct k as [|k]; [cbn [passed]; lia|]. pose proof Hp as (_ & _ & Hu & _ & Hs & _).
  pose proof (nonempty_zget n (Hk 0%nat ltac:(lia))) as Es.
  unfold at_s. rewrite passed_csd, U0.
  assert (Ec : cur_segs (passed n (S k)) = cur_segs n) by (unfold cur_segs; now rewrite passed_cur_track).
  rewrite Ec. destruct (passed_same n (S k)) as (_ & _ & _ & -> & _).
  replace (n_si n + Z.of_nat (S k))%Z with (n_si n + 1 + Z.of_nat k)%Z by lia.
  pose proof (zbefore_mono ws (cur_segs n) (ws_nonneg _) k (n_si n + 1)%Z ltac:(lia)) as B.
  rewrite (zbefore_step _ _ _ _ Es) in B. unfold ws in B at 2. lia.
Qed.
Lemma passed_at_t n k : at_t (passed n k) = at_t n /\ at_r (passed n k) = at_r n.
Proof. destruct k; split; reflexivity. Qed.

Lemma passed_placed n k : placed n -> placed (passed n k).
Proof.
  intros Hp. destruct k as [|k]; [exact Hp|]. destruct Hp as (H & _ & _ & _ & Hs & Ht & Hr).
  apply zero_placed; cbn; auto; lia.
Qed.

Lemma leave_cases n : idx_ok n -> n_routes n <> [] -> placed n ->
  (exists r t, cur_route n = Some r /\ zget (rt_tracks r) (n_ti n) = Some t /\
     leave n = set_idx (set_cur n f0 (n_crd n) f0 (n_cd n)) (n_ri n) (n_ti n + 1)%Z 0) \/
  (exists r, cur_route n = Some r /\
     leave n = set_idx (set_cur n f0 f0 f0 (n_cd n)) (n_ri n + 1)%Z 0 0) \/
  leave n = set_cur (set_idx n 0 0 0) f0 f0 f0 (fdec 1 10).
Proof.
  intros [H|Hi] Hne (_ & _ & _ & _ & Hs & Ht & Hr); [contradiction|].
  apply zget_range in Hi as (r & Er). change (cur_route n = Some r) in Er.
  unfold leave. cbn. change (cur_route (set_cur n f0 (n_crd n) f0 (n_cd n))) with (cur_route n). rewrite Er.
  destruct (Z.ltb_spec (n_ti n) (NumTracks r - 1)) as [Hl|Hl].
  - left. destruct (zget_range (rt_tracks r) (n_ti n)) as (t & Et); [unfold NumTracks in Hl; lia|].
    exists r, t. auto.
  - right. destruct (_ <? _)%Z; [left; exists r; auto|right; reflexivity].
Qed.

Lemma off_pure_at n draw : at_r (off_pure n draw) = at_r n /\ at_t (off_pure n draw) = at_t n /\ at_s (off_pure n draw) = at_s n.
Proof. unfold off_pure. destruct (n_skip n); [auto|]. destruct (n_rnd n); auto. Qed.

Lemma off_pure_placed n draw : placed n -> placed (off_pure n draw).
Proof. unfold off_pure. destruct (n_skip n); [auto|]. destruct (n_rnd n); auto. Qed.

Lemma completes_leave n draw : let n' := off_pure (set_cur (set_idx n 0 0 0) f0 f0 f0 (fdec 1 10)) draw in
  position n' = (0, 0, 0)%Z /\ fst (IsFinish n') = true.
Proof.
  cbn zeta. destruct (off_pure_rest (set_cur (set_idx n 0 0 0) f0 f0 f0 (fdec 1 10)) draw)
    as (E1 & E2 & E3 & E4 & E5 & E6 & E7 & E8 & _).
  split; [unfold position; rewrite E2, E3, E4; reflexivity|].
  unfold IsFinish. rewrite E2, E3, E4, E8. cbn. now rewrite Htenth.
Qed.

Lemma step_gain n d draw b n' : good d -> idx_ok n -> n_routes n <> [] -> placed n ->
  step n d draw b n' ->
  (position n' = (0, 0, 0)%Z /\ b = false /\ fst (IsFinish n') = true) \/
  (at_r n + at_t n + at_s n + 1 <= at_r n' + at_t n' + at_s n')%Z.
Proof.
  intros Hg Hi Hne Hp H.
  destruct H as [k Hk Hf|k Hk Hf Hl|k Hk Hf Hl Hemp Hrel].
  - right. pose proof (passed_at_s n k Hp) as B. specialize (B ltac:(intros j Hj; apply (Hk j Hj))).
    destruct (passed_at_t n k) as [B1 B2]. apply fits_cases in Hf as [He Hle].
    pose proof (passed_placed n k Hp) as (Hok & Hpos & _).
    assert (Hs : seg_ok (sg_dist (cur_seg (passed n k))) = true).
    { destruct (seg_in_routes _ He) as (r & t & I1 & I2 & I3). rewrite Forall_forall in Hok.
      specialize (Hok r I1). unfold lengths_ok in Hok. rewrite Forall_forall in Hok. specialize (Hok t I2).
      rewrite Forall_forall in Hok. exact (Hok _ I3). }
    destruct (Hgain _ _ _ Hpos Hg Hs Hle) as [_ G].
    assert (E : at_s (advance (passed n k) d) = (at_s (passed n k) - used (n_csd (passed n k)) + used (n_csd (passed n k) + d)%num)%Z).
    { unfold at_s. change (n_si (advance (passed n k) d)) with (n_si (passed n k)).
      change (cur_segs (advance (passed n k) d)) with (cur_segs (passed n k)).
      change (n_csd (advance (passed n k) d)) with (n_csd (passed n k) + d). lia. }
    change (at_r (advance (passed n k) d)) with (at_r (passed n k)).
    change (at_t (advance (passed n k) d)) with (at_t (passed n k)).
    rewrite E, B1, B2. destruct k; lia.
  - pose proof (at_s_le n Hp) as S1.
    destruct (off_pure_at (leave n) draw) as (-> & -> & ->).
    destruct (leave_cases n Hi Hne Hp) as [(r & t & Er & Et & E)|[(r & Er & E)|E]]; rewrite E.
    + right. set (m := set_idx _ _ _ _).
      assert (Er' : cur_route m = Some r) by exact Er.
      assert (A1 : at_r m = at_r n) by reflexivity.
      assert (A2 : at_t m = (at_t n + wt t)%Z).
      { unfold at_t, cur_tracks. rewrite Er', Er. apply (zbefore_step wt). exact Et. }
      assert (A3 : at_s m = 0%Z) by (unfold at_s; cbn -[zbefore]; rewrite zbefore_0, U0; reflexivity).
      rewrite A1, A2, A3. unfold wt. rewrite <- (cur_track_segs n r t Er Et). lia.
    + right. set (m := set_idx _ _ _ _).
      assert (A1 : at_r m = (at_r n + wr r)%Z) by (apply (zbefore_step wr); exact Er).
      assert (A2 : at_t m = 0%Z) by (unfold at_t; apply zbefore_0).
      assert (A3 : at_s m = 0%Z) by (unfold at_s; cbn -[zbefore]; rewrite zbefore_0, U0; reflexivity).
      pose proof (at_t_le n) as B. unfold cur_tracks in B. rewrite Er in B.
      rewrite A1, A2, A3. unfold wr. lia.
    + left. destruct (completes_leave n draw) as (P & F). auto.
  - right. pose proof (passed_at_s n (S k) Hp) as B.
    specialize (B ltac:(intros j Hj; destruct (Nat.eq_dec j k) as [->|]; [exact Hemp|apply (Hk j); lia])).
    destruct (passed_at_t n (S k)) as [B1 B2].
    destruct (off_pure_at (passed n (S k)) draw) as (-> & -> & ->). cbn match in B. lia.
Qed.

Lemma step_placed n d draw b n' : good d -> placed n -> idx_ok n -> n_routes n <> [] ->
  step n d draw b n' -> placed n' /\ n_routes n' = n_routes n.
Proof.
  intros Hg Hp Hi Hne H.
  destruct H as [k Hk Hf|k Hk Hf Hl|k Hk Hf Hl Hemp Hrel].
  - pose proof (passed_placed n k Hp) as (Hok & Hpos & Hu & Hc & Hs & Ht & Hr). apply fits_cases in Hf as [He Hle].
    assert (Hsg : seg_ok (sg_dist (cur_seg (passed n k))) = true).
    { destruct (seg_in_routes _ He) as (r & t & I1 & I2 & I3). rewrite Forall_forall in Hok.
      specialize (Hok r I1). unfold lengths_ok in Hok. rewrite Forall_forall in Hok. specialize (Hok t I2).
      rewrite Forall_forall in Hok. exact (Hok _ I3). }
    destruct (Hgain _ _ _ Hpos Hg Hsg Hle) as [G1 G2].
    split; [|destruct (passed_same n k) as (E1 & _); exact E1].
    split; [exact Hok|]. split; [exact G1|]. split; [change (0 <= used (n_csd (passed n k) + d)%num <= K)%Z; lia|].
    split; [|auto]. intros X. change (segment_IsEmpty (cur_seg (passed n k)) = true) in X. congruence.
  - destruct (off_pure_rest (leave n) draw) as (E1 & _). split; [apply off_pure_placed|rewrite E1; apply leave_routes].
    pose proof Hp as (Hok & _ & _ & _ & Hs & Ht & Hr).
    destruct (leave_cases n Hi Hne Hp) as [(r & t & Er & Et & E)|[(r & Er & E)|E]]; rewrite E; apply zero_placed; cbn; auto; lia.
  - destruct (off_pure_rest (passed n (S k)) draw) as (E1 & _).
    split; [apply off_pure_placed; now apply passed_placed|]. rewrite E1. apply passed_same.
Qed.

Lemma offline_tick_now n : offline_tick n = true <-> offline_now n.
Proof.
  unfold offline_tick, offline_now. destruct (n_skip n); cbn; [split; [discriminate|intros []; discriminate]|].
  rewrite Z.ltb_lt. tauto.
Qed.

Definition waits n : Z := if n_skip n then 0%Z else Z.max 0 (n_off n).

Lemma completes_within M W : (0 <= M)%Z -> forall args n, nav_wf n -> placed n -> n_routes n <> [] -> offline_at_most M n ->
  W = zsum (map wr (n_routes n)) ->
  Forall (fun a => good (fst (fst a) * snd (fst a)) /\ uint32 (snd a)) args ->
  (waits n + (M + 1) * (W - (at_r n + at_t n + at_s n)) < Z.of_nat (List.length args))%Z ->
  completion_among n args.
Proof.
  intros HM. induction args as [|[[tick speed] draw] args IH]; intros n Hw Hp Hne Ho HW Hargs Hb.
  - exfalso. cbn in Hb. pose proof (at_s_le n Hp). pose proof (at_t_le n). pose proof (at_r_le n).
    assert (0 <= waits n)%Z by (unfold waits; destruct (n_skip n); lia).
    nia.
  - pose proof (Forall_inv Hargs) as [Ha Hu]. cbn in Ha, Hu. apply Forall_inv_tail in Hargs.
    cbn [List.length] in Hb. rewrite Nat2Z.inj_succ in Hb.
    destruct (NextLocation_wf Z0 n tick speed draw Hw) as (b & n1 & E & Hw1).
    assert (Hcons : completion_among n1 args -> completion_among n ((tick, speed, draw) :: args)).
    { intros (pre & tk & sp & dr & post & bs & n3 & b3 & n4 & -> & G1 & G).
      exists ((tick, speed, draw) :: pre), tk, sp, dr, post, (b :: bs), n3, b3, n4.
      split; [reflexivity|]. split; [|exact G]. cbn. rewrite E. cbn. rewrite G1. reflexivity. }
    destruct (NextLocation_inv Z0 _ _ _ _ _ _ E)
      as [(X & _)|[(_ & Off & -> & ->)|(_ & Off & Hi & St)]]; [contradiction| |].
    + apply Hcons, IH; auto.
      * destruct Ho as [Ho1 Ho2]. split; [cbn; lia|exact Ho2].
      * change (at_r (set_off n (n_off n - 1))) with (at_r n).
        change (at_t (set_off n (n_off n - 1))) with (at_t n).
        change (at_s (set_off n (n_off n - 1))) with (at_s n).
        apply offline_tick_now in Off as [O1 O2].
        assert (Ew : waits n = (waits (set_off n (n_off n - 1)) + 1)%Z).
        { unfold waits. cbn. rewrite O1. lia. }
        lia.
    + assert (Hon : ~ offline_now n) by (rewrite <- offline_tick_now; congruence).
      destruct (step_gain n _ _ _ _ Ha Hi Hne Hp St) as [(P & -> & F)|G].
      * exists [], tick, speed, draw, args, [], n, false, n1. unfold completes. repeat split; auto.
      * destruct (step_placed _ _ _ _ _ Ha Hp Hi Hne St) as (Q1 & Q4).
        destruct (step_off _ _ _ _ _ St) as (S1 & S2 & S3). destruct Ho as [Ho1 Ho2].
        apply Hcons, IH; auto.
        -- congruence.
        -- split; [|rewrite S2; exact Ho2]. destruct S3 as [->|(r & Er & ->)]; [exact Ho1|now apply (Ho2 r draw)].
        -- rewrite Q4. exact HW.
        -- assert (W0 : waits n = 0%Z).
           { unfold waits. unfold offline_now in Hon. destruct (n_skip n); [reflexivity|].
             assert (~ (0 < n_off n)%Z) by tauto. lia. }
           assert (W1 : (waits n1 <= M)%Z).
           { unfold waits. destruct (n_skip n1); [exact HM|].
             destruct S3 as [->|(r & Er & ->)]; [|specialize (Ho2 r draw Er Hu)]; lia. }
           nia.
Qed.

Lemma zsum_wr n : zsum (map wr (n_routes n)) =
  ((K + 1) * count_segments n + count_tracks n + zlen (n_routes n))%Z.
Proof.
  unfold count_segments, count_tracks. induction (n_routes n) as [|r l IH]; [unfold zlen, zsum; cbn [map fold_right List.length Z.of_nat]; lia|].
  cbn [map zsum fold_right]. fold (zsum (map wr l)). rewrite zlen_cons, IH.
  assert (Er : wr r = ((K + 1) * zsum (map (fun t => zlen (tk_segments t)) (rt_tracks r)) + zlen (rt_tracks r) + 1)%Z).
  { unfold wr. induction (rt_tracks r) as [|t lt IHt]; [unfold zlen, zsum; cbn [map fold_right List.length Z.of_nat]; lia|]. cbn [map zsum fold_right].
    fold (zsum (map wt lt)). fold (zsum (map (fun t => zlen (tk_segments t)) lt)). rewrite zlen_cons.
    assert (Et : wt t = ((K + 1) * zlen (tk_segments t) + 1)%Z).
    { unfold wt. induction (tk_segments t) as [|s ls IHs]; [unfold zlen, zsum; cbn [map fold_right List.length Z.of_nat]; lia|]. cbn [map zsum fold_right].
      fold (zsum (map ws ls)). rewrite zlen_cons. unfold ws at 1. lia. }
    lia. }
  unfold zsum in Er. lia.
Qed.

Hypothesis Hpos : forall c, pos c -> (0 <= used c <= K)%Z.

Lemma count_segments_nonneg n : (0 <= count_segments n)%Z.
Proof.
  unfold count_segments. apply (zsum_nonneg (fun r => fold_right Z.add 0%Z (map (fun t => zlen (tk_segments t)) (rt_tracks r)))).
  apply Forall_forall. intros r _. apply (zsum_nonneg (fun t => zlen (tk_segments t))).
  apply Forall_forall. intros t _. apply zlen_nonneg.
Qed.

Lemma completes_reached (fwd : T -> Prop) :
  (forall c d x, pos c -> fwd d -> seg_ok x = true -> (c + d <=? x) = true -> pos (c + d)) ->
  forall opts uuid draws n0 ops n args,
  navigator_New opts uuid draws = GOk n0 ->
  Forall (lengths_op seg_ok) ops -> Forall uint32_op ops -> run_navs n0 ops = Ret n ->
  rewound n \/ Forall no_jump_op ops /\ Forall (fwd_op fwd) ops -> n_routes n <> [] ->
  Forall (fun a => good (fst (fst a) * snd (fst a)) /\ uint32 (snd a)) args ->
  (Z.max 0 (n_off n) + 3601 * ((K + 1) * count_segments n + count_tracks n + zlen (n_routes n))
     < Z.of_nat (List.length args))%Z ->
  completion_among n args.
Proof.
  intros Hkeep opts uuid draws n0 ops n args H0 Ho Hu H Hr Hne Ha Hl.
  assert (A : nav_wf n /\ placed n).
  { destruct Hr as [Hr|[Hj Hf]].
    - split; [eapply reach_wf; [exact H0|exact H|now apply rewound_on]|].
      pose proof (rewound_nonneg n Hr) as (E & P1 & P2 & P3). apply zero_placed; auto.
      eapply lengths_history; eassumption.
    - destruct (inv_history Z0 seg_ok fwd (fun c _ => pos c)
                  ltac:(intros; exact P0) ltac:(intros c y d x; apply Hkeep) _ _ _ _ _ _ H0 Ho Hj Hf H)
        as (W & L & (P1 & P2 & P3) & E & Q).
      split; [exact W|]. unfold placed. repeat split; auto; apply Hpos; exact Q. }
  destruct A as [W P].
  eapply (completes_within 3600); try eassumption; try lia; [|reflexivity|].
  - eapply (C27_offline_proof Z0); eassumption.
  - rewrite zsum_wr.
    assert (B : (0 <= at_r n + at_t n + at_s n)%Z).
    { pose proof P as (_ & _ & B & _). unfold at_r, at_t, at_s, zbefore.
      pose proof (zsum_nonneg ws (firstn (Z.to_nat (n_si n)) (cur_segs n)) (ws_nonneg _)).
      pose proof (zsum_nonneg wt (firstn (Z.to_nat (n_ti n)) (cur_tracks n)) (wt_nonneg _)).
      pose proof (zsum_nonneg wr (firstn (Z.to_nat (n_ri n)) (n_routes n)) (wr_nonneg _)). lia. }
    assert (D : (waits n <= Z.max 0 (n_off n))%Z) by (unfold waits; destruct (n_skip n); lia).
    lia.
Qed.
End C.
End S.
