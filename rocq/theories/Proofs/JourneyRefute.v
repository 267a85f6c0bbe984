(** C81: what binary64 arithmetic breaks. *)
From Coq Require Import Reals Lia.
From Flocq Require Import Core BinarySingleNaN.
From Verif.Model Require Import Base Num NumF64 Geo Curve PropMap Types TypesSnap Track Route Navigator.
From Verif.Spec Require Import ListSpec TrackSpec RouteSpec NavSpec NumLaws RealSpec JourneySpec.
From Verif.Proofs Require Import BaseLemmas TrackLemmas RouteLemmas NavLemmas NavSteps JourneyHist JourneyAny.
Open Scope num_scope.

Lemma Ret_inj {A} (x y : A) : Ret x = Ret y -> x = y. Proof. now intros [= ->]. Qed.

Lemma only_one {A} (x y : A) : In (Some x) [Some y] -> x = y.
Proof. intros [H|[]]. now inversion H. Qed.

Section Any.
Context {T : Type} {N : Num T} {J : JsonLib T}.
Implicit Types n : navigator T.

Lemma step_fits n d draw b n' : fits n d = true -> step n d draw b n' -> b = true /\ n' = advance n d.
Proof.
  intros F [k Hk Hf|k Hk Hf Hl|k Hk Hf Hl He Hr].
  - destruct k as [|k]; [auto|]. destruct (Hk 0%nat ltac:(lia)) as (X & _). cbn [passed] in X. congruence.
  - destruct k as [|k]; [cbn [passed] in Hf; congruence|]. destruct (Hk 0%nat ltac:(lia)) as (X & _). cbn [passed] in X. congruence.
  - destruct k as [|k]; [cbn [passed] in Hf; congruence|]. destruct (Hk 0%nat ltac:(lia)) as (X & _). cbn [passed] in X. congruence.
Qed.

Lemma NextLocation_fits (Z0 : zero_eq_zero N) n tick speed draw : nav_wf n -> n_routes n <> [] -> n_skip n = true ->
  fits n (tick * speed) = true -> NextLocation n tick speed draw = Ret (true, advance n (tick * speed)) /\ nav_wf (advance n (tick * speed)).
Proof.
  intros W Hne Hs F.
  assert (O : offline_tick n = false) by (unfold offline_tick; now rewrite Hs).
  destruct (NextLocation_wf Z0 n tick speed draw W) as (b & n' & E & W').
  destruct (NextLocation_inv Z0 _ _ _ _ _ _ E) as [(X & _)|[(_ & X & _)|(_ & _ & _ & St)]]; [contradiction|congruence|].
  destruct (step_fits _ _ _ _ _ F St) as [-> ->]. auto.
Qed.
End Any.

Section S.
Context (m : MathLib).
#[local] Instance NF2 : Num f64 := F64Num m.
Context {J : JsonLib f64}.

(** 2^19, 2^20, 2^-35 *)
Definition half_way : f64 := f64_ofZ 524288.
Definition whole_way : f64 := f64_ofZ 1048576.
Definition tiny : f64 := f64_norm 1 (-35).

Lemma zget0 {A} (x : A) l : zget (x :: l) 0 = Some x. Proof. reflexivity. Qed.

Lemma stuck (n : navigator f64) draw d : nav_wf n -> n_skip n = true -> n_routes n = [stored_route [whole_way]] ->
  position n = (0, 0, 0)%Z -> (n_csd n = f64_ofZ 0 /\ d = half_way \/ n_csd n = half_way /\ d = tiny) ->
  exists n', NextLocation n d (f64_ofZ 1) draw = Ret (true, n') /\ nav_wf n' /\ n_skip n' = true /\
    n_routes n' = [stored_route [whole_way]] /\ position n' = (0, 0, 0)%Z /\ n_csd n' = half_way.
Proof.
  intros W Hs Hr Hp Hc. injection Hp as P1 P2 P3.
  assert (Ec : cur_seg n = mkSegment (mkPoint f0 f0) (mkPoint f0 f1) whole_way f0 0 (-1)).
  { rewrite cur_seg_view.
    assert (V : seg_view n = [[[mkSegment (mkPoint f0 f0) (mkPoint f0 f1) whole_way f0 0 (-1)]]]) by (unfold seg_view; rewrite Hr; reflexivity).
    rewrite V, P1, P2, P3, !zget0.
    assert (Em : segment_IsEmpty (mkSegment (mkPoint f0 f0) (mkPoint f0 f1) whole_way f0 0 (-1)) = false) by (vm_compute; reflexivity).
    now rewrite Em. }
  destruct (NextLocation_fits (N := NF2) (zero_eq_zero_F64 m) n d (f64_ofZ 1) draw W) as [E W']; auto.
  - rewrite Hr. discriminate.
  - unfold fits. rewrite Ec. destruct Hc as [[-> ->]|[-> ->]]; vm_compute; reflexivity.
  - exists (advance n (d * f64_ofZ 1)). split; [exact E|]. split; [exact W'|]. split; [exact Hs|]. split; [exact Hr|].
    split; [unfold position; cbn; now rewrite P1, P2, P3|].
    change (f64_add (n_csd n) (f64_mul d (f64_ofZ 1)) = half_way).
    apply B2SF_inj. destruct Hc as [[-> ->]|[-> ->]]; vm_compute; reflexivity.
Qed.

Lemma never (n : navigator f64) : nav_wf n -> n_skip n = true -> n_routes n = [stored_route [whole_way]] ->
  position n = (0, 0, 0)%Z -> n_csd n = half_way -> forall k n' bs,
  locations n (repeat (tiny, f64_ofZ 1, 0%Z) k) = Ret (bs, n') ->
  nav_wf n' /\ n_skip n' = true /\ n_routes n' = [stored_route [whole_way]] /\ position n' = (0, 0, 0)%Z /\ n_csd n' = half_way /\
  Forall (fun b => b = true) bs.
Proof.
  intros A B C D E k. revert n A B C D E. induction k as [|k IH]; intros n A B C D E n' bs H; cbn [repeat locations] in H.
  - apply Ret_inj in H. injection H as <- <-. repeat split; auto; try apply A; constructor.
  - destruct (stuck n 0 tiny A B C D (or_intror (conj E eq_refl))) as (n1 & E1 & A1 & B1 & C1 & D1 & F1).
    rewrite E1 in H. cbn [bind] in H.
    destruct (locations n1 (repeat (tiny, f64_ofZ 1, 0%Z) k)) as [[bs1 n2]| |] eqn:E2; cbn [bind] in H; try discriminate.
    apply Ret_inj in H. injection H as <- <-. destruct (IH n1 A1 B1 C1 D1 F1 _ _ E2) as (X1 & X2 & X3 & X4 & X5 & X6).
    repeat split; auto; apply X1.
Qed.

Lemma completion_false (n : navigator f64) args bs n' : locations n args = Ret (bs, n') ->
  Forall (fun b => b = true) bs -> ~ completion_among n args.
Proof.
  intros H Hb (pre & tick & speed & draw & post & bs1 & n1 & b & n2 & -> & H1 & H2 & (_ & _ & -> & _) & _).
  revert n bs Hb H bs1 H1. induction pre as [|[[t s] d] pre IH]; intros n bs Hb H bs1 H1; cbn in H, H1.
  - apply Ret_inj in H1. injection H1 as <- <-. rewrite H2 in H. cbn in H.
    destruct (locations n2 post) as [[bs2 n3]| |]; cbn in H; try discriminate. apply Ret_inj in H. injection H as <- _.
    inversion Hb; discriminate.
  - destruct (NextLocation n t s d) as [[b' m']| |]; cbn in H, H1; try discriminate.
    destruct (locations m' (pre ++ (tick, speed, draw) :: post)) as [[bs2 n3]| |] eqn:E; cbn in H; try discriminate.
    destruct (locations m' pre) as [[bs3 n4]| |] eqn:E3; cbn in H1; try discriminate.
    apply Ret_inj in H. injection H as <- <-. apply Ret_inj in H1. injection H1 as <- ->.
    inversion Hb; subst. eapply IH; [|exact E|exact E3]. assumption.
Qed.

Lemma new_ok : exists n0, navigator_New [SkipOfflineMode] "u" (fun _ => f64_ofZ 0) = GOk n0 /\ n_skip n0 = true.
Proof.
  destruct (navigator_New [SkipOfflineMode] "u" (fun _ => f64_ofZ 0)) as [n0|] eqn:E.
  - exists n0. split; [reflexivity|].
    assert (X : match navigator_New [SkipOfflineMode] "u" (fun _ => f64_ofZ 0) with GOk n => n_skip n | GErr _ => false end = true) by (vm_compute; reflexivity).
    rewrite E in X. exact X.
  - exfalso. assert (X : match navigator_New [SkipOfflineMode] "u" (fun _ => f64_ofZ 0) with GOk n => true | GErr _ => false end = true) by (vm_compute; reflexivity).
    rewrite E in X. discriminate.
Qed.

Lemma added lens : exists n0 n,
  navigator_New [SkipOfflineMode] "u" (fun _ => f64_ofZ 0) = GOk n0 /\
  run_navs n0 [NAddRoute [Some (stored_route lens)]] = Ret n /\ rewound n /\ n_routes n = [stored_route lens] /\ n_off n = 0%Z.
Proof.
  destruct new_ok as (n0 & E0 & S0). exists n0.
  pose proof (NavProofs.New_start _ _ _ _ E0) as (R0 & _).
  destruct (New_random _ _ _ _ E0) as [O0 _].
  eexists. split; [exact E0|]. split; [reflexivity|].
  unfold nav_AddRoute. rewrite R0. cbn -[stored_route]. split; [repeat split|]. split; [reflexivity|exact O0].
Qed.

Lemma C81_tiny_steps_proof : exists n0 n,
  navigator_New [SkipOfflineMode] "u" (fun _ => f64_ofZ 0) = GOk n0 /\
  run_navs n0 [NAddRoute [Some (stored_route [whole_way])]] = Ret n /\ rewound n /\ n_routes n = [stored_route [whole_way]] /\
  (f0 <? tiny * f64_ofZ 1) = true /\ (tiny <=? half_way) = true /\
  forall k, ~ completion_among n ((half_way, f64_ofZ 1, 0%Z) :: repeat (tiny, f64_ofZ 1, 0%Z) k).
Proof.
  destruct new_ok as (n0 & E0 & S0). exists n0.
  pose proof (NavProofs.New_start _ _ _ _ E0) as (R0 & Rw & _).
  pose proof (New_wf _ _ _ _ E0) as W0.
  destruct (run_nav_wf (N := NF2) (zero_eq_zero_F64 m) n0 (NAddRoute [Some (stored_route [whole_way])]) W0 I) as (n & E & W).
  exists n. split; [exact E0|]. cbn [run_navs]. rewrite E. split; [reflexivity|].
  cbn [run_nav] in E. apply Ret_inj in E.
  unfold nav_AddRoute in E. rewrite R0 in E. cbn -[stored_route] in E. subst n.
  split; [repeat split|]. split; [reflexivity|]. split; [vm_compute; reflexivity|]. split; [vm_compute; reflexivity|].
  intros k.
  match goal with |- ~ completion_among ?x _ => set (n := x) in * end.
  destruct (stuck n 0 half_way W S0 eq_refl eq_refl (or_introl (conj eq_refl eq_refl))) as (n1 & E1 & A1 & B1 & C1 & D1 & F1).
  assert (L : exists bs n2, locations n1 (repeat (tiny, f64_ofZ 1, 0%Z) k) = Ret (bs, n2)).
  { clear -A1 B1 C1 D1 F1. revert n1 A1 B1 C1 D1 F1. induction k as [|k IH]; intros; [eexists _, _; reflexivity|].
    cbn [repeat locations]. destruct (stuck n1 0 tiny A1 B1 C1 D1 (or_intror (conj F1 eq_refl))) as (n3 & E3 & A3 & B3 & C3 & D3 & F3).
    destruct (IH n3 A3 B3 C3 D3 F3) as (bs & n2 & E). rewrite E3. cbn [bind]. rewrite E. eexists _, _. reflexivity. }
  destruct L as (bs & n2 & L). pose proof (never n1 A1 B1 C1 D1 F1 k _ _ L) as (_ & _ & _ & _ & _ & Hb).
  eapply (completion_false n _ (true :: bs) n2).
  - cbn [locations]. rewrite E1. cbn [bind]. rewrite L. reflexivity.
  - constructor; auto.
Qed.

(** 10 m and 0.6 m *)
Definition ten_sixty : list f64 := [f64_ofZ 10; fdec 6 10].
Definition short_walk : list (nav_op f64) :=
  [NNextLocation (f64_ofZ 10) (f64_ofZ 1) 0; NNextLocation (fdec 3 10) (f64_ofZ 1) 0; NNextLocation (fdec 3 10) (f64_ofZ 1) 0].

Lemma walk_proof : exists n0 n x,
  navigator_New [SkipOfflineMode] "u" (fun _ => f64_ofZ 0) = GOk n0 /\
  run_navs n0 (NAddRoute [Some (stored_route ten_sixty)] :: short_walk) = Ret n /\
  TrackDistance n = Ret x /\ (x <? n_ctd n) = true /\ (f0 <? n_csd n) = true.
Proof.
  assert (X : match navigator_New [SkipOfflineMode] "u" (fun _ => f64_ofZ 0) with
              | GOk n0 => match run_navs n0 (NAddRoute [Some (stored_route ten_sixty)] :: short_walk) with
                          | Ret n => match TrackDistance n with Ret x => ((x <? n_ctd n) && (f0 <? n_csd n))%bool | _ => false end
                          | _ => false end
              | _ => false end = true) by (vm_compute; reflexivity).
  destruct (navigator_New [SkipOfflineMode] "u" (fun _ => f64_ofZ 0)) as [n0|]; [|discriminate].
  destruct (run_navs n0 (NAddRoute [Some (stored_route ten_sixty)] :: short_walk)) as [n| |] eqn:E; try discriminate.
  destruct (TrackDistance n) as [x| |] eqn:F; try discriminate.
  apply andb_prop in X as [X1 X2]. exists n0, n, x. auto 6.
Qed.
Lemma C81_progress_proof : exists n0 n x,
  navigator_New [SkipOfflineMode] "u" (fun _ => f64_ofZ 0) = GOk n0 /\
  run_navs n0 (NAddRoute [Some (stored_route ten_sixty)] :: short_walk) = Ret n /\
  TrackDistance n = Ret x /\ (x <? n_ctd n) = true.
Proof. destruct walk_proof as (n0 & n & x & A & B & C & D & _). exists n0, n, x. auto. Qed.
End S.
