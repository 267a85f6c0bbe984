(** An example for the bounds of C81. *)
From Coq Require Import Reals Lra Lia.
From Flocq Require Import Core BinarySingleNaN.
From Verif.Model Require Import Base Num NumF64 Geo Curve PropMap Types TypesSnap Track Route Navigator.
From Verif.Spec Require Import ListSpec TrackSpec RouteSpec NavSpec NumLaws RealSpec JourneySpec.
From Verif.Proofs Require Import BaseLemmas TrackLemmas RouteLemmas NavLemmas NavSteps F64Lemmas JourneyHist JourneyAny JourneyRefute
  JourneyF64 VisitF64 BoundF64.
Open Scope num_scope.

Section S.
Context (m : MathLib).
#[local] Instance NF3 : Num f64 := F64Num m.
Context {J : JsonLib f64}.

Lemma bound_example_proof : exists n0 n bs n',
  navigator_New [SkipOfflineMode] "u" (fun _ => f64_ofZ 0) = GOk n0 /\
  run_navs n0 [NAddRoute [Some (stored_route [f64_ofZ 10; fdec 6 10])]] = Ret n /\ rewound n /\
  lengths_op length_ok (NAddRoute [Some (stored_route [f64_ofZ 10; fdec 6 10])]) /\
  Forall summed_route (n_routes n) /\ count_parts n = 4%nat /\
  locations n [(f64_ofZ 10, f64_ofZ 1, 0%Z); (fdec 3 10, f64_ofZ 1, 0%Z); (fdec 3 10, f64_ofZ 1, 0%Z)] = Ret (bs, n') /\
  (slack 7 * (exact_total n + value (fdec 1 10)) <= 2 ^ 1000)%R.
Proof.
  pose proof (added m [f64_ofZ 10; fdec 6 10]) as A. unfold NF2 in A. fold NF3 in A. destruct A as (n0 & n & E0 & E & Rw & Rt & _).
  assert (X : match navigator_New [SkipOfflineMode] "u" (fun _ => f64_ofZ 0) with
    | GOk n0 => match run_navs n0 [NAddRoute [Some (stored_route [f64_ofZ 10; fdec 6 10])]] with
      | Ret n => match locations n [(f64_ofZ 10, f64_ofZ 1, 0%Z); (fdec 3 10, f64_ofZ 1, 0%Z); (fdec 3 10, f64_ofZ 1, 0%Z)] with
        | Ret _ => true | _ => false end
      | _ => false end
    | _ => false end = true) by (vm_compute; reflexivity).
  rewrite E0, E in X.
  destruct (locations n _) as [[bs n']| |] eqn:L in X; try discriminate. clear X.
  exists n0, n, bs, n'. split; [exact E0|]. split; [exact E|]. split; [exact Rw|]. split.
  { split; [exact I|]. intros r Hr. apply only_one in Hr. subst r.
    constructor; [|constructor]. repeat (apply Forall_cons || apply Forall_nil); vm_compute; reflexivity. }
  rewrite Rt. split.
  { constructor; [|constructor]. split; [reflexivity|]. constructor; [reflexivity|constructor]. }
  split.
  { unfold count_parts, count_segments, count_tracks. rewrite Rt. reflexivity. }
  split; [exact L|].
  unfold exact_total. rewrite Rt. unfold exact_route, exact_track.
  change (slack 7 * (val (f64_ofZ 10) + (val (fdec 6 10) + 0) + 0 + 0 + val (fdec 1 10)) <= 2 ^ 1000)%R.
  destruct (ofZ_ok 1) as [V1 F1]; [lia|]. destruct (ofZ_ok 10) as [V10 F10]; [lia|].
  assert (U6 : (val (fdec 6 10) <= 1)%R).
  { rewrite <- V1. apply leb_fin; [vm_compute; reflexivity|exact F1|vm_compute; reflexivity]. }
  assert (U1 : (val (fdec 1 10) <= 1)%R).
  { rewrite <- V1. apply leb_fin; [vm_compute; reflexivity|exact F1|vm_compute; reflexivity]. }
  rewrite V10. unfold slack. cbn [INR].
  assert (S7 : (0 <= 1 + (1+1+1+1+1+1+1) / 2 ^ 50 <= 8)%R) by lra.
  apply Rle_trans with (8 * 12)%R; [apply Rmult_le_compat; try lra|].
  - assert (0 <= val (fdec 6 10))%R by (destruct (ofZ_ok 0) as [V0 F0]; [lia|]; rewrite <- V0; apply leb_fin; [exact F0|vm_compute; reflexivity..]).
    assert (0 <= val (fdec 1 10))%R by (destruct (ofZ_ok 0) as [V0 F0]; [lia|]; rewrite <- V0; apply leb_fin; [exact F0|vm_compute; reflexivity..]).
    lra.
  - apply Rle_trans with (2 ^ 7)%R; [lra|]. apply Rle_pow; [lra|lia].
Qed.
End S.
