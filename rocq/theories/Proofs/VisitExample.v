(** An example journey in binary64. *)
From Coq Require Import Reals Lia.
From Flocq Require Import Core BinarySingleNaN.
From Verif.Model Require Import Base Num NumF64 Geo Curve PropMap Types TypesSnap Track Route Navigator.
From Verif.Spec Require Import ListSpec TrackSpec RouteSpec NavSpec NumLaws RealSpec JourneySpec.
From Verif.Proofs Require Import BaseLemmas TrackLemmas RouteLemmas NavLemmas NavSteps JourneyHist JourneyAny JourneyRefute.
Open Scope num_scope.

Section S.
Context (m : MathLib).
#[local] Instance NF3 : Num f64 := F64Num m.
Context {J : JsonLib f64}.

Definition ten_op : nav_op f64 := NNextLocation (f64_ofZ 10) (f64_ofZ 1) 0.

Lemma tens_proof : exists n0 n bs n1 n2,
  navigator_New [SkipOfflineMode] "u" (fun _ => f64_ofZ 0) = GOk n0 /\
  run_navs n0 [NAddRoute [Some (stored_route two_tens)]] = Ret n /\ rewound n /\
  at_track_start n (stored_track two_tens) /\ linked (stored_track two_tens) /\
  Forall (small_step (stored_track two_tens)) [ten_step; ten_step; ten_step] /\
  locations n [ten_step; ten_step] = Ret (bs, n1) /\ ~ offline_now n1 /\
  NextLocation n1 (f64_ofZ 10) (f64_ofZ 1) 0 = Ret (false, n2) /\
  Forall longer_than_mark (repeat (NNextLocation (f64_ofZ 10) (f64_ofZ 1) 0%Z) 3) /\
  run_navs n (repeat (NNextLocation (f64_ofZ 10) (f64_ofZ 1) 0%Z) 3) = Ret n2 /\ fst (IsFinish n2) = true.
Proof.
  pose proof (added m two_tens) as A. unfold NF2 in A. fold NF3 in A. destruct A as (n0 & n & E0 & E & Rw & Rt & _).
  assert (X : match navigator_New [SkipOfflineMode] "u" (fun _ => f64_ofZ 0) with
    | GOk n0 => match run_navs n0 [NAddRoute [Some (stored_route two_tens)]] with
      | Ret n => match locations n [ten_step; ten_step] with
        | Ret (_, n1) => n_skip n1 && match NextLocation n1 (f64_ofZ 10) (f64_ofZ 1) 0 with
          | Ret (b, n2) => negb b && fst (IsFinish n2) | _ => false end
        | _ => false end
      | _ => false end
    | _ => false end = true) by (vm_compute; reflexivity).
  rewrite E0, E in X.
  destruct (locations n [ten_step; ten_step]) as [[bs n1]| |] eqn:L; try discriminate.
  apply andb_prop in X as [Xs X].
  destruct (NextLocation n1 (f64_ofZ 10) (f64_ofZ 1) 0) as [[[|] n2]| |] eqn:E2; try discriminate.
  exists n0, n, bs, n1, n2.
  split; [exact E0|]. split; [exact E|]. split; [exact Rw|].
  destruct Rw as (Rp & Rc & _). injection Rp as R1 R2 R3.
  split.
  { split; [exact R3|]. split; [exact Rc|]. rewrite Rt, R1, R2. exists (stored_route two_tens). split; (split; [lia|reflexivity]). }
  split.
  { intros i s [Hi Hs] Hl. change (zlen (tk_segments (stored_track two_tens))) with 2%Z in Hl.
    assert (i = 0%Z) as -> by lia. cbn in Hs. injection Hs as <-. reflexivity. }
  split.
  { repeat (apply Forall_cons || apply Forall_nil); (split; [vm_compute; reflexivity|]);
      repeat (apply Forall_cons || apply Forall_nil); vm_compute; reflexivity. }
  split; [exact L|]. split; [intros [S _]; congruence|]. split; [exact E2|].
  split; [repeat (apply Forall_cons || apply Forall_nil); vm_compute; reflexivity|].
  split; [|exact X].
  unfold ten_step in L. cbn [locations] in L. cbn [repeat run_navs run_nav].
  destruct (NextLocation n (f64_ofZ 10) (f64_ofZ 1) 0) as [[b1 na]| |]; try discriminate. cbn [bind] in L |- *.
  destruct (NextLocation na (f64_ofZ 10) (f64_ofZ 1) 0) as [[b2 nb]| |]; try discriminate. cbn [bind] in L |- *.
  apply Ret_inj in L. apply (f_equal snd) in L. cbn [snd] in L. subst n1.
  cbn [snd]. rewrite E2. reflexivity.
Qed.
End S.
