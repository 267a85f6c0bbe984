From Coq Require Import Lia.
From Verif.Model Require Import Base Num NumF64 Geo Track Route.
From Verif.Spec Require Import ListSpec TrackSpec RouteSpec.
From Verif.Proofs Require Import BaseLemmas TrackLemmas RouteLemmas.
Open Scope num_scope.

Lemma C14_proof :
  forall (T : Type) (N : Num T) (points : list (point T)) (uuid color : string),
    ((List.length points < 2)%nat ->
       NewTrack points uuid color = GErr ErrInvalidRoutePath) /\
    ((2 <= List.length points)%nat ->
       exists t, NewTrack points uuid color = GOk t /\ is_track_through points t /\
                 tk_id t = uuid /\ tk_color t = color /\ tk_name t = ""%string).
Proof.
  intros. split.
  - apply NewTrack_err.
  - intros H. destruct (NewTrack_ok points uuid color H) as (t & H1 & H2 & H3 & H4 & H5 & _).
    exists t. auto.
Qed.

Lemma NewTrack_isClosed {T} {N : Num T} pts uuid color t :
  NewTrack pts uuid color = GOk t -> tk_isClosed t = isClosed pts.
Proof.
  unfold NewTrack. destruct (makeSegments pts) as [[segs d]|e]; [|discriminate].
  intros [= <-]. reflexivity.
Qed.

Lemma C15_char :
  forall (T : Type) (N : Num T) (points : list (point T)) uuid color t,
    NewTrack points uuid color = GOk t ->
    (tk_isClosed t = true <->
     exists p q mid, points = p :: mid ++ [q] /\ (1 <= List.length mid)%nat /\
       (lon p =? lon q) = true /\ (lat q =? lat q) = true).
Proof. intros. rewrite (NewTrack_isClosed _ _ _ _ H). apply isClosed_spec. Qed.

Lemma C15_complete :
  forall (T : Type) (N : Num T) (p : point T) (mid : list (point T)) uuid color t,
    not_nan p -> (1 <= List.length mid)%nat ->
    NewTrack (p :: mid ++ [p]) uuid color = GOk t -> tk_isClosed t = true.
Proof.
  intros T N p mid uuid color t [H1 H2] Hm Ht. apply (C15_char _ _ _ _ _ _ Ht).
  exists p, p, mid. auto.
Qed.

Lemma C15_refuted_proof :
  forall m, exists points t p q mid, let N := F64Num m in
    NewTrack points "id" "#fff" = GOk t /\ points = p :: mid ++ [q] /\
    tk_isClosed t = true /\ (lat p =? lat q) = false.
Proof.
  intros m.
  exists [mkPoint (f64_ofZ 0) (f64_ofZ 0); mkPoint (f64_ofZ 1) (f64_ofZ 1);
          mkPoint (f64_ofZ 5) (f64_ofZ 0)].
  eexists. exists (mkPoint (f64_ofZ 0) (f64_ofZ 0)), (mkPoint (f64_ofZ 5) (f64_ofZ 0)),
    [mkPoint (f64_ofZ 1) (f64_ofZ 1)].
  cbn zeta. split; [reflexivity|]. repeat split.
Qed.
