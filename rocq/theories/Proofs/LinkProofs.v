(** Which segments of a new track are linked to their neighbours. *)
From Coq Require Import Lia.
From Verif.Model Require Import Base Num Geo Track Route.
From Verif.Spec Require Import ListSpec TrackSpec.
From Verif.Proofs Require Import TrackLemmas.
Open Scope num_scope.

Section Link.
Context {T : Type} {N : Num T}.

Fixpoint chained (p : segment T) (l : list (segment T)) : Prop :=
  match l with
  | [] => True
  | c :: r => point_eqb (sg_b p) (sg_a c) = true /\ chained c r
  end.

Lemma chained_set_rel p l r : chained (set_rel p r) l <-> chained p l.
Proof. destruct l; cbn; tauto. Qed.

Lemma link_rels l : forall s p, chained p l -> (l = [] -> sg_rel p = (s - 1)%Z) ->
  forall i x, nth_error (link_segs s p l) i = Some x -> sg_rel x = (s - 1 + Z.of_nat i)%Z.
Proof.
  induction l as [|c l IH]; intros s p H Hp i x E.
  - cbn in E. destruct i as [|i]; [injection E as <-; rewrite Hp by reflexivity; lia|destruct i; discriminate].
  - destruct H as [H1 H2]. cbn [link_segs] in E. rewrite H1 in E. destruct i as [|i].
    + injection E as <-. cbn. lia.
    + cbn [nth_error] in E. apply (IH (s + 1)%Z (set_rel c s)) in E.
      * lia.
      * now apply chained_set_rel.
      * intros _. cbn. lia.
Qed.

Lemma make_segs_chained pts : forall i, Forall not_nan pts ->
  match make_segs i pts with [] => True | s :: r => chained s r end.
Proof.
  induction pts as [|a pts IH]; intros i H; [exact I|].
  destruct pts as [|b pts]; [exact I|].
  specialize (IH (S i) (Forall_inv_tail H)).
  change (make_segs i (a :: b :: pts)) with
    (mkSegment a b (Distance (lat a) (lon a) (lat b) (lon b)) (Bearing (lat a) (lon a) (lat b) (lon b))
       (Z.of_nat i) (-1) :: make_segs (S i) (b :: pts)).
  destruct (make_segs (S i) (b :: pts)) as [|s r] eqn:E; [exact I|].
  split; [|exact IH]. destruct pts as [|c pts]; [discriminate|].
  cbn in E. injection E as <- _. cbn [sg_b sg_a]. unfold point_eqb.
  destruct (Forall_inv (Forall_inv_tail H)) as [-> ->]. reflexivity.
Qed.

Lemma C14_linked_proof (points : list (point T)) uuid color t i s :
  NewTrack points uuid color = GOk t -> Forall not_nan points -> at_pos (tk_segments t) i s ->
  sg_rel s = if (NumSegments t =? 1)%Z then (-1)%Z else i.
Proof.
  unfold NewTrack, makeSegments. destruct (zlen points <? 2)%Z eqn:E0; [discriminate|]. intros E H [Hi Hs].
  destruct (make_segs 0 points) as [|s0 r] eqn:E1.
  - injection E as <-. cbn in Hs. destruct (Z.to_nat i); discriminate.
  - injection E as <-. cbn [tk_segments NumSegments] in *. unfold NumSegments. cbn [tk_segments].
    pose proof (make_segs_chained points 0 H) as C. rewrite E1 in C.
    destruct r as [|c r].
    + cbn in *. pose proof (make_segs_rel points 0) as K. rewrite E1 in K.
      destruct (Z.to_nat i) as [|k]; [injection Hs as <-; apply (Forall_inv K)|destruct k; discriminate].
    + assert (L : zlen (link_segs 1 s0 (c :: r)) <> 1%Z).
      { unfold zlen. rewrite <- (map_length norel), link_norel, map_length. cbn [List.length]. lia. }
      rewrite (proj2 (Z.eqb_neq _ _) L).
      rewrite (link_rels (c :: r) 1 s0 C) with (i := Z.to_nat i); [lia|discriminate|exact Hs].
Qed.
End Link.
