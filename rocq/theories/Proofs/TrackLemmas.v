From Coq Require Import Lia.
From Verif.Model Require Import Base Num Geo Track.
From Verif.Spec Require Import ListSpec TrackSpec.
From Verif.Proofs Require Import BaseLemmas.
Open Scope num_scope.

Section L.
Context {T : Type} {N : Num T}.

Definition norel (s : segment T) := set_rel s 0.

Lemma norel_set_rel s r : norel (set_rel s r) = norel s.
Proof. reflexivity. Qed.

Lemma link_norel l : forall s p, map norel (link_segs s p l) = map norel (p :: l).
Proof.
  induction l as [|c l IH]; intros s p; cbn; [reflexivity|].
  destruct (point_eqb (sg_b p) (sg_a c)); cbn; rewrite IH; reflexivity.
Qed.

Lemma link_length l s p : List.length (link_segs s p l) = S (List.length l).
Proof.
  rewrite <- (map_length norel), link_norel, map_length. reflexivity.
Qed.

Lemma map_norel_ext {A} (f : segment T -> A) l k :
  (forall s, f s = f (norel s)) -> map norel l = map norel k -> map f l = map f k.
Proof.
  intros Hf H.
  rewrite (map_ext f (fun s => f (norel s)) Hf l), (map_ext f (fun s => f (norel s)) Hf k).
  rewrite <- (map_map norel f l), <- (map_map norel f k). now rewrite H.
Qed.

Lemma make_segs_spec pts : forall i,
  Forall2 segment_between (pairs pts) (make_segs i pts).
Proof.
  induction pts as [|a pts IH]; intros i; cbn; [constructor|].
  destruct pts as [|b pts]; [constructor|].
  constructor; [|apply IH]. repeat split.
Qed.

Lemma make_segs_index pts : forall i j s,
  nth_error (make_segs i pts) j = Some s -> sg_index s = Z.of_nat (i + j).
Proof.
  induction pts as [|a pts IH]; intros i j s; cbn.
  - destruct j; discriminate.
  - destruct pts as [|b pts]; [destruct j; discriminate|].
    destruct j as [|j]; cbn.
    + intros [= <-]. cbn. lia.
    + intros H. apply IH in H. rewrite H. lia.
Qed.

Lemma make_segs_length pts : forall i,
  List.length (make_segs i pts) = (List.length pts - 1)%nat.
Proof.
  induction pts as [|a pts IH]; intros i; cbn; [reflexivity|].
  destruct pts as [|b pts]; [reflexivity|]. cbn [List.length]. rewrite IH. cbn. lia.
Qed.

Lemma make_segs_rel pts : forall i, Forall (fun s => sg_rel s = (-1)%Z) (make_segs i pts).
Proof.
  induction pts as [|a pts IH]; intros i; cbn; [constructor|].
  destruct pts as [|b pts]; [constructor|]. constructor; [reflexivity|apply IH].
Qed.

Lemma segment_between_norel pq s : segment_between pq s <-> segment_between pq (norel s).
Proof. reflexivity. Qed.

Lemma Forall2_norel l k ps :
  map norel l = map norel k ->
  Forall2 segment_between ps k -> Forall2 segment_between ps l.
Proof.
  revert k ps. induction l as [|x l IH]; intros [|y k] ps; cbn; try discriminate; intros H F.
  - inversion F; constructor.
  - injection H as H1 H2. inversion F; subst. constructor.
    + assert (E : norel x = norel y) by (unfold norel, set_rel; congruence).
      apply (proj2 (segment_between_norel _ _)). rewrite E. now apply segment_between_norel.
    + eapply IH; eauto.
Qed.

Lemma makeSegments_ok pts :
  (2 <= List.length pts)%nat ->
  exists segs, makeSegments pts = GOk (segs, sum_dist (make_segs 0 pts)) /\
    map norel segs = map norel (make_segs 0 pts).
Proof.
  intros H. unfold makeSegments.
  destruct (zlen pts <? 2)%Z eqn:E; [apply Z.ltb_lt in E; unfold zlen in E; lia|].
  destruct (make_segs 0 pts) as [|s0 r] eqn:F.
  - exists []. split; reflexivity.
  - eexists. split; [reflexivity|]. apply link_norel.
Qed.

Lemma makeSegments_err pts :
  (List.length pts < 2)%nat -> makeSegments pts = GErr ErrInvalidRoutePath.
Proof.
  intros H. unfold makeSegments.
  destruct (zlen pts <? 2)%Z eqn:E; [reflexivity|]. apply Z.ltb_ge in E; unfold zlen in E; lia.
Qed.

Lemma sum_dist_pairs l : forall ps acc,
  Forall2 segment_between ps l ->
  fold_left (fun d s => d + sg_dist s) l acc =
  fold_left fadd (map (fun pq => dist_pp (fst pq) (snd pq)) ps) acc.
Proof.
  induction l as [|s l IH]; intros ps acc F; inversion F; subst; cbn; [reflexivity|].
  destruct H2 as (_ & _ & Hd & _). rewrite Hd. now apply IH.
Qed.

Lemma polyline_pairs (l : list (segment T)) : forall pts, (2 <= List.length pts)%nat ->
  Forall2 segment_between (pairs pts) l ->
  match l with [] => [] | s :: _ => sg_a s :: map sg_b l end = pts.
Proof.
  induction l as [|s l IH]; intros pts Hl F.
  - destruct pts as [|a [|b pts]]; cbn in *; try lia. inversion F.
  - destruct pts as [|a [|b pts]]; cbn in Hl; try lia.
    cbn in F. inversion F as [|? ? ? ? Hs F']; subst.
    destruct Hs as (Ha & Hb & _ & _). cbn in Ha, Hb. cbn [map]. rewrite Ha, Hb.
    destruct pts as [|c pts].
    + cbn in F'. inversion F'; subst. reflexivity.
    + specialize (IH (b :: c :: pts) ltac:(cbn; lia) F').
      destruct l as [|s' l]; [discriminate|]. injection IH as Ha' IH. cbn [map]. congruence.
Qed.

Lemma is_track_of_segs pts segs t :
  (2 <= List.length pts)%nat ->
  makeSegments pts = GOk (segs, tk_dist t) -> tk_segments t = segs ->
  is_track_through pts t.
Proof.
  intros Hl Hm Hs. destruct (makeSegments_ok pts Hl) as (segs' & Hm' & Hn).
  rewrite Hm in Hm'. injection Hm' as -> Hd.
  pose proof (Forall2_norel _ _ _ Hn (make_segs_spec pts 0)) as HF.
  unfold is_track_through, polyline_of, NumSegments. rewrite Hs.
  split; [exact HF|]. split.
  { intros i s [Hi H].
    apply (map_nth_error norel) in H. rewrite Hn in H.
    destruct (nth_error (make_segs 0 pts) (Z.to_nat i)) as [s'|] eqn:E.
    - rewrite (map_nth_error norel _ _ E) in H.
      apply (f_equal (fun o => match o with Some x => sg_index x | None => 0%Z end)) in H.
      cbn in H. apply make_segs_index in E. lia.
    - rewrite nth_error_map, E in H. discriminate. }
  split.
  { unfold zlen. rewrite <- (map_length norel), Hn, map_length, make_segs_length. lia. }
  split.
  { rewrite Hd. unfold sum_dist, fsum. apply sum_dist_pairs, make_segs_spec. }
  now apply polyline_pairs.
Qed.

(** ** relations *)

Definition linked_next (l : list (segment T)) (j : nat) : bool :=
  match nth_error l j, nth_error l (S j) with
  | Some p, Some q => point_eqb (sg_b p) (sg_a q)
  | _, _ => false
  end.

Lemma hasRelation_set_rel (s : segment T) r : (0 <= r)%Z -> segment_hasRelation (set_rel s r) = true.
Proof. intros H. unfold segment_hasRelation. cbn. destruct (r =? -1)%Z eqn:E; [apply Z.eqb_eq in E; lia|reflexivity]. Qed.

Lemma link_rel l : forall s p, (1 <= s)%Z ->
  Forall (fun x => segment_hasRelation x = false) l ->
  forall j x, nth_error (link_segs s p l) j = Some x ->
  segment_hasRelation x =
    (linked_next (p :: l) j ||
     match j with O => segment_hasRelation p | S i => linked_next (p :: l) i end)%bool.
Proof.
  induction l as [|c l IH]; intros s p Hs Hl j x; cbn [link_segs].
  - destruct j as [|[|j]]; cbn; try discriminate. now intros [= <-].
  - inversion Hl as [|? ? Hc Hl']; subst.
    destruct (point_eqb (sg_b p) (sg_a c)) eqn:E; destruct j as [|j].
    + intros [= <-]. rewrite hasRelation_set_rel by lia. unfold linked_next. cbn. now rewrite E.
    + cbn [nth_error]. intros H. apply IH in H; [|lia|assumption]. rewrite H.
      assert (G : forall k, linked_next (set_rel c s :: l) k = linked_next (p :: c :: l) (S k)).
      { intros [|k]; reflexivity. }
      rewrite G. f_equal. destruct j as [|j].
      * rewrite hasRelation_set_rel by lia. unfold linked_next. cbn. now rewrite E.
      * apply G.
    + intros [= <-]. unfold linked_next. cbn. now rewrite E.
    + cbn [nth_error]. intros H. apply IH in H; [|lia|assumption]. rewrite H.
      assert (G : forall k, linked_next (c :: l) k = linked_next (p :: c :: l) (S k)) by reflexivity.
      rewrite G. f_equal. destruct j as [|j].
      * rewrite Hc. unfold linked_next. cbn. now rewrite E.
      * apply G.
Qed.

Lemma point_eqb_refl (p : point T) : not_nan p -> point_eqb p p = true.
Proof. intros [H1 H2]. unfold point_eqb. now rewrite H1, H2. Qed.

Lemma make_segs_linked pts : Forall not_nan pts -> forall i j,
  (S (S j) < List.length pts)%nat -> linked_next (make_segs i pts) j = true.
Proof.
  induction pts as [|a pts IH]; intros Hn i j Hj; cbn in Hj; [lia|].
  destruct pts as [|b pts]; [cbn in Hj; lia|].
  destruct pts as [|c pts]; [cbn in Hj; lia|].
  inversion Hn as [|? ? Ha Hn']; subst.
  destruct j as [|j].
  - unfold linked_next. cbn. apply point_eqb_refl. now inversion Hn'.
  - change (linked_next (make_segs (S i) (b :: c :: pts)) j = true).
    apply IH; auto. cbn in *. lia.
Qed.

Lemma makeSegments_linked pts segs d :
  makeSegments pts = GOk (segs, d) -> Forall not_nan pts -> (3 <= List.length pts)%nat ->
  Forall (fun s => segment_hasRelation s = true) segs.
Proof.
  intros Hm Hn Hl. unfold makeSegments in Hm.
  destruct (zlen pts <? 2)%Z; [discriminate|].
  pose proof (make_segs_length pts 0) as Hlen.
  pose proof (make_segs_rel pts 0) as Hrel.
  pose proof (make_segs_linked pts Hn 0) as Hlk.
  destruct (make_segs 0 pts) as [|s0 r]; [cbn in Hlen; lia|].
  injection Hm as <- _. apply Forall_forall. intros x Hx.
  apply In_nth_error in Hx as (j & Hj).
  assert (Hjlen : (j < List.length (link_segs 1 s0 r))%nat) by (apply nth_error_Some; congruence).
  rewrite link_length in Hjlen. cbn in Hlen.
  apply link_rel in Hj; [|lia|].
  - rewrite Hj. destruct (Nat.eq_dec (S (S j)) (List.length pts)) as [E|E].
    + destruct j as [|j]; [lia|]. rewrite (Hlk j) by lia. apply Bool.orb_true_r.
    + rewrite (Hlk j) by lia. reflexivity.
  - inversion Hrel; subst. eapply Forall_impl; [|eassumption].
    intros s Hs. unfold segment_hasRelation. rewrite Hs. reflexivity.
Qed.

(** ** C14 *)
Lemma NewTrack_err pts uuid color :
  (List.length pts < 2)%nat -> NewTrack pts uuid color = GErr ErrInvalidRoutePath.
Proof. intros H. unfold NewTrack. now rewrite makeSegments_err. Qed.

Lemma NewTrack_ok pts uuid color :
  (2 <= List.length pts)%nat ->
  exists t, NewTrack pts uuid color = GOk t /\ is_track_through pts t /\
            tk_id t = uuid /\ tk_color t = color /\ tk_name t = ""%string /\ tk_version t = 0%Z.
Proof.
  intros H. unfold NewTrack. destruct (makeSegments_ok pts H) as (segs & Hm & Hn).
  rewrite Hm. eexists. split; [reflexivity|]. split; [|cbn; auto].
  eapply is_track_of_segs; [exact H| |reflexivity]. exact Hm.
Qed.

Lemma RestoreTrack_ok id color pts t :
  RestoreTrack id color pts = GOk t ->
  is_track_through pts t /\ tk_id t = id /\ tk_color t = color.
Proof.
  unfold RestoreTrack. destruct (slen id =? 0)%Z; [discriminate|].
  destruct (Nat.lt_ge_cases (List.length pts) 2) as [H|H].
  - rewrite makeSegments_err by exact H. discriminate.
  - destruct (makeSegments_ok pts H) as (segs & Hm & Hn). rewrite Hm. intros [= <-].
    split; [|cbn; auto]. eapply is_track_of_segs; [exact H| |reflexivity]. exact Hm.
Qed.

(** ** C15 *)
Lemma isClosed_spec pts :
  isClosed pts = true <->
  exists p q mid, pts = p :: mid ++ [q] /\ (1 <= List.length mid)%nat /\
    (lon p =? lon q) = true /\ (lat q =? lat q) = true.
Proof.
  unfold isClosed. split.
  - destruct (zlen pts <? 3)%Z eqn:E; [discriminate|]. apply Z.ltb_ge in E. unfold zlen in E.
    destruct pts as [|p r]; [discriminate|].
    destruct (rev (p :: r)) as [|q r'] eqn:F; [discriminate|].
    intros H. apply andb_prop in H as [H1 H2].
    assert (G : p :: r = rev r' ++ [q]).
    { rewrite <- (rev_involutive (p :: r)), F. reflexivity. }
    destruct (rev r') as [|p' mid] eqn:M.
    + cbn in G. rewrite G in E. cbn in E. lia.
    + cbn in G. injection G as <- ->. exists p, q, mid. repeat split; auto.
      cbn [List.length] in E. rewrite app_length in E. cbn in E. lia.
  - intros (p & q & mid & -> & Hm & H1 & H2).
    destruct (zlen (p :: mid ++ [q]) <? 3)%Z eqn:E.
    { apply Z.ltb_lt in E. unfold zlen in E. cbn [List.length] in E. rewrite app_length in E. cbn in E. lia. }
    change (p :: mid ++ [q]) with ((p :: mid) ++ [q]). rewrite rev_app_distr. cbn.
    now rewrite H1, H2.
Qed.

End L.
