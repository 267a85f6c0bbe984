From Coq Require Import Lia.
From Verif.Model Require Import Base Num Geo PropMap Track Route.
From Verif.Spec Require Import ListSpec TrackSpec RouteSpec.
From Verif.Proofs Require Import BaseLemmas.
Open Scope num_scope.

Section L.
Context {T : Type} {N : Num T}.

Definition route_inv (r : route T) : Prop := rt_dist r = fsum (map tk_dist (rt_tracks r)).

Lemma fold_dist l : forall acc,
  fold_left (fun d (t : track T) => d + tk_dist t) l acc = fold_left fadd (map tk_dist l) acc.
Proof. induction l; intros acc; cbn; auto. Qed.

Lemma updateState_inv (r : route T) : route_inv (route_updateState r).
Proof. unfold route_inv, route_updateState, fsum. cbn. apply fold_dist. Qed.

Lemma map_set_nth {A B} (f : A -> B) l : forall i x y,
  nth_error l i = Some x -> f y = f x -> map f (set_nth i y l) = map f l.
Proof.
  induction l as [|a l IH]; intros [|i] x y; cbn; try discriminate.
  - intros [= ->] E. now rewrite E.
  - intros H E. now rewrite (IH i x y H E).
Qed.

Lemma upd_track_held r i (f : track T -> track T) :
  (forall t, tk_id (f t) = tk_id t /\ tk_dist (f t) = tk_dist t) ->
  held (upd_track r i f) = held r /\ rt_dist (upd_track r i f) = rt_dist r.
Proof.
  intros Hf. unfold upd_track, held. destruct (nth_error (rt_tracks r) i) as [t|] eqn:E; [|auto].
  cbn. split; [|reflexivity]. eapply map_set_nth; [exact E|]. destruct (Hf t) as [-> ->]. reflexivity.
Qed.

Lemma held_dist (r : route T) : map tk_dist (rt_tracks r) = map snd (held r).
Proof. unfold held. rewrite map_map. reflexivity. Qed.

Lemma remove_id_app id pre x d (post : list (string * T)) :
  Forall (fun p => fst p <> id) pre -> x = id ->
  remove_id id (pre ++ (x, d) :: post) = pre ++ post.
Proof.
  intros H ->. induction H as [|[i e] pre Hx _ IH]; cbn.
  - now rewrite String.eqb_refl.
  - apply eqb_str_false in Hx. cbn in Hx. now rewrite Hx, IH.
Qed.

Lemma remove_id_none id (l : list (string * T)) :
  Forall (fun p => fst p <> id) l -> remove_id id l = l.
Proof.
  induction 1 as [|[i e] l Hx _ IH]; cbn; [reflexivity|].
  apply eqb_str_false in Hx. cbn in Hx. now rewrite Hx, IH.
Qed.

Lemma track_change_name_same (t : track T) s :
  tk_id (snd (track_ChangeName t s)) = tk_id t /\ tk_dist (snd (track_ChangeName t s)) = tk_dist t.
Proof. unfold track_ChangeName. destruct (ParseName s); cbn; auto. Qed.
Lemma track_change_color_same (t : track T) c :
  tk_id (snd (track_ChangeColor t c)) = tk_id t /\ tk_dist (snd (track_ChangeColor t c)) = tk_dist t.
Proof. unfold track_ChangeColor. destruct c; cbn; auto. Qed.
Lemma track_set_props_same (t : track T) p :
  tk_id (track_setProps (snd (track_Props t)) p) = tk_id t /\
  tk_dist (track_setProps (snd (track_Props t)) p) = tk_dist t.
Proof. unfold track_Props. destruct (tk_props t); cbn; auto. Qed.

Lemma run_route_step (r : route T) o :
  route_inv r -> held (run_route r o) = expected (held r) o /\ route_inv (run_route r o).
Proof.
  intros I. unfold route_inv in *.
  destruct o; cbn [run_route expected].
  - destruct t as [t|]; cbn; [|auto]. split.
    + unfold held. cbn. rewrite map_app. reflexivity.
    + unfold fsum. apply fold_dist.
  - unfold route_RemoveTrack.
    destruct ((slen id =? 0) || (36 <? slen id))%Z eqn:G.
    { cbn. split; [|assumption].
      replace ((1 <=? slen id) && (slen id <=? 36))%Z with false; [reflexivity|].
      symmetry. apply Bool.andb_false_iff. apply Bool.orb_true_iff in G as [G|G].
      - left. apply Z.eqb_eq in G. apply Z.leb_gt. lia.
      - right. apply Z.ltb_lt in G. apply Z.leb_gt. lia. }
    replace ((1 <=? slen id) && (slen id <=? 36))%Z with true.
    2:{ symmetry. apply Bool.orb_false_iff in G as [G1 G2]. apply Z.eqb_neq in G1.
        apply Z.ltb_ge in G2. pose proof (slen_nonneg id).
        apply andb_true_intro. split; apply Z.leb_le; lia. }
    pose proof (find_index_spec (fun t => String.eqb (tk_id t) id) (rt_tracks r)) as H.
    destruct (find_index _ (rt_tracks r)) as [i|].
    + destruct H as (pre & x & post & Hl & Hx & Hpre & ->). cbn. split.
      * unfold held. cbn. rewrite Hl, del_nth_app, !map_app. cbn. symmetry.
        apply remove_id_app; [|now apply String.eqb_eq].
        apply Forall_map. eapply Forall_impl; [|exact Hpre]. intros t Ht. now apply eqb_str_false.
      * unfold fsum. apply fold_dist.
    + cbn. split; [|assumption]. symmetry. apply remove_id_none. unfold held. apply Forall_map.
      eapply Forall_impl; [|exact H]. intros t Ht. now apply eqb_str_false.
  - unfold TrackByID. destruct ((slen id =? 0) || (36 <? slen id))%Z; [auto|].
    destruct (find _ (rt_tracks r)); cbn; auto.
  - unfold route_ChangeName. destruct (ParseName name); cbn; auto.
  - unfold route_ChangeColor. destruct hex; cbn; auto.
  - unfold route_Props. destruct (rt_props r); cbn; auto.
  - destruct (upd_track_held r i (fun t => snd (track_ChangeName t name))) as [H1 H2].
    { intros. apply track_change_name_same. }
    split; [exact H1|]. rewrite held_dist, H1, H2, <- held_dist. exact I.
  - destruct (upd_track_held r i (fun t => snd (track_ChangeColor t parsed))) as [H1 H2].
    { intros. apply track_change_color_same. }
    split; [exact H1|]. rewrite held_dist, H1, H2, <- held_dist. exact I.
  - destruct (upd_track_held r i (fun t => track_setProps (snd (track_Props t)) p)) as [H1 H2].
    { intros. apply track_set_props_same. }
    split; [exact H1|]. rewrite held_dist, H1, H2, <- held_dist. exact I.
Qed.

Lemma run_route_history ops : forall (r : route T), route_inv r ->
  held (fold_left run_route ops r) = fold_left expected ops (held r) /\
  route_inv (fold_left run_route ops r).
Proof.
  induction ops as [|o ops IH]; intros r I; cbn; [auto|].
  destruct (run_route_step r o I) as [H1 H2]. rewrite <- H1. now apply IH.
Qed.

Lemma route_history uuid color ops :
  let r := fold_left run_route ops (NewRoute uuid color) in
  rt_dist r = fsum (map tk_dist (rt_tracks r)) /\
  held r = fold_left expected ops [].
Proof.
  cbn zeta. destruct (run_route_history ops (NewRoute uuid color)) as [H1 H2]; [reflexivity|].
  split; [exact H2|exact H1].
Qed.

End L.
