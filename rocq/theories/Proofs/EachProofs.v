(** C85: iterating with callbacks. *)
From Coq Require Import Lia.
From Verif.Model Require Import Base Num Geo Curve PropMap Pb Types TypesSnap Track Route Navigator Each.
From Verif.Spec Require Import EachSpec.
From Verif.Proofs Require Import BaseLemmas.

Section E.
Context {S A : Type}.
Implicit Types (get : S -> list A) (fn : nat -> A -> S -> bool * S) (s : S).

Lemma reads_loop get fn : (forall i x s, get (snd (fn i x s)) = get s) ->
  forall post pre fuel s, get s = pre ++ post -> (List.length post < fuel)%nat ->
  exists l s' rest, each_loop fuel get fn (List.length pre) s = Ret (l, s') /\ get s' = get s /\
    combine (seq (List.length pre) (List.length post)) post = map fst l ++ rest /\
    Forall (fun c => snd c = true) (removelast l) /\
    (rest <> [] -> exists l' i x, l = l' ++ [(i, x, false)]).
Proof.
  intros K. induction post as [|x post IH]; intros pre fuel s Hg Hf; (destruct fuel as [|fuel]; [cbn in Hf; lia|]); cbn [each_loop]; rewrite Hg.
  - rewrite app_nil_r. rewrite (proj2 (nth_error_None pre (List.length pre))) by lia.
    exists [], s, []. cbn. rewrite Hg, app_nil_r. repeat split; auto. intros H. now contradiction H.
  - rewrite nth_error_app2 by lia. rewrite Nat.sub_diag. cbn [nth_error].
    pose proof (K (List.length pre) x s) as Ks. destruct (fn (List.length pre) x s) as [ok s1]. cbn [snd] in Ks.
    destruct ok.
    + destruct (IH (pre ++ [x]) fuel s1) as (l & s' & rest & E & G & C & F & R).
      { rewrite Ks, Hg, <- app_assoc. reflexivity. } { cbn in Hf. lia. }
      rewrite app_length in E, C. cbn [List.length] in E, C. rewrite E. cbn [bind].
      exists ((List.length pre, x, true) :: l), s', rest. split; [reflexivity|]. split; [congruence|].
      split. { cbn [seq List.length combine map fst app]. rewrite <- Nat.add_1_r. now rewrite C. }
      split.
      * destruct l as [|c l]; [constructor|]. cbn [removelast]. constructor; [reflexivity|exact F].
      * intros H. destruct (R H) as (l' & i & y & ->). exists ((List.length pre, x, true) :: l'), i, y. reflexivity.
    + exists [(List.length pre, x, false)], s1, (combine (seq (Datatypes.S (List.length pre)) (List.length post)) post).
      split; [reflexivity|]. split; [congruence|]. split; [reflexivity|]. split; [constructor|].
      intros _. exists [], (List.length pre), x. reflexivity.
Qed.

Lemma C85_reads_proof get fn fuel s : (forall i x s, get (snd (fn i x s)) = get s) -> (List.length (get s) < fuel)%nat ->
  exists l s', each_loop fuel get fn 0 s = Ret (l, s') /\ get s' = get s /\ goes_through (get s) l.
Proof.
  intros K H. destruct (reads_loop get fn K (get s) [] fuel s eq_refl H) as (l & s' & rest & E & G & C & F & R).
  exists l, s'. split; [exact E|]. split; [exact G|]. exists rest. auto.
Qed.

(** a callback that removes the element it is given *)
Lemma removing_loop get fn (P : list A -> Prop) :
  (forall pre x post, P (pre ++ x :: post) -> P (pre ++ post)) ->
  (forall pre x post s, get s = pre ++ x :: post -> P (get s) -> fst (fn (List.length pre) x s) = true /\ get (snd (fn (List.length pre) x s)) = pre ++ post) ->
  forall m post pre fuel s, (List.length post <= m)%nat -> get s = pre ++ post -> P (pre ++ post) -> (List.length post < fuel)%nat ->
  exists l s', each_loop fuel get fn (List.length pre) s = Ret (l, s') /\ map (fun c => snd (fst c)) l = odd_places post /\
    get s' = pre ++ even_places post.
Proof.
  intros KP K. induction m as [|m IH]; intros post pre fuel s Hm Hg HP Hf; (destruct fuel as [|fuel]; [lia|]); cbn [each_loop]; rewrite Hg.
  - destruct post; [|cbn in Hm; lia]. rewrite app_nil_r. rewrite (proj2 (nth_error_None pre (List.length pre))) by lia.
    exists [], s. cbn. rewrite app_nil_r, Hg, app_nil_r. auto.
  - destruct post as [|x post].
    { rewrite app_nil_r. rewrite (proj2 (nth_error_None pre (List.length pre))) by lia.
      exists [], s. cbn. rewrite app_nil_r, Hg, app_nil_r. auto. }
    rewrite nth_error_app2 by lia. rewrite Nat.sub_diag. cbn [nth_error].
    pose proof HP as HP0. rewrite <- Hg in HP0. destruct (K pre x post s Hg HP0) as [K1 K2]. destruct (fn (List.length pre) x s) as [ok s1]. cbn [fst snd] in K1, K2. subst ok.
    cbn [List.length] in Hm, Hf.
    destruct post as [|y post].
    + destruct fuel as [|fuel]; [cbn in Hf; lia|]. cbn [each_loop]. rewrite K2, app_nil_r.
      rewrite (proj2 (nth_error_None pre (List.length pre + 1))) by lia. cbn [bind].
      exists [(List.length pre, x, true)], s1. cbn. rewrite K2, !app_nil_r. auto.
    + destruct (IH post (pre ++ [y]) fuel s1) as (l & s' & E & V & G).
      { cbn in Hm. lia. } { rewrite K2, <- app_assoc. reflexivity. } { rewrite <- app_assoc. exact (KP _ _ _ HP). } { cbn in Hf. lia. }
      rewrite app_length in E. cbn [List.length] in E. rewrite E. cbn [bind].
      exists ((List.length pre, x, true) :: l), s'. split; [reflexivity|]. split.
      * cbn [map fst snd odd_places]. now rewrite V.
      * rewrite G. rewrite <- app_assoc. unfold even_places. destruct post; reflexivity.
Qed.

(** a callback that adds to the list and never stops *)
Lemma growing_loop get fn : (forall i x s, fst (fn i x s) = true /\ exists y, get (snd (fn i x s)) = get s ++ [y]) ->
  forall fuel i s, (i < List.length (get s))%nat -> each_loop fuel get fn i s = NoFuel.
Proof.
  intros K. induction fuel as [|fuel IH]; intros i s Hi; cbn [each_loop]; [reflexivity|].
  destruct (nth_error (get s) i) as [x|] eqn:E; [|apply nth_error_None in E; lia].
  destruct (K i x s) as [K1 (y & K2)]. destruct (fn i x s) as [ok s1]. cbn [fst snd] in *. subst ok.
  rewrite IH; [reflexivity|]. rewrite K2, app_length. cbn. lia.
Qed.
End E.

Section R.
Context {T : Type} {N : Num T}.

Lemma find_removed {A} (f : A -> string) id pre (x : A) post : NoDup (map f (pre ++ x :: post)) -> f x = id ->
  find_index (fun t => String.eqb (f t) id) (pre ++ x :: post) = Some (List.length pre).
Proof.
  intros H <-. assert (G : forall i, ~ In (f x) (map f pre) -> find_index_from (fun t => String.eqb (f t) (f x)) (pre ++ x :: post) i = Some (i + List.length pre)%nat).
  { clear H. induction pre as [|a pre IH]; intros i H; cbn.
    - rewrite String.eqb_refl. f_equal. lia.
    - destruct (String.eqb_spec (f a) (f x)) as [E|E]; [exfalso; apply H; now left|].
      rewrite IH; [f_equal; lia|]. intros Q. apply H. now right. }
  unfold find_index. rewrite G; [reflexivity|]. rewrite map_app in H. cbn in H. apply NoDup_remove_2 in H. intros Q. apply H, in_or_app. now left.
Qed.

Definition good_id (id : string) : Prop := (1 <= slen id <= 36)%Z.
Lemma good_id_tests id : good_id id -> ((slen id =? 0) || (36 <? slen id))%Z = false.
Proof. intros H. unfold good_id in H. destruct (Z.eqb_spec (slen id) 0), (Z.ltb_spec 36 (slen id)); try lia; reflexivity. Qed.

Definition ids_ok {A} (f : A -> string) (l : list A) : Prop := NoDup (map f l) /\ Forall (fun t => good_id (f t)) l.
Lemma ids_ok_remove {A} (f : A -> string) pre x post : ids_ok f (pre ++ x :: post) -> ids_ok f (pre ++ post).
Proof.
  intros [H1 H2]. split.
  - rewrite map_app in *. cbn in H1. now apply NoDup_remove_1 in H1.
  - apply Forall_app in H2. destruct H2 as [B C]. inversion C; subst. now apply Forall_app.
Qed.
Lemma ids_ok_mid {A} (f : A -> string) pre x post : ids_ok f (pre ++ x :: post) -> good_id (f x).
Proof. intros [_ H]. rewrite Forall_forall in H. apply H, in_or_app. right. now left. Qed.

Lemma C85_remove_tracks_proof (r : route T) fuel : NoDup (map tk_id (rt_tracks r)) -> Forall (fun t => (1 <= slen (tk_id t) <= 36)%Z) (rt_tracks r) ->
  (List.length (rt_tracks r) < fuel)%nat ->
  exists l r', EachTrack fuel (fun r => r) (fun _ t r => (true, snd (route_RemoveTrack r (tk_id t)))) r = Ret (l, r') /\
    map (fun c => snd (fst c)) l = odd_places (rt_tracks r) /\ rt_tracks r' = even_places (rt_tracks r).
Proof.
  intros H1 H2 Hf. unfold EachTrack.
  refine (removing_loop _ _ (ids_ok tk_id) (ids_ok_remove tk_id) _ (List.length (rt_tracks r)) (rt_tracks r) [] fuel r (le_n _) eq_refl (conj H1 H2) Hf).
  intros pre x post s Hg HP. cbn [fst snd]. split; [reflexivity|]. rewrite Hg in HP.
  unfold route_RemoveTrack. rewrite (good_id_tests _ (ids_ok_mid _ _ _ _ HP)), Hg, (find_removed tk_id (tk_id x) pre x post (proj1 HP) eq_refl).
  cbn. apply del_nth_app.
Qed.

Lemma C85_remove_routes_proof (n : navigator T) fuel : NoDup (map rt_id (n_routes n)) -> Forall (fun r => (1 <= slen (rt_id r) <= 36)%Z) (n_routes n) ->
  (List.length (n_routes n) < fuel)%nat ->
  exists l n', EachRoute fuel (fun n => n) (fun _ r n => (true, snd (nav_RemoveRoute n (rt_id r)))) n = Ret (l, n') /\
    map (fun c => snd (fst c)) l = odd_places (n_routes n) /\ n_routes n' = even_places (n_routes n).
Proof.
  intros H1 H2 Hf. unfold EachRoute.
  refine (removing_loop _ _ (ids_ok rt_id) (ids_ok_remove rt_id) _ (List.length (n_routes n)) (n_routes n) [] fuel n (le_n _) eq_refl (conj H1 H2) Hf).
  intros pre x post s Hg HP. cbn [fst snd]. split; [reflexivity|]. rewrite Hg in HP.
  unfold nav_RemoveRoute. rewrite (good_id_tests _ (ids_ok_mid _ _ _ _ HP)), Hg, (find_removed rt_id (rt_id x) pre x post (proj1 HP) eq_refl).
  cbn. apply del_nth_app.
Qed.

Lemma C85_append_proof (r : route T) (new : nat -> track T -> route T -> track T) fuel : rt_tracks r <> [] ->
  EachTrack fuel (fun r => r) (fun i t r => (true, AddTrack r (Some (new i t r)))) r = NoFuel.
Proof.
  intros H. unfold EachTrack. apply growing_loop.
  - intros i x s. cbn. split; [reflexivity|]. eexists. reflexivity.
  - destruct (rt_tracks r); [easy|]. cbn. lia.
Qed.

Lemma hasRoute_not_in (l : list (route T)) id : ~ In id (map rt_id l) -> hasRoute l id = false.
Proof.
  intros H. unfold hasRoute. destruct (existsb _ l) eqn:E; [|reflexivity]. exfalso. apply H.
  apply existsb_exists in E. destruct E as (x & Hx & E). apply String.eqb_eq in E. subst. now apply in_map.
Qed.
Lemma C85_append_routes_proof (n : navigator T) (new : nat -> route T -> navigator T -> route T) fuel : n_routes n <> [] ->
  (forall i r n, ~ In (rt_id (new i r n)) (map rt_id (n_routes n))) ->
  EachRoute fuel (fun n => n) (fun i r n => (true, snd (nav_AddRoute n [Some (new i r n)]))) n = NoFuel.
Proof.
  intros H Hn. unfold EachRoute. apply growing_loop.
  - intros i x s. cbn [fst snd]. split; [reflexivity|]. exists (new i x s). unfold nav_AddRoute. cbn [add_routes].
    rewrite (hasRoute_not_in _ _ (Hn i x s)). reflexivity.
  - destruct (n_routes n); [easy|]. cbn. lia.
Qed.
Lemma C85_empty_proof {S A} (get : S -> list A) fn fuel s : get s = [] -> (0 < fuel)%nat -> each_loop fuel get fn 0 s = Ret ([], s).
Proof. intros H Hf. destruct fuel; [lia|]. cbn. now rewrite H. Qed.
End R.
