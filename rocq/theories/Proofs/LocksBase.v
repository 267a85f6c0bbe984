(** Who holds which mutex. *)
From Coq Require Import Lia.
From Verif.Model Require Import Base Mutex Locks.
From Verif.Spec Require Import LocksSpec.
From Verif.Proofs Require Import MutexProofs.

Section P.
Context {K C V : Type} {E : Keys K}.
Notation pr := (prog K C V).
Notation go := (goroutine K C V).
Implicit Types (h : holding (K := K)) (p : pr).

Fixpoint mode (j : K) h : option bool :=
  match h with [] => None | (i, b) :: r => if eqK i j then Some b else mode j r end.
Definition waits (j : K) (o : option pr) : bool := match o with Some (LockWait i _) => if eqK i j then true else false | _ => false end.
Definition cls (j : K) (z : holding * go) : role :=
  match mode j (fst z) with
  | Some true => Writer
  | Some false => Reader
  | None => if waits j (go_now (snd z)) then Waiting else Idle
  end.

Lemma mode_none j h : mode j h = None <-> ~ In j (keys h).
Proof.
  induction h as [|[i b] h IH]; cbn; [tauto|]. destruct (eqK i j) as [->|N].
  - split; [discriminate|]. intros H. exfalso. apply H. now left.
  - rewrite IH. tauto.
Qed.
Lemma mode_some j b h : mode j h = Some b -> In (j, b) h.
Proof. induction h as [|[i x] h IH]; cbn; [discriminate|]. destruct (eqK i j) as [->|N]; intros H; [injection H as ->; now left|right; auto]. Qed.
Lemma in_keys j b h : In (j, b) h -> In j (keys h).
Proof. intros H. apply in_map_iff. exists (j, b). auto. Qed.
Lemma mode_in j b h : NoDup (keys h) -> In (j, b) h -> mode j h = Some b.
Proof.
  induction h as [|[i x] h IH]; cbn; [tauto|]. intros D H. inversion D; subst. destruct (eqK i j) as [->|N].
  - destruct H as [H|H]; [injection H as ->; reflexivity|]. exfalso. apply in_keys in H. auto.
  - destruct H as [H|H]; [congruence|auto].
Qed.
Lemma release_in i j b h : In (j, b) (release i h) <-> In (j, b) h /\ j <> i.
Proof.
  unfold release. rewrite filter_In. cbn. destruct (eqK j i); split; intros [A B]; auto; try discriminate; try contradiction.
Qed.
Lemma release_keys i j h : In j (keys (release i h)) <-> In j (keys h) /\ j <> i.
Proof.
  unfold keys. rewrite !in_map_iff. split.
  - intros ([x b] & <- & H). apply release_in in H. destruct H. split; [exists (x, b); auto|auto].
  - intros (([x b] & <- & H) & N). exists (x, b). split; auto. apply release_in. auto.
Qed.
Lemma release_nodup i h : NoDup (keys h) -> NoDup (keys (release i h)).
Proof.
  induction h as [|[j b] h IH]; cbn; [auto|]. intros D. inversion D; subst. destruct (eqK j i); cbn; auto. constructor; auto.
  intros H. apply (proj1 (release_keys _ _ _)) in H. tauto.
Qed.
Lemma mode_release i j h : mode j (release i h) = if eqK i j then None else mode j h.
Proof.
  unfold release. induction h as [|[k b] h IH]; cbn; [destruct (eqK i j); reflexivity|]. destruct (eqK k i) as [->|N]; cbn.
  - rewrite IH. destruct (eqK i j); reflexivity.
  - rewrite IH. destruct (eqK k j) as [->|N']; [|reflexivity]. destruct (eqK i j); [congruence|reflexivity].
Qed.
Lemma mode_cons i b j h : mode j ((i, b) :: h) = if eqK i j then Some b else mode j h.
Proof. reflexivity. Qed.

(** What a step does to the mutexes a call holds. *)
Definition nowait p : Prop := match p with LockWait _ _ => False | _ => True end.
Inductive hact : shared K C -> holding -> pr -> shared K C -> holding -> pr -> Prop :=
| hm_access s h i f k : nowait (k (sh_mem s i)) -> hact s h (Access i f k) (set_cell s i (f (sh_mem s i))) h (k (sh_mem s i))
| hm_lock s h i k n : sh_mu s i = mkRW false false n -> ~ In i (keys h) -> hact s h (Lock i k) (set_mu s i (mkRW true false n)) h (LockWait i k)
| hm_wait s h i k : sh_mu s i = mkRW true false 0 -> ~ In i (keys h) -> nowait k -> hact s h (LockWait i k) (set_mu s i (mkRW true true 0)) ((i, true) :: h) k
| hm_unlock s h i k n : sh_mu s i = mkRW true true n -> In (i, true) h -> nowait k -> hact s h (Unlock i k) (set_mu s i (mkRW false false n)) (release i h) k
| hm_rlock s h i k n : sh_mu s i = mkRW false false n -> ~ In i (keys h) -> nowait k -> hact s h (RLock i k) (set_mu s i (mkRW false false (S n))) ((i, false) :: h) k
| hm_runlock s h i k t w n : sh_mu s i = mkRW t w (S n) -> In (i, false) h -> nowait k -> hact s h (RUnlock i k) (set_mu s i (mkRW t w n)) (release i h) k
| hm_try s h i k : sh_mu s i = mkRW false false 0 -> ~ In i (keys h) -> nowait (k true) -> hact s h (TryLock i k) (set_mu s i (mkRW true true 0)) ((i, true) :: h) (k true)
| hm_try_fail s h i k : nowait (k false) -> hact s h (TryLock i k) s h (k false).

Lemma hact_nodup s h p s' h' p' : hact s h p s' h' p' -> NoDup (keys h) -> NoDup (keys h').
Proof. destruct 1; intros D; auto; try (cbn; constructor; assumption). all: now apply release_nodup. Qed.

(** [x]: the state of a mutex; [l]: the roles of the goroutines. *)
Definition mutex_ok (x : rwmutex) (l : list role) : Prop :=
  count Writer l = (if rw_writer x then 1 else 0)%nat /\ count Reader l = rw_readers x /\
  count Waiting l = (if rw_taken x && negb (rw_writer x) then 1 else 0)%nat /\
  (rw_writer x = true -> rw_taken x = true /\ rw_readers x = O).

Lemma map_set {A B} (f : A -> B) i x l : map f (set_nth i x l) = set_nth i (f x) (map f l).
Proof. revert i. induction l as [|a l IH]; intros [|i]; cbn; auto. now rewrite IH. Qed.
Lemma set_nth_id {A} i (x : A) l : nth_error l i = Some x -> set_nth i x l = l.
Proof. apply set_same. Qed.

Lemma mutex_ok_same x l i z z' : mutex_ok x (map (cls i) l) -> forall n, nth_error l n = Some z -> cls i z' = cls i z ->
  mutex_ok x (map (cls i) (set_nth n z' l)).
Proof. intros H n Hn Hc. rewrite map_set, Hc, set_nth_id; [exact H|]. now rewrite nth_error_map, Hn. Qed.

Lemma nowait_waits j p : nowait p -> waits j (Some p) = false.
Proof. destruct p; cbn; tauto. Qed.

Lemma mutex_change x x' l n j z z' : nth_error l n = Some z -> mutex_ok x (map (cls j) l) ->
  (forall w r q, count Writer (map (cls j) l) = w -> count Reader (map (cls j) l) = r -> count Waiting (map (cls j) l) = q ->
    forall w' r' q',
    (w' + (if is_role Writer (cls j z) then 1 else 0) = w + (if is_role Writer (cls j z') then 1 else 0))%nat ->
    (r' + (if is_role Reader (cls j z) then 1 else 0) = r + (if is_role Reader (cls j z') then 1 else 0))%nat ->
    (q' + (if is_role Waiting (cls j z) then 1 else 0) = q + (if is_role Waiting (cls j z') then 1 else 0))%nat ->
    w' = (if rw_writer x' then 1 else 0)%nat /\ r' = rw_readers x' /\ q' = (if rw_taken x' && negb (rw_writer x') then 1 else 0)%nat /\
    (rw_writer x' = true -> rw_taken x' = true /\ rw_readers x' = O)) ->
  mutex_ok x' (map (cls j) (set_nth n z' l)).
Proof.
  intros Hn H G. rewrite map_set. assert (Hm : nth_error (map (cls j) l) n = Some (cls j z)) by (now rewrite nth_error_map, Hn).
  eapply G; [reflexivity|reflexivity|reflexivity|apply count_set; exact Hm|apply count_set; exact Hm|apply count_set; exact Hm].
Qed.

Lemma upd_same {A} (m : K -> A) i x : upd m i x i = x.
Proof. unfold upd. destruct (eqK i i); congruence. Qed.
Lemma upd_other {A} (m : K -> A) i j x : j <> i -> upd m i x j = m j.
Proof. unfold upd. destruct (eqK j i); congruence. Qed.

Lemma mutex_step (s s' : shared K C) zs n h p h' p' l r :
  (forall j, mutex_ok (sh_mu s j) (map (cls j) zs)) -> nth_error zs n = Some (h, mkGo (Some p) l r) -> NoDup (keys h) ->
  hact s h p s' h' p' ->
  forall j, mutex_ok (sh_mu s' j) (map (cls j) (set_nth n (h', mkGo (Some p') l r) zs)).
Proof.
  intros H Hn D M j. specialize (H j).
  assert (EQ : forall h p, cls j (h, mkGo (Some p) l r) = match mode j h with Some true => Writer | Some false => Reader
                           | None => if waits j (Some p) then Waiting else Idle end) by reflexivity.
  assert (SAME : cls j (h', mkGo (Some p') l r) = cls j (h, mkGo (Some p) l r) -> sh_mu s' j = sh_mu s j ->
    mutex_ok (sh_mu s' j) (map (cls j) (set_nth n (h', mkGo (Some p') l r) zs))).
  { intros E1 E2. rewrite E2. eapply mutex_ok_same; eauto. }
  assert (DIFF : forall x', sh_mu s' j = x' -> mutex_ok x' (map (cls j) (set_nth n (h', mkGo (Some p') l r) zs)) ->
    mutex_ok (sh_mu s' j) (map (cls j) (set_nth n (h', mkGo (Some p') l r) zs))) by (intros x' ->; auto).
  rewrite !EQ in SAME.
  destruct M as [s h i f k W|s h i k m0 B I|s h i k B I W|s h i k m0 B I W|s h i k m0 B I W|s h i k t0 w0 m0 B I W|s h i k B I W|s h i k W].
  - apply SAME; [|reflexivity]. now rewrite nowait_waits.
  - destruct (eqK j i) as [->|N].
    + eapply DIFF; [cbn; apply upd_same|]. rewrite B in H. eapply mutex_change; [exact Hn|exact H|]. rewrite !EQ. rewrite (proj2 (mode_none _ _) I). cbn. destruct (eqK i i); [|congruence]. destruct H as (HA & HB & HC & HD). cbn in *. intros. repeat split; try lia; try discriminate.
    + apply SAME; [|cbn; now apply upd_other].  cbn. destruct (eqK i j); [congruence|reflexivity].
  - destruct (eqK j i) as [->|N].
    + eapply DIFF; [cbn; apply upd_same|]. rewrite B in H. eapply mutex_change; [exact Hn|exact H|]. rewrite !EQ, mode_cons. rewrite (proj2 (mode_none _ _) I). cbn. destruct (eqK i i); [|congruence]. destruct H as (HA & HB & HC & HD). cbn in *. intros. repeat split; try lia; try discriminate.
    + apply SAME; [|cbn; now apply upd_other]. rewrite mode_cons, (nowait_waits _ _ W). cbn. destruct (eqK i j); [congruence|reflexivity].
  - destruct (eqK j i) as [->|N].
    + eapply DIFF; [cbn; apply upd_same|]. rewrite B in H. eapply mutex_change; [exact Hn|exact H|]. rewrite !EQ, mode_release, (nowait_waits _ _ W). rewrite (mode_in i true h D I). cbn. destruct (eqK i i); [|congruence]. destruct H as (HA & HB & HC & HD). cbn in *. intros. repeat split; try lia; try discriminate. all: specialize (HD eq_refl); lia.
    + apply SAME; [|cbn; now apply upd_other]. rewrite mode_release, (nowait_waits _ _ W). cbn. destruct (eqK i j); [congruence|reflexivity].
  - destruct (eqK j i) as [->|N].
    + eapply DIFF; [cbn; apply upd_same|]. rewrite B in H. eapply mutex_change; [exact Hn|exact H|]. rewrite !EQ, mode_cons, (nowait_waits _ _ W). rewrite (proj2 (mode_none _ _) I). cbn. destruct (eqK i i); [|congruence]. destruct H as (HA & HB & HC & HD). cbn in *. intros. repeat split; try lia; try discriminate.
    + apply SAME; [|cbn; now apply upd_other]. rewrite mode_cons, (nowait_waits _ _ W). cbn. destruct (eqK i j); [congruence|reflexivity].
  - destruct (eqK j i) as [->|N].
    + eapply DIFF; [cbn; apply upd_same|]. rewrite B in H. eapply mutex_change; [exact Hn|exact H|]. rewrite !EQ, mode_release, (nowait_waits _ _ W). rewrite (mode_in i false h D I). cbn. destruct (eqK i i); [|congruence]. destruct H as (HA & HB & HC & HD). cbn in *. intros. repeat split; try lia; try discriminate. all: destruct HD; auto; lia.
    + apply SAME; [|cbn; now apply upd_other]. rewrite mode_release, (nowait_waits _ _ W). cbn. destruct (eqK i j); [congruence|reflexivity].
  - destruct (eqK j i) as [->|N].
    + eapply DIFF; [cbn; apply upd_same|]. rewrite B in H. eapply mutex_change; [exact Hn|exact H|]. rewrite !EQ, mode_cons, (nowait_waits _ _ W). rewrite (proj2 (mode_none _ _) I). cbn. destruct (eqK i i); [|congruence]. destruct H as (HA & HB & HC & HD). cbn in *. intros. repeat split; try lia; try discriminate.
    + apply SAME; [|cbn; now apply upd_other]. rewrite mode_cons, (nowait_waits _ _ W). cbn. destruct (eqK i j); [congruence|reflexivity].
  - apply SAME; [|reflexivity]. now rewrite nowait_waits.
Qed.

Lemma mutex_now (s : shared K C) zs n h g g' : (forall j, mutex_ok (sh_mu s j) (map (cls j) zs)) -> nth_error zs n = Some (h, g) ->
  (forall j, waits j (go_now g) = false) -> (forall j, waits j (go_now g') = false) ->
  forall j, mutex_ok (sh_mu s j) (map (cls j) (set_nth n (h, g') zs)).
Proof.
  intros H Hn W W' j. eapply mutex_ok_same; [apply H|exact Hn|]. unfold cls. cbn [fst snd]. now rewrite W, W'.
Qed.

Lemma writer_alone x j zs n n' h h' g g' : mutex_ok x (map (cls j) zs) -> nth_error zs n = Some (h, g) -> nth_error zs n' = Some (h', g') ->
  mode j h = Some true -> n <> n' -> mode j h' = None.
Proof.
  intros (H1 & H2 & H3 & H4) Hn Hn' M N. destruct (mode j h') as [[]|] eqn:M'; [| |reflexivity]; exfalso.
  - assert (2 <= count Writer (map (cls j) zs))%nat.
    { apply (count_two _ _ n n' N); rewrite nth_error_map, ?Hn, ?Hn'; cbn; unfold cls; cbn; now rewrite ?M, ?M'. }
    destruct (rw_writer x); lia.
  - assert (1 <= count Writer (map (cls j) zs))%nat by (apply (count_pos _ _ n); rewrite nth_error_map, Hn; cbn; unfold cls; cbn; now rewrite M).
    assert (1 <= count Reader (map (cls j) zs))%nat by (apply (count_pos _ _ n'); rewrite nth_error_map, Hn'; cbn; unfold cls; cbn; now rewrite M').
    destruct (rw_writer x); [|lia]. destruct H4; auto. lia.
Qed.
End P.
