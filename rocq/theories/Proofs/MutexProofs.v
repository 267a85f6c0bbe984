(** Calls that keep to the mutex take effect one at a time and all return. *)
From Coq Require Import Lia.
From Verif.Model Require Import Base Mutex.
From Verif.Spec Require Import MutexSpec.

(** ** lists *)
Lemma nth_set_same {A} (l : list A) i x y : nth_error l i = Some y -> nth_error (set_nth i x l) i = Some x.
Proof. revert i; induction l as [|a l IH]; intros [|i]; cbn; try discriminate; auto. Qed.
Lemma nth_set_other {A} (l : list A) i j x : i <> j -> nth_error (set_nth i x l) j = nth_error l j.
Proof. revert i j; induction l as [|a l IH]; intros [|i] [|j] H; cbn; auto; try lia. Qed.
Lemma length_set {A} (l : list A) i x : List.length (set_nth i x l) = List.length l.
Proof. revert i; induction l as [|a l IH]; intros [|i]; cbn; auto. Qed.
Lemma set_set {A} (l : list A) i x y : set_nth i x (set_nth i y l) = set_nth i x l.
Proof. revert i; induction l as [|a l IH]; intros [|i]; cbn; auto. f_equal. auto. Qed.
Lemma set_same {A} (l : list A) i x : nth_error l i = Some x -> set_nth i x l = l.
Proof. revert i; induction l as [|a l IH]; intros [|i]; cbn; try discriminate; auto; intros H; [congruence|f_equal; auto]. Qed.

Lemma nth_ext_error {A} (l l' : list A) : (forall i, nth_error l i = nth_error l' i) -> l = l'.
Proof.
  revert l'; induction l as [|a l IH]; intros [|b l'] H; auto; try (specialize (H 0%nat); discriminate).
  f_equal; [specialize (H 0%nat); cbn in H; congruence|]. apply IH. intros i. apply (H (S i)).
Qed.

Inductive role : Type := Idle | Waiting | Writer | Reader.
Definition is_role (a b : role) : bool :=
  match a, b with Idle, Idle | Waiting, Waiting | Writer, Writer | Reader, Reader => true | _, _ => false end.
Fixpoint count (a : role) (l : list role) : nat :=
  match l with [] => 0 | x :: r => (if is_role a x then 1 else 0) + count a r end.

Lemma count_set a l i x y : nth_error l i = Some y ->
  (count a (set_nth i x l) + (if is_role a y then 1 else 0) = count a l + (if is_role a x then 1 else 0))%nat.
Proof.
  revert i; induction l as [|b l IH]; intros [|i]; cbn; try discriminate; intros H; [injection H as ->; lia|].
  specialize (IH i H). lia.
Qed.
Lemma count_pos a l i : nth_error l i = Some a -> (1 <= count a l)%nat.
Proof.
  revert i; induction l as [|b l IH]; intros [|i]; cbn; try discriminate; intros H.
  - injection H as ->. destruct a; cbn; lia.
  - specialize (IH i H). lia.
Qed.
Lemma count_two a l i j : i <> j -> nth_error l i = Some a -> nth_error l j = Some a -> (2 <= count a l)%nat.
Proof.
  revert i j; induction l as [|b l IH]; intros [|i] [|j]; cbn; try discriminate; try lia; intros N H K.
  - injection H as ->. apply count_pos in K. destruct a; cbn; lia.
  - injection K as ->. apply count_pos in H. destruct a; cbn; lia.
  - assert (2 <= count a l)%nat by (eapply (IH i j); eauto). lia.
Qed.
Lemma count_find a l : (1 <= count a l)%nat -> exists i, nth_error l i = Some a.
Proof.
  induction l as [|b l IH]; cbn; [lia|]. intros H. destruct (is_role a b) eqn:E.
  - exists 0%nat. destruct a, b; try discriminate; reflexivity.
  - destruct IH as [i Hi]; [lia|]. exists (S i). exact Hi.
Qed.

Section P.
Context {M V : Type}.
Implicit Types (m : M) (v : V).

(** ** the simulation *)
(** what [q] can do from [m], [p] can do from [a] *)
Definition refines (q : prog M V) m (p : prog M V) (a : M) : Prop :=
  (forall m' v, alone q m m' v -> alone p a m' v) /\ (crashes q m -> crashes p a).
Inductive rel (a m : M) : role -> goroutine M V -> goroutine M V -> Prop :=
| rel_idle l r : Forall guarded l -> rel a m Idle (mkGo l r) (mkGo l r)
| rel_wait k l r : writing k -> Forall guarded l -> rel a m Waiting (mkGo (LockWait k :: l) r) (mkGo (Lock k :: l) r)
| rel_writer q p l r : writing q -> Forall guarded l -> refines q m p a ->
    rel a m Writer (mkGo (q :: l) r) (mkGo (p :: l) r)
| rel_reader q p l r : reading q -> Forall guarded l -> refines q m p a ->
    rel a m Reader (mkGo (q :: l) r) (mkGo (p :: l) r)
| rel_after v l r : Forall guarded l -> rel a m Idle (mkGo (Return v :: l) r) (mkGo l (r ++ [v]))
| rel_failed v l r : Forall guarded l -> rel a m Idle (mkGo (Inc (Return v) :: l) r) (mkGo l (r ++ [v])).

Record sim (a : M) (s : shared M) (gs abs : list (goroutine M V)) (ro : list role) : Prop := {
  sim_len : List.length abs = List.length gs;
  sim_len_ro : List.length ro = List.length gs;
  sim_rel : forall i g h c, nth_error gs i = Some g -> nth_error abs i = Some h -> nth_error ro i = Some c -> rel a (sh_mem s) c g h;
  sim_mem : rw_writer (sh_mu s) = false -> sh_mem s = a;
  sim_writer : count Writer ro = if rw_writer (sh_mu s) then 1%nat else 0%nat;
  sim_wait : (count Waiting ro + count Writer ro = if rw_taken (sh_mu s) then 1 else 0)%nat;
  sim_readers : count Reader ro = rw_readers (sh_mu s);
  sim_alone : rw_writer (sh_mu s) = true -> rw_readers (sh_mu s) = 0%nat;
  sim_cnt : uint32 (sh_cnt s) }.

Lemma sim_start m c calls : uint32 c -> Forall (Forall guarded) calls ->
  sim m (mkShared m c (mkRW false false 0)) (map (fun l => mkGo l []) calls) (map (fun l => mkGo l []) calls) (map (fun _ => Idle) calls).
Proof.
  intros Hcnt H. assert (C : forall a, a <> Idle -> count a (map (fun _ => Idle) calls) = 0%nat).
  { intros a Ha. clear H. induction calls as [|l r IH]; cbn; auto. rewrite IH. destruct a; cbn; auto; congruence. }
  split; cbn; auto; try (rewrite ?C by discriminate; reflexivity); try (rewrite !map_length; reflexivity); try discriminate.
  intros i g h c' Hg Hh Hc. rewrite nth_error_map in Hg, Hh, Hc. destruct (nth_error calls i) as [l|] eqn:E; try discriminate.
  cbn in *. injection Hg as <-. injection Hh as <-. injection Hc as <-. constructor.
  rewrite Forall_forall in H. apply H. eapply nth_error_In; eauto.
Qed.

(** others do not notice when the memory changes and they neither read nor write *)
Lemma rel_other a m a' m' c g h : rel a m c g h -> c <> Writer -> c <> Reader -> rel a' m' c g h.
Proof. intros H A B. destruct H; try congruence; constructor; auto. Qed.

Lemma partner {A B} (l : list A) (l' : list B) i (x : A) : List.length l' = List.length l -> nth_error l i = Some x -> exists y : B, nth_error l' i = Some y.
Proof.
  intros L H. destruct (nth_error l' i) eqn:E; [eauto|]. apply nth_error_None in E.
  assert (nth_error l i <> None) by congruence. apply nth_error_Some in H0. lia.
Qed.

(** replacing goroutine [i] *)
Lemma sim_update a s gs abs ro i g h c a' s' g' h' c' :
  sim a s gs abs ro -> nth_error gs i = Some g -> nth_error abs i = Some h -> nth_error ro i = Some c ->
  rel a' (sh_mem s') c' g' h' ->
  (forall j g h c0, j <> i -> nth_error ro j = Some c0 -> rel a (sh_mem s) c0 g h -> rel a' (sh_mem s') c0 g h) ->
  (rw_writer (sh_mu s') = false -> sh_mem s' = a') ->
  count Writer (set_nth i c' ro) = (if rw_writer (sh_mu s') then 1%nat else 0%nat) ->
  (count Waiting (set_nth i c' ro) + count Writer (set_nth i c' ro) = if rw_taken (sh_mu s') then 1 else 0)%nat ->
  count Reader (set_nth i c' ro) = rw_readers (sh_mu s') ->
  (rw_writer (sh_mu s') = true -> rw_readers (sh_mu s') = 0%nat) -> uint32 (sh_cnt s') ->
  sim a' s' (set_nth i g' gs) (set_nth i h' abs) (set_nth i c' ro).
Proof.
  intros H Hg Hh Hc Hrel Hoth A B C D E F. split; auto; rewrite ?length_set; try apply H.
  intros j g1 h1 c1 H1 H2 H3. destruct (PeanoNat.Nat.eq_dec i j) as [<-|N].
  - erewrite nth_set_same in H1 by eassumption. erewrite nth_set_same in H2 by eassumption. erewrite nth_set_same in H3 by eassumption.
    injection H1 as <-. injection H2 as <-. injection H3 as <-. exact Hrel.
  - rewrite nth_set_other in H1 by auto. rewrite nth_set_other in H2 by auto. rewrite nth_set_other in H3 by auto. eapply Hoth; eauto. eapply (sim_rel _ _ _ _ _ H); eauto.
Qed.

(** What one step of a goroutine does to the abstract system: nothing, or its call. *)
Definition matched (b : bool) (i : nat) (a : M) abs (a' : M) (abs' : list (goroutine M V)) : Prop :=
  if b then exists p l r v, nth_error abs i = Some (mkGo (p :: l) r) /\ alone p a a' v /\ abs' = set_nth i (mkGo l (r ++ [v])) abs
  else a' = a /\ abs' = abs.

Ltac counts Hc := pose proof (count_set Writer _ _ Idle _ Hc); pose proof (count_set Writer _ _ Waiting _ Hc); pose proof (count_set Writer _ _ Writer _ Hc);
  pose proof (count_set Writer _ _ Reader _ Hc); pose proof (count_set Waiting _ _ Idle _ Hc); pose proof (count_set Waiting _ _ Waiting _ Hc);
  pose proof (count_set Waiting _ _ Writer _ Hc); pose proof (count_set Waiting _ _ Reader _ Hc); pose proof (count_set Reader _ _ Idle _ Hc);
  pose proof (count_set Reader _ _ Waiting _ Hc); pose proof (count_set Reader _ _ Writer _ Hc); pose proof (count_set Reader _ _ Reader _ Hc);
  cbn [is_role] in *.

Lemma sim_act a s gs abs ro i p l r s' p' : sim a s gs abs ro -> nth_error gs i = Some (mkGo (p :: l) r) -> act s p s' p' ->
  exists a' abs' ro', sim a' s' (set_nth i (mkGo (p' :: l) r) gs) abs' ro' /\ matched (leaves p p') i a abs a' abs'.
Proof.
  intros H Hg Hact. destruct (partner _ _ _ _ (sim_len _ _ _ _ _ H) Hg) as [h Hh]. destruct (partner _ _ _ _ (sim_len_ro _ _ _ _ _ H) Hg) as [c Hc].
  pose proof (sim_rel _ _ _ _ _ H _ _ _ _ Hg Hh Hc) as Hr.
  pose proof (sim_writer _ _ _ _ _ H) as HW. pose proof (sim_wait _ _ _ _ _ H) as HT. pose proof (sim_readers _ _ _ _ _ H) as HR.
  pose proof (sim_alone _ _ _ _ _ H) as HA. pose proof (sim_mem _ _ _ _ _ H) as HM. pose proof (sim_cnt _ _ _ _ _ H) as HU.
  counts Hc.
  (* the other goroutines, by role *)
  assert (Onow : c = Writer -> forall j c0, j <> i -> nth_error ro j = Some c0 -> c0 <> Writer /\ c0 <> Reader).
  { intros -> j c0 N Hj. assert (W : rw_writer (sh_mu s) = true).
    { destruct (rw_writer (sh_mu s)); auto. pose proof (count_pos _ _ _ Hc). lia. }
    split; intros ->.
    - pose proof (count_two _ _ _ _ N Hj Hc). rewrite W in HW. lia.
    - pose proof (count_pos _ _ _ Hj). rewrite (HA W) in HR. lia. }
  inversion Hr; subst.
  - (* idle: the call starts *)
    match goal with F : Forall guarded (_ :: _) |- _ => inversion F; subst end.
    match goal with G : guarded p |- _ => destruct G as [(k & -> & Wk)|[(k & -> & Rk)|(k & v & -> & Wk & Ek)]] end; inversion Hact; subst; cbn [leaves].
    + exists a, abs, (set_nth i Waiting ro). split; [|split; reflexivity].
      rewrite <- (set_same abs i _ Hh). match goal with E : sh_mu s = _ |- _ => rewrite E in *; cbn in * end.
      eapply sim_update; eauto; cbn; try lia; try discriminate. constructor; auto.
    + exists a, abs, (set_nth i Reader ro). split; [|split; reflexivity].
      rewrite <- (set_same abs i _ Hh). match goal with E : sh_mu s = _ |- _ => rewrite E in *; cbn in * end.
      eapply sim_update; eauto; cbn; try lia; try discriminate. constructor; auto.
      split; [intros m' v Hv|intros Hv]; rewrite (HM eq_refl) in Hv; constructor; exact Hv.
    + assert (L : match k true with Inc _ => true | _ => false end = false) by (inversion Wk; reflexivity). rewrite L.
      exists a, abs, (set_nth i Writer ro). split; [|split; reflexivity].
      rewrite <- (set_same abs i _ Hh). match goal with E : sh_mu s = _ |- _ => rewrite E in *; cbn in * end.
      eapply sim_update; eauto; cbn; try lia; try discriminate. constructor; auto.
      split; [intros m' v' Hv|intros Hv]; rewrite (HM eq_refl) in Hv; [apply (al_try k true)|apply (cr_try k true)]; exact Hv.
    + rewrite Ek. exists a, (set_nth i (mkGo l (r ++ [v])) abs), (set_nth i Idle ro). split.
      * eapply sim_update; eauto; try lia. constructor; auto.
      * exists (TryLock k), l, r, v. split; [exact Hh|]. split; [|reflexivity]. apply (al_try k false). rewrite Ek. repeat constructor.
  - (* waiting for the readers *)
    inversion Hact; subst; cbn [leaves]. match goal with E : sh_mu s = _ |- _ => rewrite E in *; cbn in * end.
    exists a, abs, (set_nth i Writer ro). split; [|split; reflexivity].
    rewrite <- (set_same abs i _ Hh). eapply sim_update; eauto; cbn; try lia; try discriminate. constructor; auto.
    split; [intros m' v Hv|intros Hv]; rewrite (HM eq_refl) in Hv; constructor; exact Hv.
  - (* writing *)
    assert (W : rw_writer (sh_mu s) = true) by (destruct (rw_writer (sh_mu s)); auto; pose proof (count_pos _ _ _ Hc); lia).
    specialize (Onow eq_refl).
    match goal with Q : writing _ |- _ => inversion Q; subst end; inversion Hact; subst; cbn [leaves].
    + exists a, abs, (set_nth i Writer ro). split; [|split; reflexivity].
      rewrite <- (set_same abs i _ Hh). eapply sim_update; eauto; cbn; try lia; try congruence.
      * constructor; auto. match goal with X : refines _ _ _ a |- _ => destruct X as [X1 X2] end. split; [intros m' v Hv; apply X1|intros Hv; apply X2]; constructor; exact Hv.
      * intros j g h c0 N Hj Hj'. destruct (Onow j c0 N Hj). eapply rel_other; eauto.
    + exists a, abs, (set_nth i Writer ro). split; [|split; reflexivity].
      rewrite <- (set_same abs i _ Hh). eapply sim_update; eauto; cbn; try lia; try congruence.
      constructor; auto. match goal with X : refines _ _ _ a |- _ => destruct X as [X1 X2] end. split; [intros m' v Hv; apply X1|intros Hv; apply X2]; (econstructor; [exact HU|exact Hv]).
    + exists a, abs, (set_nth i Writer ro). split; [|split; reflexivity].
      rewrite <- (set_same abs i _ Hh). eapply sim_update; eauto; cbn; try lia; try congruence.
      constructor; auto. match goal with X : refines _ _ _ a |- _ => destruct X as [X1 X2] end. split; [intros m' v Hv; apply X1|intros Hv; apply X2]; econstructor; exact Hv.
    + exists (sh_mem s), (set_nth i (mkGo l (r ++ [v])) abs), (set_nth i Idle ro). split.
      * match goal with E : sh_mu s = _ |- _ => rewrite E in *; cbn in * end.
        eapply sim_update; eauto; cbn; try lia; try discriminate. { constructor; auto. }
        intros j g h c0 N Hj Hj'. destruct (Onow j c0 N Hj). eapply rel_other; eauto.
      * eexists _, l, r, v. split; [exact Hh|]. split; [|reflexivity].
        match goal with X : refines _ _ _ a |- _ => apply X end. repeat constructor.
  - (* reading *)
    assert (W : rw_writer (sh_mu s) = false).
    { destruct (rw_writer (sh_mu s)) eqn:E; auto. pose proof (count_pos _ _ _ Hc). rewrite (HA eq_refl) in HR. lia. }
    match goal with Q : reading _ |- _ => inversion Q; subst end; inversion Hact; subst; cbn [leaves].
    + exists a, abs, (set_nth i Reader ro). split; [|split; reflexivity].
      rewrite <- (set_same abs i _ Hh).
      match goal with F : forall m, f m = m |- _ => rewrite F; rename F into Ff end.
      eapply sim_update; eauto; cbn; try lia.
      constructor; auto. match goal with X : refines _ _ _ a |- _ => destruct X as [X1 X2] end. split; [intros m' v Hv; apply X1|intros Hv; apply X2]; constructor; rewrite Ff; exact Hv.
    + exists a, (set_nth i (mkGo l (r ++ [v])) abs), (set_nth i Idle ro). split.
      * match goal with E : sh_mu s = _ |- _ => rewrite E in *; cbn in * end.
        eapply sim_update; eauto; cbn; try lia; try congruence. constructor; auto.
      * eexists _, l, r, v. split; [exact Hh|]. split; [|reflexivity].
        match goal with X : refines _ _ _ a |- _ => apply X end. rewrite (HM W). repeat constructor.
  - inversion Hact.
  - inversion Hact; subst; cbn [leaves]. exists a, abs, (set_nth i Idle ro). split; [|split; reflexivity].
    rewrite <- (set_same abs i _ Hh). eapply sim_update; eauto; cbn; try lia; [constructor; auto|].
    apply Z.mod_pos_bound. reflexivity.
Qed.

Lemma sim_return a s gs abs ro i v l r : sim a s gs abs ro -> nth_error gs i = Some (mkGo (Return v :: l) r) ->
  exists ro', sim a s (set_nth i (mkGo l (r ++ [v])) gs) abs ro'.
Proof.
  intros H Hg. destruct (partner _ _ _ _ (sim_len _ _ _ _ _ H) Hg) as [h Hh]. destruct (partner _ _ _ _ (sim_len_ro _ _ _ _ _ H) Hg) as [c Hc].
  pose proof (sim_rel _ _ _ _ _ H _ _ _ _ Hg Hh Hc) as Hr.
  inversion Hr; subst.
  - match goal with F : Forall guarded (_ :: _) |- _ => inversion F; subst end.
    match goal with G : guarded _ |- _ => destruct G as [(k & E & _)|[(k & E & _)|(k & v' & E & _)]]; discriminate E end.
  - match goal with Q : writing _ |- _ => inversion Q end.
  - match goal with Q : reading _ |- _ => inversion Q end.
  - exists (set_nth i Idle ro). rewrite <- (set_same abs i _ Hh). counts Hc.
    eapply sim_update; eauto; try (constructor; auto); try apply H;
      pose proof (sim_writer _ _ _ _ _ H); pose proof (sim_wait _ _ _ _ _ H); pose proof (sim_readers _ _ _ _ _ H); lia.
Qed.

Definition simulates (a : M) (abs : list (goroutine M V)) (x : system M V) : Prop := exists ro, sim a (sy_shared x) (sy_gos x) abs ro.

Lemma simulates_step i b x y a abs : simulates a abs x -> step i b x y ->
  exists a' abs', simulates a' abs' y /\ matched b i a abs a' abs'.
Proof.
  intros (ro & H) Hs. destruct Hs as [i p l r s p' s' gs Hg Hact|i v l r s gs Hg|i l r s gs Hg]; cbn in H.
  - destruct (sim_act _ _ _ _ _ _ _ _ _ _ _ H Hg Hact) as (a' & abs' & ro' & A & B). exists a', abs'. split; [exists ro'; exact A|exact B].
  - destruct (sim_return _ _ _ _ _ _ _ _ _ H Hg) as (ro' & A). exists a, abs. split; [exists ro'; exact A|split; reflexivity].
  - exists a, abs. split; [exists ro; exact H|split; reflexivity].
Qed.

Lemma simulates_steps ps x y : steps ps x y -> forall a abs, simulates a abs x ->
  exists a' abs', simulates a' abs' y /\ one_by_one ps a abs a' abs'.
Proof.
  induction 1 as [x|i x y z ps Hs Hr IH|i x y z ps Hs Hr IH]; intros a abs H.
  - exists a, abs. split; [exact H|constructor].
  - destruct (simulates_step _ _ _ _ _ _ H Hs) as (a1 & abs1 & H1 & -> & ->). auto.
  - destruct (simulates_step _ _ _ _ _ _ H Hs) as (a1 & abs1 & H1 & p & l & r & v & A & B & ->).
    destruct (IH _ _ H1) as (a2 & abs2 & H2 & K). exists a2, abs2. split; [exact H2|]. econstructor; eauto.
Qed.

Lemma simulates_start m c calls : uint32 c -> Forall (Forall guarded) calls -> simulates m (map (fun l => mkGo l []) calls) (start m c calls).
Proof. intros Hu H. eexists. apply sim_start; assumption. Qed.

Lemma simulates_finished a abs x : simulates a abs x -> finished x -> sh_mem (sy_shared x) = a /\ abs = sy_gos x.
Proof.
  intros (ro & H) F. unfold finished in F. rewrite Forall_forall in F.
  assert (I : forall i c, nth_error ro i = Some c -> c = Idle /\ nth_error abs i = nth_error (sy_gos x) i).
  { intros i c Hc. destruct (nth_error (sy_gos x) i) as [g|] eqn:Hg.
    2:{ apply nth_error_None in Hg. assert (nth_error ro i <> None) by congruence. apply nth_error_Some in H0. rewrite (sim_len_ro _ _ _ _ _ H) in H0. lia. }
    destruct (partner _ _ _ _ (sim_len _ _ _ _ _ H) Hg) as [h Hh].
    pose proof (sim_rel _ _ _ _ _ H _ _ _ _ Hg Hh Hc) as Hr. pose proof (F g (nth_error_In _ _ Hg)) as E.
    inversion Hr; subst; cbn in E; try discriminate. split; [reflexivity|]. rewrite Hh. reflexivity. }
  split.
  - apply (sim_mem _ _ _ _ _ H). pose proof (sim_writer _ _ _ _ _ H) as W. destruct (rw_writer (sh_mu (sy_shared x))); auto.
    destruct (count_find Writer ro) as (i & Hi); [lia|]. destruct (I _ _ Hi). discriminate.
  - apply nth_ext_error. intros i. destruct (nth_error ro i) as [c|] eqn:Hc; [apply (I i c Hc)|].
    apply nth_error_None in Hc. pose proof (sim_len _ _ _ _ _ H). pose proof (sim_len_ro _ _ _ _ _ H).
    rewrite (proj2 (nth_error_None abs i)) by lia. symmetry. apply nth_error_None. lia.
Qed.

(** ** C69, for any memory *)
Lemma guarded_serial m c calls ps (x : system M V) : uint32 c -> Forall (Forall guarded) calls -> steps ps (start m c calls) x -> finished x ->
  one_by_one ps m (map (fun l => mkGo l []) calls) (sh_mem (sy_shared x)) (sy_gos x).
Proof.
  intros Hu H Hs F. destruct (simulates_steps _ _ _ Hs _ _ (simulates_start m c calls Hu H)) as (a & abs & S1 & K).
  destruct (simulates_finished _ _ _ S1 F) as [<- <-]. exact K.
Qed.

(** while calls are under way: whoever can look (nobody holds the mutex as a writer) finds the memory of the calls that have
    left the mutex, made one by one *)
Lemma guarded_serial_now m c calls ps (x : system M V) : uint32 c -> Forall (Forall guarded) calls -> steps ps (start m c calls) x ->
  rw_writer (sh_mu (sy_shared x)) = false ->
  exists gs, one_by_one ps m (map (fun l => mkGo l []) calls) (sh_mem (sy_shared x)) gs.
Proof.
  intros Hu H Hs F. destruct (simulates_steps _ _ _ Hs _ _ (simulates_start m c calls Hu H)) as (a & abs & S1 & K).
  destruct S1 as (ro & S1). rewrite (sim_mem _ _ _ _ _ S1 F). exists abs. exact K.
Qed.

(** ** a panic *)
Lemma crashed_at (x y : system M V) ps : steps ps x y -> sy_crashed x = false -> sy_crashed y = true ->
  exists i l r, nth_error (sy_gos y) i = Some (mkGo (Crash :: l) r).
Proof.
  assert (N : forall i b (x y z : system M V) ps, step i b x y -> steps ps y z -> sy_crashed y = true -> z = y).
  { intros i b u w z qs _ S C. inversion S as [|j ? ? ? ? St|j ? ? ? ? St]; subst; [reflexivity| |]; inversion St; subst; cbn in C; congruence. }
  induction 1 as [x|i x y z ps Hs Hr IH|i x y z ps Hs Hr IH]; intros C D; [congruence| |];
    (destruct (sy_crashed y) eqn:E; [|apply IH; auto]); pose proof (N _ _ _ _ _ _ Hs Hr E) as ->;
    inversion Hs; subst; try discriminate E; cbn; eauto.
Qed.

Lemma guarded_panic m c calls ps (x : system M V) : uint32 c -> Forall (Forall guarded) calls -> steps ps (start m c calls) x ->
  sy_crashed x = true ->
  exists m' gs i p l r, one_by_one ps m (map (fun l => mkGo l []) calls) m' gs /\ nth_error gs i = Some (mkGo (p :: l) r) /\ crashes p m'.
Proof.
  intros Hu H Hs C. destruct (simulates_steps _ _ _ Hs _ _ (simulates_start m c calls Hu H)) as (a & abs & (ro & S1) & K).
  destruct (crashed_at _ _ _ Hs eq_refl C) as (i & l & r & Hg).
  destruct (partner _ _ _ _ (sim_len _ _ _ _ _ S1) Hg) as [h Hh]. destruct (partner _ _ _ _ (sim_len_ro _ _ _ _ _ S1) Hg) as [ro_i Hc].
  pose proof (sim_rel _ _ _ _ _ S1 _ _ _ _ Hg Hh Hc) as Hr. inversion Hr; subst.
  - match goal with F : Forall guarded (_ :: _) |- _ => inversion F; subst end.
    match goal with G : guarded _ |- _ => destruct G as [(k & E & _)|[(k & E & _)|(k & v' & E & _)]]; discriminate E end.
  - exists a, abs, i, p, l, r. split; [exact K|]. split; [exact Hh|]. match goal with X : refines _ _ _ a |- _ => apply X end. constructor.
  - exists a, abs, i, p, l, r. split; [exact K|]. split; [exact Hh|]. match goal with X : refines _ _ _ a |- _ => apply X end. constructor.
Qed.

(** ** C70: some goroutine can move *)
Lemma can_act a s gs abs ro i p l r s' p' : sim a s gs abs ro -> nth_error gs i = Some (mkGo (p :: l) r) -> act s p s' p' ->
  exists i b y, step i b (mkSys s gs false) y.
Proof. intros H Hg Ha. eexists _, _, _. eapply st_act; eauto. Qed.

Lemma sim_progress a s gs abs ro : sim a s gs abs ro -> ~ finished (mkSys s gs false) -> exists i b y, step i b (mkSys s gs false) y.
Proof.
  intros H NF. pose proof (sim_writer _ _ _ _ _ H) as HW. pose proof (sim_wait _ _ _ _ _ H) as HT. pose proof (sim_readers _ _ _ _ _ H) as HR.
  pose proof (sim_alone _ _ _ _ _ H) as HA.
  assert (G : forall i c, nth_error ro i = Some c -> exists g h, nth_error gs i = Some g /\ rel a (sh_mem s) c g h).
  { intros i c Hc. destruct (partner ro gs i c) as [g Hg]; [symmetry; apply H|exact Hc|].
    destruct (partner _ _ _ _ (sim_len _ _ _ _ _ H) Hg) as [h Hh]. exists g, h. split; [exact Hg|]. eapply (sim_rel _ _ _ _ _ H); eauto. }
  destruct s as [m c [t w n]]. cbn in *.
  destruct w.
  { (* the writer *)
    destruct t; [|lia]. destruct (count_find Writer ro) as (i & Hi); [lia|]. destruct (G _ _ Hi) as (g & h & Hg & Hr).
    inversion Hr; subst. match goal with Q : writing _ |- _ => inversion Q; subst end.
    - eapply can_act; eauto. apply ac_access.
    - eapply can_act; eauto. apply ac_load.
    - eapply can_act; eauto. apply ac_store.
    - eexists _, _, _. eapply st_crash; eauto.
    - eapply can_act; eauto. eapply ac_unlock. reflexivity. }
  destruct n as [|n].
  2:{ (* a reader *)
    destruct (count_find Reader ro) as (i & Hi); [lia|]. destruct (G _ _ Hi) as (g & h & Hg & Hr).
    inversion Hr; subst. match goal with Q : reading _ |- _ => inversion Q; subst end.
    - eapply can_act; eauto. apply ac_access.
    - eexists _, _, _. eapply st_crash; eauto.
    - eapply can_act; eauto. eapply ac_runlock. reflexivity. }
  destruct t.
  { (* a writer that waits for the readers *)
    destruct (count_find Waiting ro) as (i & Hi); [lia|]. destruct (G _ _ Hi) as (g & h & Hg & Hr).
    inversion Hr; subst. eapply can_act; eauto. eapply ac_locked. reflexivity. }
  (* nobody is inside *)
  assert (E : exists i g, nth_error gs i = Some g /\ go_calls g <> []).
  { clear -NF. unfold finished in NF. cbn in NF. induction gs as [|g gs IH]; [destruct NF; constructor|].
    destruct (go_calls g) eqn:Eg.
    - destruct IH as (i & g' & A & B); [intros F; apply NF; constructor; auto|]. exists (S i), g'. auto.
    - exists 0%nat, g. split; [reflexivity|congruence]. }
  destruct E as (i & g & Hg & Hn). destruct (partner _ _ _ _ (sim_len_ro _ _ _ _ _ H) Hg) as [ro_i Hc].
  destruct (partner _ _ _ _ (sim_len _ _ _ _ _ H) Hg) as [h Hh]. pose proof (sim_rel _ _ _ _ _ H _ _ _ _ Hg Hh Hc) as Hr. cbn in Hr.
  inversion Hr; subst; cbn in Hn; try (pose proof (count_pos _ _ _ Hc); lia).
  - destruct l as [|p l]; [congruence|]. match goal with F : Forall guarded (_ :: _) |- _ => inversion F; subst end.
    match goal with Gd : guarded p |- _ => destruct Gd as [(k & -> & Wk)|[(k & -> & Rk)|(k & v & -> & Wk & Ek)]] end;
      eapply can_act; eauto; [eapply ac_lock|eapply ac_rlock|eapply ac_try]; reflexivity.
  - eexists _, _, _. eapply st_return; eauto.
  - eapply can_act; eauto. apply ac_inc.
Qed.

(** ** C70: no schedule goes on forever *)
Inductive smaller : prog M V -> prog M V -> Prop :=
| sm_access f k m : smaller (k m) (Access f k)
| sm_load k z : smaller (k z) (Load k)
| sm_store z k : smaller k (Store z k)
| sm_inc k : smaller k (Inc k)
| sm_lock k : smaller (LockWait k) (Lock k)
| sm_wait k : smaller k (LockWait k)
| sm_unlock k : smaller k (Unlock k)
| sm_rlock k : smaller k (RLock k)
| sm_runlock k : smaller k (RUnlock k)
| sm_try k b : smaller (k b) (TryLock k).

Lemma smaller_wf p : Acc smaller p.
Proof.
  induction p; constructor; intros q Hq; inversion Hq; subst; auto.
  constructor. intros q Hq'. inversion Hq'; subst. assumption.
Qed.

Inductive fewer : goroutine M V -> goroutine M V -> Prop :=
| fw_head p' p l r : smaller p' p -> fewer (mkGo (p' :: l) r) (mkGo (p :: l) r)
| fw_pop p l r r' : fewer (mkGo l r') (mkGo (p :: l) r).

Lemma fewer_wf g : Acc fewer g.
Proof.
  destruct g as [l r]. revert r. induction l as [|p l IH]; intros r; [constructor; intros h Hh; inversion Hh|].
  revert r. induction (smaller_wf p) as [p _ IHp]. intros r. constructor. intros h Hh. inversion Hh; subst; [apply IHp; assumption|apply IH].
Qed.

Definition fewer_one (l' l : list (goroutine M V)) : Prop := exists i g g', nth_error l i = Some g /\ fewer g' g /\ l' = set_nth i g' l.

Lemma fewer_one_wf l : Acc fewer_one l.
Proof.
  induction l as [|g l IH]; [constructor; intros l' (i & g & g' & A & _); destruct i; discriminate A|].
  revert l IH. induction (fewer_wf g) as [g _ IHg]. intros l IH. induction IH as [l Hl IHl].
  constructor. intros l' (i & h & h' & A & B & ->). destruct i as [|i]; cbn in *.
  - injection A as <-. apply IHg; [exact B|]. constructor. exact Hl.
  - apply IHl. exists i, h, h'. auto.
Qed.

Lemma act_smaller s p s' p' : act s p s' p' -> smaller p' p.
Proof. destruct 1; constructor. Qed.

Lemma simulates_ends (x : system M V) a abs : simulates a abs x -> ends x.
Proof.
  destruct x as [s gs cr]. revert s cr a abs. induction (fewer_one_wf gs) as [gs _ IH]. intros s cr a abs H.
  destruct cr; [apply en_crash; reflexivity|].
  assert (D : finished (mkSys s gs false) \/ ~ finished (mkSys s gs false)).
  { unfold finished. cbn. clear. induction gs as [|g gs IH]; [left; constructor|]. destruct IH as [IH|IH].
    - destruct (go_calls g) eqn:E; [left; constructor; auto|]. right. intros F. inversion F; subst. congruence.
    - right. intros F. inversion F; subst. auto. }
  destruct D as [D|D]; [apply en_done; exact D|].
  apply en_step.
  - destruct H as (ro & H). eapply sim_progress; eauto.
  - intros i b y Hs. destruct (simulates_step _ _ _ _ _ _ H Hs) as (a' & abs' & Hy & _).
    inversion Hs; subst; cbn in *.
    + eapply IH; [|exact Hy]. eexists i, _, _. split; [eassumption|]. split; [|reflexivity]. constructor. eapply act_smaller; eauto.
    + eapply IH; [|exact Hy]. eexists i, _, _. split; [eassumption|]. split; [|reflexivity]. constructor.
    + apply en_crash. reflexivity.
Qed.

Lemma guarded_ends m c calls ps (x : system M V) : uint32 c -> Forall (Forall guarded) calls -> steps ps (start m c calls) x -> ends x.
Proof.
  intros Hu H Hs. destruct (simulates_steps _ _ _ Hs _ _ (simulates_start m c calls Hu H)) as (a & abs & S1 & K).
  eapply simulates_ends; eauto.
Qed.
End P.
