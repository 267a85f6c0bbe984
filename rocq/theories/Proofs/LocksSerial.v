(** Calls in two phases behave as if they were made one at a time. *)
From Coq Require Import Lia.
From Verif.Model Require Import Base Mutex Locks.
From Verif.Spec Require Import LocksSpec.
From Verif.Proofs Require Import MutexProofs LocksBase LocksLive.

Section P.
Context {K C V : Type} {E : Keys K}.
Notation pr := (prog K C V).
Notation go := (goroutine K C V).
Notation hold := (holding (K := K)).
Variable ok : K -> C -> Prop.
Definition all_ok (m : K -> C) : Prop := forall i, ok i (m i).
Implicit Types (c a b m : K -> C) (t : list K).

(** *** one call alone *)
Lemma upd_ext m m1 i (x : C) : (forall j, m1 j = m j) -> forall j, upd m1 i x j = upd m i x j.
Proof. intros H j. unfold upd. destruct (eqK j i); auto. Qed.
Lemma alone_ext (p : pr) m m' v : alone p m m' v -> forall m1, (forall j, m1 j = m j) -> alone p m1 m' v.
Proof.
  induction 1; intros m1 X; try (econstructor; eauto; fail).
  - constructor. intros j. now rewrite H, X.
  - constructor. rewrite X. apply IHalone. now apply upd_ext.
Qed.

Lemma upd_ok b i x : all_ok b -> ok i x -> all_ok (upd b i x).
Proof. intros H Hx j. unfold upd. destruct (eqK j i) as [->|]; auto. Qed.
Lemma releasing_total h (p : pr) : releasing ok h p -> forall b, all_ok b -> exists m v, alone p b m v /\ all_ok m.
Proof.
  induction 1 as [v|h i f k A P B IH|h i k A B IH|h i k A B IH]; intros b O.
  - exists b, v. split; [now constructor|exact O].
  - destruct (IH (b i) (O i) (upd b i (f (b i)))) as (m & v & Q & O'); [apply upd_ok; auto|]. exists m, v. split; [now constructor|exact O'].
  - destruct (IH b O) as (m & v & Q & O'). exists m, v. split; [now constructor|exact O'].
  - destruct (IH b O) as (m & v & Q & O'). exists m, v. split; [now constructor|exact O'].
Qed.
Lemma releasing_keeps h (p : pr) : releasing ok h p -> forall b m v j, all_ok b -> alone p b m v -> ~ In (j, true) h -> m j = b j.
Proof.
  induction 1 as [v|h i f k A P B IH|h i k A B IH|h i k A B IH]; intros b m w j O Q N; inversion Q; subst.
  - auto.
  - match goal with X : alone (k _) _ _ _ |- _ => rewrite (IH _ (O i) _ _ _ j (upd_ok _ _ _ O (P _ (O i))) X N) end. unfold upd. destruct (eqK j i) as [->|]; [|reflexivity]. destruct A as [A|[_ A]]; [contradiction|apply A].
  - eapply IH; [exact O|eassumption|]. rewrite release_in. tauto.
  - eapply IH; [exact O|eassumption|]. rewrite release_in. tauto.
Qed.
Lemma releasing_local h (p : pr) : releasing ok h p -> forall b m v, all_ok b -> alone p b m v -> forall b', all_ok b' -> (forall j, In j (keys h) -> b' j = b j) ->
  exists m', alone p b' m' v /\ forall j, In j (keys h) -> m' j = m j.
Proof.
  assert (REL : forall (h : hold) i (k : pr), releasing ok (release i h) k ->
    (forall b m v, all_ok b -> alone k b m v -> forall b', all_ok b' -> (forall j, In j (keys (release i h)) -> b' j = b j) -> exists m', alone k b' m' v /\ forall j, In j (keys (release i h)) -> m' j = m j) ->
    forall b m v, all_ok b -> alone k b m v -> forall b', all_ok b' -> (forall j, In j (keys h) -> b' j = b j) -> exists m', alone k b' m' v /\ forall j, In j (keys h) -> m' j = m j).
  { intros h0 i k R IH b m v O Q b' O' X. destruct (IH b m v O Q b' O') as (m' & Q' & Y). { intros j Hj. apply X. now apply (proj1 (release_keys _ _ _)) in Hj. }
    exists m'. split; [exact Q'|]. intros j Hj. destruct (eqK j i) as [->|N]; [|apply Y; now apply release_keys].
    rewrite (releasing_keeps _ _ R _ _ _ i O' Q'), (releasing_keeps _ _ R _ _ _ i O Q); [now apply X| |]; rewrite release_in; tauto. }
  induction 1 as [v|h i f k A P B IH|h i k A B IH|h i k A B IH]; intros b m w O Q b' O' X; inversion Q; subst.
  - exists b'. split; [now constructor|]. intros j [].
  - assert (Hi : In i (keys h)) by (destruct A as [A|[A _]]; eapply in_keys; eauto).
    edestruct (IH (b i) (O i)) as (m' & Q' & Y); [|eassumption| | |exists m'; split; [constructor; rewrite (X i Hi); exact Q'|exact Y]].
    + apply upd_ok; auto.
    + apply upd_ok; auto.
    + intros j Hj. unfold upd. destruct (eqK j i); auto.
  - edestruct REL as (m' & Q' & Y); [exact B|exact IH|exact O|eassumption|exact O'|exact X|]. exists m'. split; [now constructor|exact Y].
  - edestruct REL as (m' & Q' & Y); [exact B|exact IH|exact O|eassumption|exact O'|exact X|]. exists m'. split; [now constructor|exact Y].
Qed.

(** *** the simulation *)
Definition mem_dec (j : K) t : {In j t} + {~ In j t} := in_dec eqK j t.
Definition mix t c a : K -> C := fun j => if mem_dec j t then c j else a j.
Definition tk_typed (h : hold) t (p : pr) : Prop := match p with LockWait i k => taking ok h t (Lock i k) | _ => taking ok h t p end.

Inductive phase : Type := PIdle | PTaking (t : list K) (p0 : pr) | PReleasing (v : V).
Notation ghost := (hold * go * phase)%type.

Definition phase_ok c a (w : ghost) : Prop :=
  let '(h, g, ph) := w in
  match ph with
  | PIdle => go_now g = None /\ h = []
  | PTaking t p0 => exists p, go_now g = Some p /\ tk_typed h t p /\ incl t (keys h) /\
      forall a' m' v, all_ok a' -> (forall j, In j t -> a' j = a j) -> alone p (mix t c a') m' v -> alone p0 a' m' v
  | PReleasing v => exists p m', go_now g = Some p /\ releasing ok h p /\ alone p c m' v /\ forall j, In j (keys h) -> m' j = a j
  end.
Definition dirty (w : ghost) (j : K) : Prop :=
  mode j (fst (fst w)) = Some true /\ match snd w with PIdle => False | PTaking t _ => In j t | PReleasing _ => True end.
Definition abs (w : ghost) : todo :=
  let '(h, g, ph) := w in
  match ph with
  | PIdle => (go_calls g, go_results g)
  | PTaking _ p0 => (p0 :: go_calls g, go_results g)
  | PReleasing v => (go_calls g, go_results g ++ [v])
  end.
Definition each (P : ghost -> Prop) (ws : list ghost) : Prop := forall n w, nth_error ws n = Some w -> P w.

Record inv (x : system K C V) (ws : list ghost) a : Prop := mkInv {
  i_gos : sy_gos x = map snd (map fst ws);
  i_okc : all_ok (sh_mem (sy_shared x));
  i_oka : all_ok a;
  i_mu : forall j, mutex_ok (sh_mu (sy_shared x) j) (map (cls j) (map fst ws));
  i_nodup : each (fun w => NoDup (keys (fst (fst w)))) ws;
  i_calls : each (fun w => Forall (two_phase ok) (go_calls (snd (fst w)))) ws;
  i_phase : each (phase_ok (sh_mem (sy_shared x)) a) ws;
  i_mem : forall j, each (fun w => ~ dirty w j) ws -> sh_mem (sy_shared x) j = a j }.

Lemma set_none {A} (l : list A) n x : nth_error l n = None -> nth_error (set_nth n x l) n = None.
Proof. revert n. induction l; intros [|n]; cbn; try discriminate; auto. Qed.
Lemma each_set P ws n w : each P ws -> P w -> each P (set_nth n w ws).
Proof.
  intros H Hw k y Hk. destruct (Nat.eq_dec k n) as [->|N].
  - destruct (nth_error ws n) eqn:En; [rewrite (nth_set_same _ _ _ _ En) in Hk; congruence|]. exfalso. rewrite (set_none _ _ _ En) in Hk. discriminate.
  - rewrite nth_set_other in Hk by congruence. eauto.
Qed.
Lemma each_other (P : ghost -> Prop) ws n w : (forall k y, k <> n -> nth_error ws k = Some y -> P y) -> P w -> each P (set_nth n w ws).
Proof.
  intros H Hw k y Hk. destruct (Nat.eq_dec k n) as [->|N].
  - destruct (nth_error ws n) eqn:En; [rewrite (nth_set_same _ _ _ _ En) in Hk; congruence|]. exfalso. rewrite (set_none _ _ _ En) in Hk. discriminate.
  - rewrite nth_set_other in Hk by congruence. eauto.
Qed.
Lemma each_set_inv (P : ghost -> Prop) ws n w w0 : each P (set_nth n w ws) -> nth_error ws n = Some w0 -> P w /\ forall k y, k <> n -> nth_error ws k = Some y -> P y.
Proof.
  intros H Hn. split.
  - eapply H. eapply nth_set_same; eauto.
  - intros k y N Hk. eapply (H k). rewrite nth_set_other by congruence. exact Hk.
Qed.

Lemma dirty_dec w j : dirty w j \/ ~ dirty w j.
Proof.
  unfold dirty. destruct (mode j (fst (fst w))) as [[]|]; [|right; intros [? _]; discriminate|right; intros [? _]; discriminate].
  destruct (snd w); [right; tauto| |left; auto]. destruct (mem_dec j t); [left|right]; tauto.
Qed.

Lemma mode_keys j (h : hold) : In j (keys h) -> exists q, mode j h = Some q.
Proof. intros H. destruct (mode j h) eqn:M; [eauto|]. now apply mode_none in M. Qed.

(** Two goroutines never hold a mutex when one of them writes. *)
Lemma only_writer x ws a n n' w w' j : inv x ws a -> nth_error ws n = Some w -> nth_error ws n' = Some w' -> n <> n' ->
  mode j (fst (fst w)) = Some true -> ~ In j (keys (fst (fst w'))).
Proof.
  intros I Hn Hn' N M. destruct w as [[h g] ph], w' as [[h' g'] ph']. cbn in *. apply mode_none.
  eapply writer_alone; [apply (i_mu _ _ _ I j)| | |exact M|exact N]; rewrite nth_error_map, ?Hn, ?Hn'; reflexivity.
Qed.

Lemma clean x ws a n w j : inv x ws a -> nth_error ws n = Some w -> In j (keys (fst (fst w))) -> ~ dirty w j -> sh_mem (sy_shared x) j = a j.
Proof.
  intros I Hn Hj Hd. apply (i_mem _ _ _ I). intros k y Hk Dy. destruct (Nat.eq_dec k n) as [->|N]; [congruence|].
  destruct Dy as [M _]. exact (only_writer x ws a k n y w j I Hk Hn N M Hj).
Qed.

Lemma mix_ext t c c' a : (forall j, In j t -> c' j = c j) -> forall j, mix t c' a j = mix t c a j.
Proof. intros H j. unfold mix. destruct (mem_dec j t); auto. Qed.

Lemma phase_stable c a c' a' w : all_ok c -> all_ok c' -> phase_ok c a w -> (forall j, In j (keys (fst (fst w))) -> c' j = c j /\ a' j = a j) -> phase_ok c' a' w.
Proof.
  destruct w as [[h g] [|t p0|v]]; cbn; intros O O' H X; [exact H| |].
  - destruct H as (p & H1 & H2 & H3 & H4). exists p. repeat split; auto. intros a1 m' v O1 Y Q. eapply H4; [exact O1| |].
    + intros j Hj. rewrite (Y j Hj). apply X. now apply H3.
    + eapply alone_ext; [exact Q|]. intros j. symmetry. apply mix_ext. intros i Hi. apply X. now apply H3.
  - destruct H as (p & m' & H1 & H2 & H3 & H4). destruct (releasing_local _ _ H2 _ _ _ O H3 c' O') as (m1 & Q & Y); [intros j Hj; now apply X|].
    exists p, m1. repeat split; auto. intros j Hj. rewrite Y, H4 by exact Hj. symmetry. now apply X.
Qed.


(** A step of goroutine [n]. *)
Lemma inv_step s s' ws a n h p l r ph h' p' ph' :
  inv (mkSys s (map snd (map fst ws)) false) ws a -> nth_error ws n = Some (h, mkGo (Some p) l r, ph) -> hact s h p s' h' p' -> all_ok (sh_mem s') ->
  phase_ok (sh_mem s') a (h', mkGo (Some p') l r, ph') ->
  (forall j, mode j h <> Some true -> sh_mem s' j = sh_mem s j) ->
  (forall j, ~ dirty (h', mkGo (Some p') l r, ph') j -> sh_mem s' j = sh_mem s j) ->
  (forall j, dirty (h, mkGo (Some p) l r, ph) j -> ~ dirty (h', mkGo (Some p') l r, ph') j -> sh_mem s' j = a j) ->
  inv (mkSys s' (set_nth n (mkGo (Some p') l r) (map snd (map fst ws))) false) (set_nth n (h', mkGo (Some p') l r, ph') ws) a.
Proof.
  intros I Hn M O' P Q1 Q2 Q3. split; cbn.
  - now rewrite !map_set.
  - exact O'.
  - apply (i_oka _ _ _ I).
  - rewrite map_set. cbn. eapply mutex_step; [apply (i_mu _ _ _ I)| |apply (i_nodup _ _ _ I _ _ Hn)|exact M]. now rewrite nth_error_map, Hn.
  - apply each_set; [apply (i_nodup _ _ _ I)|]. cbn. eapply hact_nodup; [exact M|apply (i_nodup _ _ _ I _ _ Hn)].
  - apply each_set; [apply (i_calls _ _ _ I)|]. apply (i_calls _ _ _ I _ _ Hn).
  - apply each_other; [|exact P]. intros k y N Hk. eapply phase_stable; [apply (i_okc _ _ _ I)|exact O'|apply (i_phase _ _ _ I _ _ Hk)|]. intros j Hj. split; [|reflexivity].
    apply Q1. intros W. eapply (only_writer _ _ _ n k); eauto.
  - intros j H. destruct (each_set_inv _ _ _ _ _ H Hn) as (D & O). destruct (dirty_dec (h, mkGo (Some p) l r, ph) j) as [Y|Y]; [now apply Q3|].
    rewrite (Q2 j D). apply (i_mem _ _ _ I). intros k y Hk. destruct (Nat.eq_dec k n) as [->|N]; [congruence|eauto].
Qed.

Lemma taking_nowait h t (p : pr) : taking ok h t p -> nowait p.
Proof. destruct 1; try exact I. destruct H; exact I. Qed.
Lemma releasing_nowait h (p : pr) : releasing ok h p -> nowait p.
Proof. destruct 1; exact I. Qed.
Lemma taking_typed h t (p : pr) : taking ok h t p -> tk_typed h t p.
Proof. intros H. pose proof (taking_nowait _ _ _ H). destruct p; try exact H. contradiction. Qed.

Ltac samemem := intros; cbn; first [reflexivity|contradiction|assumption].

(** *** the goroutine has let go of something it touched *)
Lemma releasing_step s ws a n h p l r v s' p' :
  inv (mkSys s (map snd (map fst ws)) false) ws a -> nth_error ws n = Some (h, mkGo (Some p) l r, PReleasing v) -> act s p s' p' ->
  exists h', inv (mkSys s' (set_nth n (mkGo (Some p') l r) (map snd (map fst ws))) false) (set_nth n (h', mkGo (Some p') l r, PReleasing v) ws) a.
Proof.
  intros I Hn A. destruct (i_phase _ _ _ I _ _ Hn) as (q & m' & [= <-] & R & Q & X). cbn in Q, X. pose proof (i_nodup _ _ _ I _ _ Hn) as D. cbn in D. pose proof (i_okc _ _ _ I) as O. cbn in O.
  destruct A as [s i f k|s i k m B|s i k B|s i k m B|s i k m B|s i k t w m B|s i k B|s i k B]; try (inversion R; fail).
  - inversion R as [|? ? ? ? W PR R' | |]; subst. inversion Q as [|? ? ? ? ? ? Q'| | | | | |]; subst. exists h.
    assert (KEEP : mode i h <> Some true -> upd (sh_mem s) i (f (sh_mem s i)) i = sh_mem s i).
    { intros N. destruct W as [W|[W1 W2]]; [exfalso; apply N; now apply mode_in|]. rewrite upd_same. apply W2. }
    eapply inv_step; [exact I|exact Hn|constructor; eapply releasing_nowait, R', O|cbn; apply upd_ok; auto| | | |]; cbn.
    + eexists _, m'. repeat split; [apply R', O|exact Q'|exact X].
    + intros j N. destruct (eqK j i) as [->|Ne]; [now apply KEEP|now apply upd_other].
    + intros j N. destruct (eqK j i) as [->|Ne]; [apply KEEP; intros Y; apply N; split; auto; exact Logic.I|now apply upd_other].
    + intros j Dj N. exfalso. apply N. exact Dj.
  - inversion R as [| |? ? ? W R' |]; subst. inversion Q as [| | | |? ? ? ? ? Q'| | |]; subst. exists (release i h). eapply inv_step; [exact I|exact Hn|econstructor; [exact B|exact W|eapply releasing_nowait, R']|exact O| |samemem|samemem|]; cbn.
    + eexists _, m'. repeat split; eauto. intros j Hj. apply X. now apply (proj1 (release_keys _ _ _)) in Hj.
    + intros j [Dj _] N. cbn in Dj. destruct (eqK i j) as [->|Ne].
      * rewrite <- (releasing_keeps _ _ R' _ _ _ j O Q'); [apply X; eapply in_keys; eauto|]. rewrite release_in. tauto.
      * exfalso. apply N. split; [|exact Logic.I]. cbn. rewrite mode_release. destruct (eqK i j); [congruence|exact Dj].
  - inversion R as [| | |? ? ? W R']; subst. inversion Q as [| | | | | |? ? ? ? ? Q'|]; subst. exists (release i h). eapply inv_step; [exact I|exact Hn|econstructor; [exact B|exact W|eapply releasing_nowait, R']|exact O| |samemem|samemem|]; cbn.
    + eexists _, m'. repeat split; eauto. intros j Hj. apply X. now apply (proj1 (release_keys _ _ _)) in Hj.
    + intros j [Dj _] N. cbn in Dj. destruct (eqK i j) as [->|Ne].
      * rewrite (mode_in _ _ _ D W) in Dj. discriminate.
      * exfalso. apply N. split; [|exact Logic.I]. cbn. rewrite mode_release. destruct (eqK i j); [congruence|exact Dj].
Qed.

(** *** the goroutine begins to let go *)
Lemma linearise x ws a n h p l r t p0 : inv x ws a -> nth_error ws n = Some (h, mkGo (Some p) l r, PTaking t p0) -> releasing ok h p ->
  exists v a', inv x (set_nth n (h, mkGo (Some p) l r, PReleasing v) ws) a' /\ alone p0 a a' v.
Proof.
  intros I Hn R. destruct (i_phase _ _ _ I _ _ Hn) as (q & [= <-] & _ & T & G). set (c := sh_mem (sy_shared x)) in *.
  pose proof (i_okc _ _ _ I) as O. pose proof (i_oka _ _ _ I) as Oa. fold c in O.
  assert (Om : all_ok (mix t c a)) by (intros j; unfold mix; destruct (mem_dec j t); auto).
  destruct (releasing_total _ _ R (mix t c a) Om) as (m' & v & Q & O'). exists v, m'. split; [|now apply G; auto].
  assert (CL : forall j, In j (keys h) -> ~ In j t -> c j = a j).
  { intros j Hj Ht. eapply clean; [exact I|exact Hn|exact Hj|]. intros [_ Y]. cbn in Y. contradiction. }
  assert (CR : forall j, mode j h <> Some true -> In j t -> c j = a j).
  { intros j Hm Ht. eapply clean; [exact I|exact Hn|now apply T|]. intros [Y _]. cbn in Y. contradiction. }
  assert (D : NoDup (keys h)) by apply (i_nodup _ _ _ I _ _ Hn).
  assert (KEEP : forall j, mode j h <> Some true -> m' j = a j).
  { intros j Hm. rewrite (releasing_keeps _ _ R _ _ _ j Om Q); [|intros Y; apply Hm; now apply mode_in]. unfold mix. destruct (mem_dec j t); auto. }
  split; cbn; fold c.
  - rewrite !map_set. cbn. rewrite (i_gos _ _ _ I). symmetry. apply set_nth_id. now rewrite !nth_error_map, Hn.
  - exact O.
  - exact O'.
  - intros j. rewrite map_set. cbn. rewrite set_nth_id; [apply (i_mu _ _ _ I)|]. now rewrite nth_error_map, Hn.
  - apply each_set; [apply (i_nodup _ _ _ I)|exact D].
  - apply each_set; [apply (i_calls _ _ _ I)|apply (i_calls _ _ _ I _ _ Hn)].
  - apply each_other.
    + intros k y N Hk. eapply phase_stable; [exact O|exact O|apply (i_phase _ _ _ I _ _ Hk)|]. intros j Hj. split; [reflexivity|]. apply KEEP.
      intros W. eapply (only_writer _ _ _ n k); eauto.
    + destruct (releasing_local _ _ R _ _ _ Om Q c O) as (m1 & Q1 & Y).
      { intros j Hj. unfold mix. destruct (mem_dec j t); auto. }
      exists p, m1. repeat split; auto.
  - intros j H. destruct (each_set_inv _ _ _ _ _ H Hn) as (Dn & Oth).
    rewrite KEEP; [|intros Y; apply Dn; split; [exact Y|exact Logic.I]]. apply (i_mem _ _ _ I). intros k y Hk.
    destruct (Nat.eq_dec k n) as [->|N]; [|eauto]. intros [Y _]. rewrite Hn in Hk. injection Hk as <-. apply Dn. split; [exact Y|exact Logic.I].
Qed.

(** *** the goroutine still takes *)
Lemma mix_upd t c a i x : forall j, mix (i :: t) (upd c i x) a j = upd (mix t c a) i x j.
Proof.
  intros j. unfold mix, upd. destruct (eqK j i) as [->|N].
  - destruct (mem_dec i (i :: t)) as [|Y]; [reflexivity|]. exfalso. apply Y. now left.
  - destruct (mem_dec j (i :: t)) as [[Y|Y]|Y], (mem_dec j t) as [Z|Z]; try reflexivity; try congruence. exfalso. apply Y. now right.
Qed.

Lemma taking_step s ws a n h p l r t p0 s' p' :
  inv (mkSys s (map snd (map fst ws)) false) ws a -> nth_error ws n = Some (h, mkGo (Some p) l r, PTaking t p0) -> act s p s' p' ->
  releasing ok h p \/
  exists h' t', inv (mkSys s' (set_nth n (mkGo (Some p') l r) (map snd (map fst ws))) false) (set_nth n (h', mkGo (Some p') l r, PTaking t' p0) ws) a.
Proof.
  intros I Hn A. destruct (i_phase _ _ _ I _ _ Hn) as (q & [= <-] & T & S & G). pose proof (i_nodup _ _ _ I _ _ Hn) as D. cbn in D. pose proof (i_okc _ _ _ I) as O. cbn in O. pose proof (i_oka _ _ _ I) as Oa.
  destruct A as [s i f k|s i k m B|s i k B|s i k m B|s i k m B|s i k t0 w m B|s i k B|s i k B]; cbn in T, G.
  - inversion T as [|? ? ? ? ? W PR T'|? ? ? ? ? W FI KC T'| | | | | |? ? ? R]; subst; [right|right|now left].
    2:{ exists h, t. eapply inv_step; [exact I|exact Hn|constructor; eapply taking_nowait, T', O|cbn; apply upd_ok; [exact O|rewrite FI; apply O]| | | |]; cbn.
      + eexists. split; [reflexivity|]. split; [apply taking_typed, T', O|]. split; [exact S|]. intros a' m' v Oa' Y Q. apply G; [exact Oa'|exact Y|]. constructor.
        rewrite (KC _ (sh_mem s i)); [|unfold mix; destruct (mem_dec i t); auto|apply O]. eapply alone_ext; [exact Q|]. intros j. unfold mix, upd. rewrite !FI. destruct (eqK j i) as [->|]; reflexivity.
      + intros j _. unfold upd. rewrite FI. destruct (eqK j i) as [->|]; reflexivity.
      + intros j _. unfold upd. rewrite FI. destruct (eqK j i) as [->|]; reflexivity.
      + intros j Dj N. exfalso. apply N. exact Dj. }
    exists h, (i :: t).
    assert (KEEP : mode i h <> Some true -> upd (sh_mem s) i (f (sh_mem s i)) i = sh_mem s i).
    { intros N. destruct W as [W|[W1 W2]]; [exfalso; apply N; now apply mode_in|]. rewrite upd_same. apply W2. }
    assert (Hi : In i (keys h)) by (destruct W as [W|[W _]]; eapply in_keys; eauto).
    eapply inv_step; [exact I|exact Hn|constructor; eapply taking_nowait, T', O|cbn; apply upd_ok; auto| | | |]; cbn.
    + eexists. split; [reflexivity|]. split; [apply taking_typed, T', O|]. split; [intros j [<-|Hj]; [exact Hi|now apply S]|].
      intros a' m' v Oa' Y Q. apply G; [exact Oa'|intros j Hj; apply Y; now right|]. constructor.
      assert (EI : mix t (sh_mem s) a' i = sh_mem s i).
      { unfold mix. destruct (mem_dec i t) as [|Ni]; [reflexivity|]. rewrite (Y i (or_introl eq_refl)). symmetry.
        apply (clean _ _ _ _ _ i I Hn Hi). intros [_ Z]. contradiction. }
      rewrite EI. eapply alone_ext; [exact Q|]. intros j. symmetry. apply mix_upd.
    + intros j N. destruct (eqK j i) as [->|Ne]; [now apply KEEP|now apply upd_other].
    + intros j N. destruct (eqK j i) as [->|Ne]; [apply KEEP; intros Y; apply N; split; [exact Y|now left]|now apply upd_other].
    + intros j [Dj Dt] N. exfalso. apply N. split; [exact Dj|right; exact Dt].
  - inversion T as [| | |? ? ? ? W T'| | | | |? ? ? R]; subst; [right|first [now left|inversion R]]. exists h, t. eapply inv_step; [exact I|exact Hn|econstructor; eauto|exact O| |samemem|samemem|]; cbn.
    + eexists. split; [reflexivity|]. split; [exact T|]. split; [exact S|]. intros a' m' v Oa' Y Q. apply G; [exact Oa'|exact Y|]. inversion Q; subst. now constructor.
    + intros j Dj N. exfalso. apply N. exact Dj.
  - inversion T as [| | |? ? ? ? W T'| | | | |? ? ? R]; subst; [right|first [now left|inversion R]]. exists ((i, true) :: h), t. eapply inv_step; [exact I|exact Hn|econstructor; eauto using taking_nowait|exact O| |samemem|samemem|]; cbn.
    + eexists. split; [reflexivity|]. split; [apply taking_typed; exact T'|]. split; [intros j Hj; right; now apply S|]. intros a' m' v Oa' Y Q. apply G; [exact Oa'|exact Y|]. now constructor.
    + intros j [Dj Dt] N. exfalso. apply N. split; [|exact Dt]. cbn in *. destruct (eqK i j) as [->|]; [reflexivity|exact Dj].
  - inversion T as [| | | | | |? ? ? ? W NT T'| |? ? ? R]; subst; [right|first [now left|inversion R]]. exists (release i h), t. eapply inv_step; [exact I|exact Hn|econstructor; eauto using taking_nowait|exact O| |samemem|samemem|]; cbn.
    + eexists. split; [reflexivity|]. split; [apply taking_typed; exact T'|]. split; [intros j Hj; apply release_keys; split; [now apply S|congruence]|].
      intros a' m' v Oa' Y Q. apply G; [exact Oa'|exact Y|]. now constructor.
    + intros j [Dj Dt] N. exfalso. apply N. split; [|exact Dt]. cbn in *. rewrite mode_release. destruct (eqK i j) as [->|]; [contradiction|exact Dj].
  - inversion T as [| | | |? ? ? ? W T'| | | |? ? ? R]; subst; [right|first [now left|inversion R]]. exists ((i, false) :: h), t. eapply inv_step; [exact I|exact Hn|econstructor; eauto using taking_nowait|exact O| |samemem|samemem|]; cbn.
    + eexists. split; [reflexivity|]. split; [apply taking_typed; exact T'|]. split; [intros j Hj; right; now apply S|]. intros a' m' v Oa' Y Q. apply G; [exact Oa'|exact Y|]. now constructor.
    + intros j [Dj Dt] N. exfalso. apply N. split; [|exact Dt]. cbn in *. destruct (eqK i j) as [->|]; [|exact Dj].
      exfalso. apply W. eapply in_keys, mode_some; eauto.
  - inversion T as [| | | | | | |? ? ? ? W NT T'|? ? ? R]; subst; [right|first [now left|inversion R]]. exists (release i h), t. eapply inv_step; [exact I|exact Hn|econstructor; eauto using taking_nowait|exact O| |samemem|samemem|]; cbn.
    + eexists. split; [reflexivity|]. split; [apply taking_typed; exact T'|]. split; [intros j Hj; apply release_keys; split; [now apply S|congruence]|].
      intros a' m' v Oa' Y Q. apply G; [exact Oa'|exact Y|]. now constructor.
    + intros j [Dj Dt] N. exfalso. apply N. split; [|exact Dt]. cbn in *. rewrite mode_release. destruct (eqK i j) as [->|]; [contradiction|exact Dj].
  - inversion T as [| | | | |? ? ? ? W T' TF| | |? ? ? R]; subst; [right|first [now left|inversion R]]. exists ((i, true) :: h), t. eapply inv_step; [exact I|exact Hn|econstructor; eauto using taking_nowait|exact O| |samemem|samemem|]; cbn.
    + eexists. split; [reflexivity|]. split; [apply taking_typed; exact T'|]. split; [intros j Hj; right; now apply S|]. intros a' m' v Oa' Y Q. apply G; [exact Oa'|exact Y|]. econstructor. exact Q.
    + intros j [Dj Dt] N. exfalso. apply N. split; [|exact Dt]. cbn in *. destruct (eqK i j) as [->|]; [reflexivity|exact Dj].
  - inversion T as [| | | | |? ? ? ? W T' TF| | |? ? ? R]; subst; [right|first [now left|inversion R]]. exists h, t. eapply inv_step; [exact I|exact Hn|apply hm_try_fail; eauto using taking_nowait|exact O| |samemem|samemem|]; cbn.
    + eexists. split; [reflexivity|]. split; [apply taking_typed; exact TF|]. split; [exact S|]. intros a' m' v Oa' Y Q. apply G; [exact Oa'|exact Y|]. econstructor. exact Q.
    + intros j Dj N. exfalso. apply N. exact Dj.
Qed.
(** *** every step *)
Lemma one_more turns a gs a' gs' turns' a'' gs'' : one_by_one turns a gs a' gs' -> one_by_one turns' a' gs' a'' gs'' ->
  one_by_one (C := C) (V := V) (turns ++ turns') a gs a'' gs''.
Proof. induction 1; intros Q; [exact Q|]. cbn. econstructor; eauto. Qed.

Lemma abs_set n w ws w0 : nth_error ws n = Some w0 -> abs w = abs w0 -> map abs (set_nth n w ws) = map abs ws.
Proof. intros Hn Ha. rewrite map_set, Ha, set_nth_id; [reflexivity|]. now rewrite nth_error_map, Hn. Qed.

Lemma inv_any x y ws a : inv x ws a -> step x y ->
  exists turns ws' a', inv y ws' a' /\ one_by_one turns a (map abs ws) a' (map abs ws').
Proof.
  intros I S. pose proof (i_gos _ _ _ I) as G.
  destruct S as [n p l r s gs Hg|n p l r s p' s' gs Hg A|n v l r s gs Hg|n l r s gs Hg]; cbn in G; subst gs;
    destruct (nth_snd _ _ _ Hg) as (h & Hz); rewrite nth_error_map in Hz; destruct (nth_error ws n) as [[[h0 g0] ph]|] eqn:Hn; try discriminate; cbn in Hz; injection Hz as -> ->;
    pose proof (i_phase _ _ _ I _ _ Hn) as P.
  - destruct ph as [|t p0|v]; [|destruct P as (q & P & _); discriminate|destruct P as (q & m' & P & _); discriminate]. destruct P as [_ ->].
    pose proof (i_calls _ _ _ I _ _ Hn) as F. cbn in F. inversion F as [|? ? T F']; subst.
    exists [], (set_nth n ([], mkGo (Some p) l r, PTaking [] p) ws), a. split; [|rewrite (abs_set _ _ _ _ Hn); [constructor|reflexivity]].
    split; cbn.
    + now rewrite !map_set.
    + apply (i_okc _ _ _ I).
    + apply (i_oka _ _ _ I).
    + rewrite map_set. cbn. eapply mutex_now; [apply (i_mu _ _ _ I)|now rewrite nth_error_map, Hn|reflexivity|]. intros j. cbn [go_now]. apply nowait_waits. eapply taking_nowait; eauto.
    + apply each_set; [apply (i_nodup _ _ _ I)|constructor].
    + apply each_set; [apply (i_calls _ _ _ I)|exact F'].
    + apply each_set; [apply (i_phase _ _ _ I)|]. exists p. split; [reflexivity|]. split; [now apply taking_typed|]. split; [intros j []|].
      intros a' m' v _ _ Q. eapply alone_ext; [exact Q|]. reflexivity.
    + intros j H. destruct (each_set_inv _ _ _ _ _ H Hn) as (_ & O). apply (i_mem _ _ _ I). intros k y Hk. destruct (Nat.eq_dec k n) as [->|N]; [|eauto].
      rewrite Hn in Hk. injection Hk as <-. intros [Y _]. discriminate.
  - destruct ph as [|t p0|v]; [destruct P; discriminate| |].
    + destruct (taking_step _ _ _ _ _ _ _ _ _ _ _ _ I Hn A) as [R|(h' & t' & I')].
      * destruct (linearise _ _ _ _ _ _ _ _ _ _ I Hn R) as (v & a' & I1 & Q).
        pose proof (nth_set_same _ _ (h, mkGo (Some p) l r, PReleasing v) _ Hn) as Hn1.
        assert (EG : map snd (map fst ws) = map snd (map fst (set_nth n (h, mkGo (Some p) l r, PReleasing v) ws))).
        { rewrite !map_set. cbn. symmetry. apply set_nth_id. exact Hg. }
        rewrite EG in I1. destruct (releasing_step _ _ _ _ _ _ _ _ _ _ _ I1 Hn1 A) as (h' & I2).
        rewrite <- EG in I2. eexists [n], _, a'. split; [exact I2|]. rewrite (abs_set _ _ _ _ Hn1) by reflexivity.
        econstructor; [rewrite nth_error_map, Hn; reflexivity|exact Q|]. rewrite map_set. cbn. constructor.
      * eexists [], _, a. split; [exact I'|]. rewrite (abs_set _ _ _ _ Hn) by reflexivity. constructor.
    + destruct (releasing_step _ _ _ _ _ _ _ _ _ _ _ I Hn A) as (h' & I2). eexists [], _, a. split; [exact I2|].
      rewrite (abs_set _ _ _ _ Hn) by reflexivity. constructor.
  - assert (FIN : forall ws a v', inv (mkSys s (map snd (map fst ws)) false) ws a -> nth_error ws n = Some (h, mkGo (Some (Return v)) l r, PReleasing v') ->
      h = [] /\ v' = v /\ inv (mkSys s (set_nth n (mkGo None l (r ++ [v])) (map snd (map fst ws))) false) (set_nth n ([], mkGo None l (r ++ [v]), PIdle) ws) a).
    { clear. intros ws a v' I Hn. destruct (i_phase _ _ _ I _ _ Hn) as (q & m' & [= <-] & R & Q & _). inversion R; subst h. inversion Q; subst v'. split; [reflexivity|]. split; [reflexivity|].
      split; cbn.
      - now rewrite !map_set.
      - apply (i_okc _ _ _ I).
      - apply (i_oka _ _ _ I).
      - rewrite map_set. cbn. eapply mutex_now; [apply (i_mu _ _ _ I)|now rewrite nth_error_map, Hn|reflexivity|reflexivity].
      - apply each_set; [apply (i_nodup _ _ _ I)|constructor].
      - apply each_set; [apply (i_calls _ _ _ I)|apply (i_calls _ _ _ I _ _ Hn)].
      - apply each_set; [apply (i_phase _ _ _ I)|]. split; reflexivity.
      - intros j X. destruct (each_set_inv _ _ _ _ _ X Hn) as (_ & O). apply (i_mem _ _ _ I). intros k y Hk. destruct (Nat.eq_dec k n) as [->|N]; [|eauto].
        rewrite Hn in Hk. injection Hk as <-. intros [Y _]. discriminate. }
    destruct ph as [|t p0|v']; [destruct P; discriminate| |].
    + destruct P as (q & [= <-] & T & _ & _). cbn in T. inversion T as [| | | | | | | |? ? ? R]; subst.
      destruct (linearise _ _ _ _ _ _ _ _ _ _ I Hn R) as (v' & a' & I1 & Q).
      pose proof (nth_set_same _ _ (h, mkGo (Some (Return v)) l r, PReleasing v') _ Hn) as Hn1.
      assert (EG : map snd (map fst ws) = map snd (map fst (set_nth n (h, mkGo (Some (Return v)) l r, PReleasing v') ws))).
      { rewrite !map_set. cbn. symmetry. apply set_nth_id. exact Hg. }
      rewrite EG in I1. destruct (FIN _ _ _ I1 Hn1) as (-> & -> & I2). rewrite <- EG in I2.
      eexists [n], _, a'. split; [exact I2|]. rewrite (abs_set _ _ _ _ Hn1) by reflexivity.
      econstructor; [rewrite nth_error_map, Hn; reflexivity|exact Q|]. rewrite map_set. cbn. constructor.
    + destruct (FIN _ _ _ I Hn) as (-> & -> & I2). eexists [], _, a. split; [exact I2|]. rewrite (abs_set _ _ _ _ Hn) by reflexivity. constructor.
  - exists [], ws, a. split; [|constructor]. destruct I. now split.
Qed.

Lemma inv_all x y : steps x y -> forall ws a, inv x ws a ->
  exists turns ws' a', inv y ws' a' /\ one_by_one turns a (map abs ws) a' (map abs ws').
Proof.
  induction 1 as [x|x y z S _ IH]; intros ws a I; [exists [], ws, a; split; [exact I|constructor]|].
  destruct (inv_any _ _ _ _ I S) as (t1 & ws1 & a1 & I1 & Q1). destruct (IH _ _ I1) as (t2 & ws2 & a2 & I2 & Q2).
  exists (t1 ++ t2), ws2, a2. split; [exact I2|eapply one_more; eauto].
Qed.

Lemma inv_start m calls : all_ok m -> Forall (Forall (two_phase ok)) calls ->
  inv (start m calls) (map (fun l => ([], mkGo None l [], PIdle)) calls) m.
Proof.
  intros O F. assert (EA : forall P : ghost -> Prop, (forall l, In l calls -> P ([], mkGo None l [], PIdle)) -> each P (map (fun l => ([], mkGo None l [], PIdle)) calls)).
  { intros P H n w Hn. apply nth_error_In in Hn. apply in_map_iff in Hn. destruct Hn as (l & <- & Hl). auto. }
  split; cbn.
  - now rewrite !map_map.
  - exact O.
  - exact O.
  - intros j. rewrite !map_map.
    assert (Z : forall q, q <> Idle -> count q (map (fun x : list pr => cls j (fst ([], mkGo None x [], PIdle))) calls) = 0%nat).
    { intros q N. clear - N. induction calls as [|l r IH]; [reflexivity|]. cbn in *. destruct q; cbn in *; congruence. }
    unfold mutex_ok. cbn in *. rewrite !Z by discriminate. repeat split; discriminate.
  - apply EA. intros; constructor.
  - apply EA. intros l Hl. rewrite Forall_forall in F. now apply F.
  - apply EA. intros l _. split; reflexivity.
  - reflexivity.
Qed.

Lemma inv_accounts x ws a : inv x ws a -> accounts x (map abs ws).
Proof.
  intros I. unfold accounts. rewrite (i_gos _ _ _ I), !map_map.
  assert (X : each (fun w => accounted (snd (fst w)) (snd (abs w))) ws).
  { intros n [[h g] ph] Hn. pose proof (i_phase _ _ _ I _ _ Hn) as P. destruct ph as [|t p0|v]; cbn; [now left|now left|]. right.
    destruct P as (p & m' & P & _). split; [rewrite P; discriminate|eauto]. }
  clear - X. induction ws as [|w ws IH]; cbn; constructor.
  - apply (X O). reflexivity.
  - apply IH. intros n y Hn. apply (X (S n)). exact Hn.
Qed.

Lemma inv_finished x ws a : inv x ws a -> finished x -> (forall j, sh_mem (sy_shared x) j = a j) /\ map abs ws = map (fun g => ([], go_results g)) (sy_gos x).
Proof.
  intros I F. unfold finished in F. rewrite (i_gos _ _ _ I) in *. rewrite !Forall_map in F. rewrite Forall_forall in F.
  assert (X : each (fun w => snd w = PIdle /\ go_calls (snd (fst w)) = []) ws).
  { intros n [[h g] ph] Hn. destruct (F _ (nth_error_In _ _ Hn)) as [F1 F2]. cbn in F1, F2. pose proof (i_phase _ _ _ I _ _ Hn) as P. split; [|exact F2].
    destruct ph as [|t p0|v]; cbn; [reflexivity|destruct P as (p & P & _); congruence|destruct P as (p & m' & P & _); congruence]. }
  split.
  - intros j. apply (i_mem _ _ _ I). intros n w Hn [_ Y]. destruct (X _ _ Hn) as [Z _]. rewrite Z in Y. exact Y.
  - rewrite !map_map. clear - X. induction ws as [|[[h g] ph] ws IH]; [reflexivity|]. cbn. destruct (X O _ eq_refl) as [X1 X2]. cbn in X1, X2. subst ph. cbn. rewrite X2. f_equal.
    apply IH. intros n y Hn. apply (X (S n)). exact Hn.
Qed.

Lemma serial m calls (x y : system K C V) : all_ok m -> Forall (Forall (two_phase ok)) calls -> steps (start m calls) x -> steps x y ->
  exists before after a gs b hs,
    one_by_one before m (map (fun l => (l, [])) calls) a gs /\ accounts x gs /\
    one_by_one after a gs b hs /\ accounts y hs /\
    (finished y -> (forall j, sh_mem (sy_shared y) j = b j) /\ hs = map (fun g => ([], go_results g)) (sy_gos y)).
Proof.
  intros O F S1 S2. destruct (inv_all _ _ S1 _ _ (inv_start m calls O F)) as (t1 & ws1 & a1 & I1 & Q1).
  destruct (inv_all _ _ S2 _ _ I1) as (t2 & ws2 & a2 & I2 & Q2). rewrite map_map in Q1. cbn in Q1.
  exists t1, t2, a1, (map abs ws1), a2, (map abs ws2). repeat split; auto.
  - eapply inv_accounts; eauto.
  - eapply inv_accounts; eauto.
  - now apply (inv_finished _ _ _ I2).
  - now apply (inv_finished _ _ _ I2).
Qed.
End P.
