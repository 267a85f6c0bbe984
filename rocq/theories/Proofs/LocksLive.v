(** Calls that take mutexes in ascending rank all return. *)
From Coq Require Import Lia.
From Verif.Model Require Import Base Mutex Locks.
From Verif.Spec Require Import LocksSpec.
From Verif.Proofs Require Import MutexProofs LocksBase.

Section P.
Context {K C V : Type} {E : Keys K}.
Variable rank : K -> nat.
Notation pr := (prog K C V).
Notation go := (goroutine K C V).

Definition typed (h : holding) (p : pr) : Prop := match p with LockWait i k => ordered rank h (Lock i k) | _ => ordered rank h p end.
Definition live_ok (z : holding * go) : Prop :=
  NoDup (keys (fst z)) /\ match go_now (snd z) with Some p => typed (fst z) p | None => fst z = [] end /\
  Forall (ordered rank []) (go_calls (snd z)).

Lemma ordered_nowait h (p : pr) : ordered rank h p -> nowait p.
Proof. destruct 1; exact I. Qed.
Lemma ordered_typed h (p : pr) : ordered rank h p -> typed h p.
Proof. destruct 1; cbn; econstructor; eauto. Qed.
Lemma below_notin (h : holding (K := K)) i : Forall (fun j => rank j < rank i)%nat (keys h) -> ~ In i (keys h).
Proof. intros F H. rewrite Forall_forall in F. specialize (F i H). lia. Qed.

Lemma typed_act s h p s' p' : typed h p -> act s p s' p' -> exists h', hact s h p s' h' p' /\ typed h' p'.
Proof.
  intros T A. destruct A as [s i f k|s i k n B|s i k B|s i k n B|s i k n B|s i k t w n B|s i k B|s i k B]; cbn in T; inversion T; subst;
    eexists; (split; [econstructor; try eassumption; eauto using ordered_nowait, below_notin|]); try first [exact T|apply ordered_typed; eauto].
Qed.

Definition good (x : system K C V) (zs : list (holding * go)) : Prop :=
  sy_gos x = map snd zs /\ Forall live_ok zs /\ forall j, mutex_ok (sh_mu (sy_shared x) j) (map (cls j) zs).

Lemma Forall_set {A} (P : A -> Prop) i x l : P x -> Forall P l -> Forall P (set_nth i x l).
Proof. intros Hx H. revert i. induction H; intros [|i]; cbn; constructor; auto. Qed.
Lemma nth_snd zs n (g : go) : nth_error (map snd zs) n = Some g -> exists h : holding (K := K), nth_error zs n = Some (h, g).
Proof. rewrite nth_error_map. destruct (nth_error zs n) as [[h g']|]; cbn; [intros [= ->]; eauto|discriminate]. Qed.

Lemma good_step x y zs : good x zs -> step x y -> sy_crashed y = false -> exists zs', good y zs'.
Proof.
  intros (G1 & G2 & G3) S Hc. destruct S as [i p l r s gs Hn|i p l r s p' s' gs Hn A|i v l r s gs Hn|i l r s gs Hn]; cbn in *; subst gs;
    try discriminate; destruct (nth_snd _ _ _ Hn) as (h & Hz); rewrite Forall_forall in G2; pose proof (G2 _ (nth_error_In _ _ Hz)) as (D & T & F); cbn in D, T, F.
  - exists (set_nth i (h, mkGo (Some p) l r) zs). split; [cbn; now rewrite map_set|]. inversion F; subst. split.
    + apply Forall_set; [|now apply Forall_forall]. split; [exact D|]. split; [now apply ordered_typed|assumption].
    + cbn. intros j. eapply mutex_now; [exact G3|exact Hz|reflexivity|]. intros k. cbn [go_now]. apply nowait_waits. eapply ordered_nowait; eauto.
  - destruct (typed_act _ _ _ _ _ T A) as (h' & M & T'). exists (set_nth i (h', mkGo (Some p') l r) zs). split; [cbn; now rewrite map_set|]. split.
    + apply Forall_set; [|now apply Forall_forall]. split; [cbn; eapply hact_nodup; eauto|]. split; assumption.
    + cbn. eapply mutex_step; eauto.
  - assert (h = []) by (inversion T; reflexivity). subst h. exists (set_nth i ([], mkGo None l (r ++ [v])) zs). split; [cbn; now rewrite map_set|]. split.
    + apply Forall_set; [|now apply Forall_forall]. split; [constructor|]. split; [reflexivity|assumption].
    + cbn. intros j. eapply mutex_now; [exact G3|exact Hz|reflexivity|reflexivity].
Qed.

Lemma good_start m calls : Forall (Forall (ordered rank [])) calls -> exists zs, good (start m calls) zs.
Proof.
  intros F. exists (map (fun l => ([], mkGo None l [])) calls). split; [cbn; rewrite map_map; reflexivity|]. split.
  - apply Forall_map. eapply Forall_impl; [|exact F]. intros l H. split; [constructor|]. split; [reflexivity|exact H].
  - intros j. cbn. rewrite map_map.
    assert (Z : forall a, a <> Idle -> count a (map (fun x : list pr => cls j ([], mkGo None x [])) calls) = O).
    { intros a N. clear - N. induction calls as [|l r IH]; [reflexivity|]. cbn in *. destruct a; cbn in *; congruence. }
    unfold mutex_ok. cbn. rewrite !Z by discriminate. repeat split; discriminate.
Qed.

(** *** progress *)
Definition key_of (p : pr) : option K := match p with Lock i _ | LockWait i _ | RLock i _ => Some i | _ => None end.
Definition blocked (s : shared K C) (z : holding (K := K) * go) (i : K) : Prop :=
  exists p, go_now (snd z) = Some p /\ key_of p = Some i /\
    match p with LockWait _ _ => sh_mu s i <> mkRW true false 0 | _ => forall n, sh_mu s i <> mkRW false false n end.

Lemma cls_writer (s : shared K C) (zs : list (holding * go)) n h p l r i : (forall j, mutex_ok (sh_mu s j) (map (cls j) zs)) -> nth_error zs n = Some (h, mkGo p l r) -> NoDup (keys h) ->
  In (i, true) h -> exists m, sh_mu s i = mkRW true true m.
Proof.
  intros G Hz D Hi. destruct (G i) as (A & B & _ & W). assert (1 <= count Writer (map (cls i) zs))%nat.
  { apply (count_pos _ _ n). rewrite nth_error_map, Hz. cbn. unfold cls. cbn. now rewrite (mode_in _ _ _ D Hi). }
  destruct (sh_mu s i) as [t w m]. cbn in *. destruct w; [|lia]. destruct (W eq_refl) as (-> & _). eauto.
Qed.
Lemma cls_reader (s : shared K C) (zs : list (holding * go)) n h p l r i : (forall j, mutex_ok (sh_mu s j) (map (cls j) zs)) -> nth_error zs n = Some (h, mkGo p l r) -> NoDup (keys h) ->
  In (i, false) h -> exists t w m, sh_mu s i = mkRW t w (S m).
Proof.
  intros G Hz D Hi. destruct (G i) as (A & B & _ & W). assert (1 <= count Reader (map (cls i) zs))%nat.
  { apply (count_pos _ _ n). rewrite nth_error_map, Hz. cbn. unfold cls. cbn. now rewrite (mode_in _ _ _ D Hi). }
  destruct (sh_mu s i) as [t w m]. cbn in *. destruct m; [lia|]. eauto.
Qed.

Lemma one_moves s gs zs n z : good (mkSys s gs false) zs -> nth_error zs n = Some z ->
  (exists y, step (mkSys s gs false) y) \/ (go_now (snd z) = None /\ go_calls (snd z) = []) \/ exists i, blocked s z i.
Proof.
  intros (G1 & G2 & G3) Hz. cbn in *. subst gs. rewrite Forall_forall in G2. pose proof (G2 _ (nth_error_In _ _ Hz)) as (D & T & F).
  destruct z as [h [now calls r]]. cbn in *. assert (Hg : nth_error (map snd zs) n = Some (mkGo now calls r)) by (now rewrite nth_error_map, Hz).
  destruct now as [p|].
  2:{ destruct calls as [|p l]; [right; left; auto|]. left. eexists. eapply st_call; exact Hg. }
  destruct p as [v| |i f k|i k|i k|i k|i k|i k|i k].
  - left. eexists. eapply st_return; exact Hg.
  - left. eexists. eapply st_crash; exact Hg.
  - left. eexists. eapply st_act; [exact Hg|constructor].
  - destruct (sh_mu s i) as [[] w m] eqn:Em; [right; right; exists i; eexists; split; [reflexivity|split; [reflexivity|cbn; intros; congruence]]|].
    destruct w; [right; right; exists i; eexists; split; [reflexivity|split; [reflexivity|cbn; intros; congruence]]|].
    left. eexists. eapply st_act; [exact Hg|constructor; exact Em].
  - destruct (sh_mu s i) as [[] [] [|m]] eqn:Em; try (right; right; exists i; eexists; split; [reflexivity|split; [reflexivity|cbn; congruence]]).
    left. eexists. eapply st_act; [exact Hg|constructor; exact Em].
  - left. inversion T; subst. destruct (cls_writer _ _ _ _ _ _ _ i G3 Hz D ltac:(assumption)) as (m & Em).
    eexists. eapply st_act; [exact Hg|econstructor; exact Em].
  - destruct (sh_mu s i) as [[] w m] eqn:Em; [right; right; exists i; eexists; split; [reflexivity|split; [reflexivity|cbn; intros; congruence]]|].
    destruct w; [right; right; exists i; eexists; split; [reflexivity|split; [reflexivity|cbn; intros; congruence]]|].
    left. eexists. eapply st_act; [exact Hg|econstructor; exact Em].
  - left. inversion T; subst. destruct (cls_reader _ _ _ _ _ _ _ i G3 Hz D ltac:(assumption)) as (t & w & m & Em).
    eexists. eapply st_act; [exact Hg|econstructor; exact Em].
  - left. destruct (sh_mu s i) as [[] [] [|m]] eqn:Em; eexists;
      try (eapply st_act; [exact Hg|apply ac_try_fail; congruence]). eapply st_act; [exact Hg|apply ac_try; exact Em].
Qed.

Lemma holder_of (s : shared K C) (zs : list (holding * go)) i : (forall j, mutex_ok (sh_mu s j) (map (cls j) zs)) -> forall b, (1 <= count (if b : bool then Writer else Reader) (map (cls i) zs))%nat ->
  exists n h g, nth_error zs n = Some (h, g) /\ In i (keys h).
Proof.
  intros G b H. apply count_find in H. destruct H as [n H]. rewrite nth_error_map in H. destruct (nth_error zs n) as [[h g]|] eqn:Hz; [|discriminate].
  injection H as H. exists n, h, g. split; [exact Hz|]. unfold cls in H. cbn in H. destruct (mode i h) as [b'|] eqn:Em.
  - eapply in_keys, mode_some; eauto.
  - destruct (waits i (go_now g)), b; discriminate.
Qed.

Lemma best {A} (P : A -> nat -> Prop) (l : list A) (dec : forall x, In x l -> (exists n, P x n) \/ (forall n, ~ P x n)) (fn : forall x n m, P x n -> P x m -> n = m) :
  (exists x n, In x l /\ P x n) -> exists x n, In x l /\ P x n /\ forall y m, In y l -> P y m -> (m <= n)%nat.
Proof.
  induction l as [|a l IH]; intros (x & n & Hi & Hp); [destruct Hi|].
  destruct (dec a (or_introl eq_refl)) as [(na & Ha)|Na].
  - assert (D : (exists y m, In y l /\ P y m) \/ forall y m, In y l -> ~ P y m).
    { clear - dec. induction l as [|b l IH]; [right; intros y m []|]. destruct (dec b (or_intror (or_introl eq_refl))) as [(nb & Hb)|Nb].
      - left. exists b, nb. split; [now left|exact Hb].
      - destruct IH as [(y & m & Hy & Hm)|H]; [intros z [->|Hz]; apply dec; [now left|right; now right]|left; exists y, m; split; [now right|exact Hm]|].
        right. intros y m [->|Hy]; [apply Nb|now apply H]. }
    destruct D as [D|D].
    + destruct IH as (y & m & Hy & Hm & Hb); [intros; apply dec; now right|exact D|].
      destruct (Nat.le_gt_cases na m).
      * exists y, m. split; [now right|]. split; [exact Hm|]. intros z k [<-|Hz] Hk; [rewrite (fn _ _ _ Hk Ha); lia|eauto].
      * exists a, na. split; [now left|]. split; [exact Ha|]. intros z k [<-|Hz] Hk; [rewrite (fn _ _ _ Hk Ha); lia|]. specialize (Hb _ _ Hz Hk). lia.
    + exists a, na. split; [now left|]. split; [exact Ha|]. intros z k [<-|Hz] Hk; [rewrite (fn _ _ _ Hk Ha); lia|]. exfalso. eapply D; eauto.
  - destruct Hi as [->|Hi]; [exfalso; eapply Na; eauto|].
    destruct IH as (y & m & Hy & Hm & Hb); [intros; apply dec; now right|eauto|].
    exists y, m. split; [now right|]. split; [exact Hm|]. intros z k [<-|Hz] Hk; [exfalso; eapply Na; eauto|eauto].
Qed.

Lemma some_moves {A} (P : A -> Prop) (Q : Prop) (l : list A) : (forall x, In x l -> Q \/ P x) -> Q \/ Forall P l.
Proof.
  induction l as [|a l IH]; intros H; [right; constructor|]. destruct (H a (or_introl eq_refl)) as [q|p]; [now left|].
  destruct IH as [q|F]; [intros x Hx; apply H; now right|now left|]. right. now constructor.
Qed.

Lemma blocked_key s z i j : blocked s z i -> blocked s z j -> i = j.
Proof. intros (p & A & B & _) (q & A' & B' & _). congruence. Qed.

Lemma progress s gs zs : good (mkSys s gs false) zs -> ~ finished (mkSys s gs false) -> exists y, step (mkSys s gs false) y.
Proof.
  intros G NF. pose proof G as (G1 & G2 & G3). cbn in *.
  destruct (some_moves (fun z => (go_now (snd z) = None /\ go_calls (snd z) = []) \/ exists i, blocked s z i) (exists y, step (mkSys s gs false) y) zs) as [M|F]; [|exact M|].
  { intros z Hz. apply In_nth_error in Hz. destruct Hz as (n & Hz). eapply one_moves; eauto. }
  exfalso. rewrite Forall_forall in F.
  assert (X : exists z n, In z zs /\ (exists i, blocked s z i /\ n = rank i)).
  { assert (Y : (exists z, In z zs /\ exists i, blocked s z i) \/ Forall (fun z => go_now (snd z) = None /\ go_calls (snd z) = []) zs).
    { clear - F. induction zs as [|z zs IH]; [right; constructor|]. destruct (F z (or_introl eq_refl)) as [A|A]; [|left; exists z; split; [now left|exact A]].
      destruct IH as [(y & Hy & B)|B]; [intros x Hx; apply F; now right|left; exists y; split; [now right|exact B]|]. right. now constructor. }
    destruct Y as [(z & Hz & i & B)|Y]; [exists z, (rank i); eauto|]. exfalso. apply NF. unfold finished. cbn. rewrite G1. apply Forall_map. exact Y. }
  destruct (best (fun z n => exists i, blocked s z i /\ n = rank i) zs) as (z & n & Hz & (i & B & ->) & Max); [| |exact X|].
  { intros z Hz. destruct (F z Hz) as [(A & _)|(i & B)]; [right; intros n (i & (p & Hp & _) & _); congruence|left; eauto]. }
  { intros z n m (i & B & ->) (j & B' & ->). f_equal. eapply blocked_key; eauto. }
  rewrite Forall_forall in G2.
  (* whoever holds i is blocked on a mutex of higher rank *)
  assert (H : forall b, (1 <= count (if b : bool then Writer else Reader) (map (cls i) zs))%nat -> False).
  { intros b Hb. destruct (holder_of s zs i G3 b Hb) as (n' & h' & g' & Hn & Hi). apply nth_error_In in Hn. destruct (F _ Hn) as [(A & _)|(j & B')].
    - destruct (G2 _ Hn) as (_ & T & _). rewrite A in T. cbn in T, Hi. subst h'. destruct Hi.
    - assert (rank i < rank j)%nat.
      { destruct (G2 _ Hn) as (_ & T & _). destruct B' as (p & Hp & Hk & _). rewrite Hp in T. cbn [fst] in T.
        destruct p; cbn in Hk; try discriminate; injection Hk as <-; cbn in T; inversion T; subst;
          match goal with W : Forall _ (keys h') |- _ => rewrite Forall_forall in W; now apply W end. }
      specialize (Max _ (rank j) Hn (ex_intro _ j (conj B' eq_refl))). lia. }
  (* whoever waits inside Lock waits for readers *)
  assert (W : (1 <= count Waiting (map (cls i) zs))%nat -> False).
  { intros Hw. apply count_find in Hw. destruct Hw as (n' & Hw). rewrite nth_error_map in Hw. destruct (nth_error zs n') as [[h' g']|] eqn:Hn; [|discriminate].
    injection Hw as Hw. unfold cls in Hw. cbn in Hw. destruct (mode i h') as [[]|]; try discriminate.
    destruct (waits i (go_now g')) eqn:Ew; [|discriminate]. destruct (F _ (nth_error_In _ _ Hn)) as [(A & _)|(j & p & Hp & Hk & Hs)]; cbn [snd] in *.
    - rewrite A in Ew. discriminate.
    - rewrite Hp in Ew. destruct p; cbn in Ew; try discriminate. cbn in Hk. injection Hk as ->. destruct (eqK j i) as [->|]; [|discriminate].
      destruct (G3 i) as (A1 & A2 & A3 & A4). assert (1 <= count Waiting (map (cls i) zs))%nat.
      { apply (count_pos _ _ n'). rewrite nth_error_map, Hn. cbn. unfold cls. cbn. rewrite Hp. cbn. destruct (mode i h') as [[]|] eqn:Em.
        1,2: destruct (G2 _ (nth_error_In _ _ Hn)) as (_ & T & _); cbn [fst snd] in T; rewrite Hp in T; cbn in T; inversion T; subst;
             apply mode_some, in_keys in Em; exfalso; eapply below_notin; eauto.
        destruct (eqK i i); [reflexivity|congruence]. }
      destruct (sh_mu s i) as [t w m]. cbn in *. destruct t, w; cbn in *; try lia. destruct m; [congruence|]. apply (H false). lia. }
  destruct (G3 i) as (A1 & A2 & A3 & A4). destruct B as (p & Hp & Hk & Hs).
  assert (Q : rw_taken (sh_mu s i) = true \/ exists k, p = LockWait i k).
  { destruct p; cbn in Hk; try discriminate; injection Hk as ->; [left|right; eauto|left]; destruct (sh_mu s i) as [t w m]; cbn in *; destruct t; auto;
      (destruct w; [destruct A4; auto|]); exfalso; eapply Hs; reflexivity. }
  destruct Q as [Q|(k & ->)].
  - rewrite Q in A3. destruct (rw_writer (sh_mu s i)); cbn in A3; [apply (H true); lia|apply W; lia].
  - apply W. apply In_nth_error in Hz. destruct Hz as (n' & Hz). apply (count_pos _ _ n'). rewrite nth_error_map, Hz. cbn. unfold cls. rewrite Hp. cbn.
    destruct (mode i (fst z)) as [[]|] eqn:Em.
    1,2: destruct (G2 _ (nth_error_In _ _ Hz)) as (_ & T & _); cbn [fst snd] in T; rewrite Hp in T; cbn in T; inversion T; subst;
         apply mode_some, in_keys in Em; exfalso; eapply below_notin; eauto.
    destruct (eqK i i); [reflexivity|congruence].
Qed.

(** *** termination *)
Inductive smaller : pr -> pr -> Prop :=
| sm_access i f k c : smaller (k c) (Access i f k)
| sm_lock i k : smaller (LockWait i k) (Lock i k)
| sm_wait i k : smaller k (LockWait i k)
| sm_unlock i k : smaller k (Unlock i k)
| sm_rlock i k : smaller k (RLock i k)
| sm_runlock i k : smaller k (RUnlock i k)
| sm_try i k b : smaller (k b) (TryLock i k).
Lemma smaller_wf p : Acc smaller p.
Proof.
  induction p; constructor; intros q Hq; inversion Hq; subst; auto.
  constructor. intros q Hq'. inversion Hq'; subst. assumption.
Qed.
Inductive fewer : go -> go -> Prop :=
| fw_now p' p l r : smaller p' p -> fewer (mkGo (Some p') l r) (mkGo (Some p) l r)
| fw_return p l r r' : fewer (mkGo None l r') (mkGo (Some p) l r)
| fw_call p l r : fewer (mkGo (Some p) l r) (mkGo None (p :: l) r).
Lemma fewer_wf g : Acc fewer g.
Proof.
  destruct g as [now l r]. revert now r. induction l as [|q l IH]; intros now r.
  - assert (N : forall r, Acc fewer (mkGo None [] r)) by (intros r0; constructor; intros h Hh; inversion Hh).
    destruct now as [p|]; [|apply N]. revert r. induction (smaller_wf p) as [p _ IHp]. intros r. constructor. intros h Hh. inversion Hh; subst; auto.
  - assert (N : forall r, Acc fewer (mkGo None (q :: l) r)) by (intros r0; constructor; intros h Hh; inversion Hh; subst; apply IH).
    destruct now as [p|]; [|apply N]. revert r. induction (smaller_wf p) as [p _ IHp]. intros r. constructor. intros h Hh. inversion Hh; subst; auto.
Qed.
Definition fewer_one (l' l : list go) : Prop := exists i g g', nth_error l i = Some g /\ fewer g' g /\ l' = set_nth i g' l.
Lemma fewer_one_wf l : Acc fewer_one l.
Proof.
  induction l as [|g l IH]; [constructor; intros l' (i & g & g' & A & _); destruct i; discriminate A|].
  revert l IH. induction (fewer_wf g) as [g _ IHg]. intros l IH. induction IH as [l Hl IHl].
  constructor. intros l' (i & h & h' & A & B & ->). destruct i as [|i]; cbn in *.
  - injection A as <-. apply IHg; [exact B|]. constructor. exact Hl.
  - apply IHl. exists i, h, h'. auto.
Qed.

Lemma good_ends x zs : good x zs -> ends x.
Proof.
  destruct x as [s gs cr]. revert s cr zs. induction (fewer_one_wf gs) as [gs _ IH]. intros s cr zs G.
  destruct cr; [apply en_crash; reflexivity|].
  assert (D : finished (mkSys s gs false) \/ ~ finished (mkSys s gs false)).
  { unfold finished. cbn. clear. induction gs as [|g gs IH]; [left; constructor|]. destruct IH as [IH|IH].
    - destruct g as [[p|] [|q l] r]; try (right; intros F; inversion F as [|? ? [A B]]; discriminate). left. constructor; auto.
    - right. intros F. inversion F; subst. auto. }
  destruct D as [D|D]; [apply en_done; exact D|]. apply en_step.
  - eapply progress; eauto.
  - intros y Hs. destruct (sy_crashed y) eqn:Ec; [apply en_crash; exact Ec|]. destruct (good_step _ _ _ G Hs Ec) as (zs' & G').
    inversion Hs; subst; cbn in *; try discriminate;
      (eapply IH; [|exact G']; eexists i, _, _; split; [eassumption|]; split; [|reflexivity]; constructor).
    match goal with A : act _ _ _ _ |- _ => destruct A; constructor end.
Qed.

Lemma crashed_stays (x y : system K C V) : step x y -> sy_crashed x = false.
Proof. destruct 1; reflexivity. Qed.
Lemma steps_ends (x y : system K C V) zs : steps x y -> good x zs -> ends y.
Proof.
  intros S. revert zs. induction S as [|x y z Hs S IH]; intros zs G; [eapply good_ends; eauto|].
  destruct (sy_crashed y) eqn:Ec.
  - inversion S; subst; [apply en_crash; exact Ec|]. match goal with A : step y _ |- _ => apply crashed_stays in A; congruence end.
  - destruct (good_step _ _ _ G Hs Ec) as (zs' & G'). eauto.
Qed.
Lemma ordered_ends m calls (x : system K C V) : Forall (Forall (ordered rank [])) calls -> steps (start m calls) x -> ends x.
Proof. intros F S. destruct (good_start m calls F) as (zs & G). eapply steps_ends; eauto. Qed.
End P.
