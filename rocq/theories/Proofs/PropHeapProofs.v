(** C83: properties as references. *)
From Coq Require Import Lia.
From stdpp Require Import gmap strings.
From Verif.Model Require Import Base PropMap PropHeap.
From Verif.Spec Require Import PropHeapSpec PropsSpec.
From Verif.Proofs Require Import PropsProofs.

Section H.
Context {T : Type}.
Implicit Types (s : pheap T) (op : pop T) (p q : props T).

Lemma nth_set_eq {A} i (y : A) : forall l, (i < List.length l)%nat -> nth_error (set_nth i y l) i = Some y.
Proof. induction i; intros [|a l] H; cbn in *; try lia; [reflexivity|]. apply IHi. lia. Qed.
Lemma nth_set_ne {A} i j (y : A) : i <> j -> forall l, nth_error (set_nth i y l) j = nth_error l j.
Proof. revert j. induction i; intros [|j] H [|a l]; cbn; try reflexivity; try contradiction. apply IHi. lia. Qed.
Lemma set_nth_len {A} n (x : A) l : List.length (set_nth n x l) = List.length l.
Proof. revert n; induction l; intros [|n]; cbn; auto. Qed.

(** every reference in use is allocated *)
Record wf s : Prop := {
  wf_var : forall v a, ph_var s v = Some a -> (a < List.length (ph_maps s))%nat;
  wf_own : forall o a, ph_own s o = Some a -> (a < List.length (ph_maps s))%nat }.

Lemma wf_init : wf pheap_init. Proof. split; cbn; discriminate. Qed.

Lemma wf_write s i p : wf s -> wf (write s i p).
Proof. intros [A B]. split; cbn; setoid_rewrite set_nth_len; assumption. Qed.
Lemma wf_alloc s p : wf s -> wf (snd (alloc s p)) /\ (fst (alloc s p) < List.length (ph_maps (snd (alloc s p))))%nat.
Proof.
  intros [A B]. cbn. rewrite app_length. cbn. split; [|lia].
  split; cbn; intros u a E; rewrite app_length; [apply A in E|apply B in E]; lia.
Qed.
Lemma wf_set_var s v a : wf s -> (forall i, a = Some i -> (i < List.length (ph_maps s))%nat) -> wf (set_var s v a).
Proof. intros [A B] H. split; cbn; [|exact B]. intros u i. unfold assign. destruct (Nat.eqb u v); auto. apply A. Qed.
Lemma wf_set_own s o a : wf s -> (forall i, a = Some i -> (i < List.length (ph_maps s))%nat) -> wf (set_own s o a).
Proof. intros [A B] H. split; cbn; [exact A|]. intros u i. unfold assign. destruct (Nat.eqb u o); auto. apply B. Qed.

Lemma wf_props s o a s' : wf s -> owner_Props s o = (a, s') -> wf s' /\ forall i, a = Some i -> (i < List.length (ph_maps s'))%nat.
Proof.
  intros H. unfold owner_Props. destruct (ph_own s o) as [i|] eqn:E.
  - intros [= <- <-]. split; [exact H|]. intros j [= <-]. eapply wf_own; eauto.
  - pose proof (wf_alloc s props_Make H) as [W L]. destruct (alloc s props_Make) as [i s1] eqn:F. cbn [fst snd] in *.
    intros [= <- <-]. split; [|intros j [= <-]; exact L]. apply wf_set_own; [exact W|]. intros j [= <-]. exact L.
Qed.

Lemma wf_step s op s' : wf s -> run_pop s op = Ret s' -> wf s'.
Proof.
  intros H E. destruct op; cbn [run_pop] in E.
  - pose proof (wf_alloc s props_Make H) as [W L]. destruct (alloc s props_Make) as [i s1]. injection E as <-.
    apply wf_set_var; [exact W|]. intros j [= <-]. exact L.
  - destruct (owner_Props s o) as [a s1] eqn:F. injection E as <-. destruct (wf_props _ _ _ _ H F). apply wf_set_var; auto.
  - injection E as <-. apply wf_set_var; [exact H|]. intros i F. eapply wf_var; eauto.
  - destruct (ph_var s v); [|discriminate]. injection E as <-. now apply wf_write.
  - destruct (ph_var s v); injection E as <-; [now apply wf_write|exact H].
  - destruct (ph_var s v); [injection E as <-; now apply wf_write|]. destruct (_ =? _)%Z; [|discriminate]. now injection E as <-.
  - pose proof (wf_alloc s props_Make H) as [W L]. destruct (alloc s props_Make) as [i s1]. injection E as <-.
    apply wf_set_var; [exact W|]. intros j [= <-]. exact L.
  - injection E as <-. apply wf_set_own; [exact H|]. intros i F. eapply wf_var; eauto.
  - destruct p as [m|].
    + pose proof (wf_alloc s m H) as [W L]. destruct (alloc s m) as [i s1]. injection E as <-.
      apply wf_set_own; [exact W|]. intros j [= <-]. exact L.
    + injection E as <-. apply wf_set_own; [exact H|]. discriminate.
Qed.
Lemma wf_run ops : forall s s', wf s -> run_pops s ops = Ret s' -> wf s'.
Proof.
  induction ops as [|op ops IH]; intros s s' H E; cbn in E; [now injection E as <-|].
  destruct (run_pop s op) as [s1| |] eqn:F; try discriminate. eapply IH; [|exact E]. eapply wf_step; eauto.
Qed.
Lemma wf_reachable s : heap_reachable s -> wf s.
Proof. intros (ops & E). eapply wf_run; [apply wf_init|exact E]. Qed.

(** ** references that are not assigned stay *)
Lemma keep_var v op s s' : ~ assigns v op -> run_pop s op = Ret s' -> ph_var s' v = ph_var s v.
Proof.
  intros Ha E. destruct op as [u|u o|u w|u k x|u k|u w|u|o u|o p]; cbn [assigns] in Ha; cbn [run_pop] in E;
    repeat match goal with
    | H : match ph_var ?a ?b with _ => _ end = _ |- _ => destruct (ph_var a b); try discriminate
    | H : (if ?c then _ else _) = _ |- _ => destruct c; try discriminate
    | H : match ?p with _ => _ end = _ |- _ => is_var p; destruct p
    end;
    try (injection E as <-; cbn; unfold assign; try (destruct (Nat.eqb_spec v u); [subst; contradiction|]); reflexivity).
  unfold owner_Props in E. destruct (ph_own s o); injection E as <-; cbn; unfold assign;
    (destruct (Nat.eqb_spec v u); [subst; contradiction|]); reflexivity.
Qed.
Lemma keep_own o op s s' a : ~ replaces o op -> run_pop s op = Ret s' -> ph_own s o = Some a -> ph_own s' o = Some a.
Proof.
  intros Ha E Ho. destruct op as [u|u o'|u w|u k x|u k|u w|u|o' u|o' p]; cbn [replaces] in Ha; cbn [run_pop] in E;
    repeat match goal with
    | H : match ph_var ?a ?b with _ => _ end = _ |- _ => destruct (ph_var a b); try discriminate
    | H : (if ?c then _ else _) = _ |- _ => destruct c; try discriminate
    | H : match ?p with _ => _ end = _ |- _ => is_var p; destruct p
    end;
    try (injection E as <-; cbn; unfold assign; try (destruct (Nat.eqb_spec o o'); [subst; contradiction|]); exact Ho).
  unfold owner_Props in E. destruct (ph_own s o') eqn:F; injection E as <-; cbn; [exact Ho|]. unfold assign.
  destruct (Nat.eqb_spec o o'); [subst; congruence|exact Ho].
Qed.

Lemma props_binds s v o s1 : run_pop s (HProps v o) = Ret s1 -> exists a, ph_var s1 v = Some a /\ ph_own s1 o = Some a.
Proof.
  cbn [run_pop]. unfold owner_Props. destruct (ph_own s o) as [a|] eqn:F; cbn; intros [= <-]; cbn; unfold assign;
    rewrite ?Nat.eqb_refl; eauto.
Qed.

Lemma bound_run v o a ops : forall s s', ph_var s v = Some a -> ph_own s o = Some a ->
  Forall (fun op => ~ assigns v op /\ ~ replaces o op) ops -> run_pops s ops = Ret s' -> ph_var s' v = Some a /\ ph_own s' o = Some a.
Proof.
  induction ops as [|op ops IH]; intros s s' Hv Ho F E; cbn in E; [injection E as <-; auto|].
  destruct (run_pop s op) as [s1| |] eqn:G; try discriminate. inversion F as [|? ? [A B] F']; subst.
  apply (IH s1); auto; [now rewrite (keep_var _ _ _ _ A G)|now apply (keep_own _ _ _ _ _ B G)].
Qed.

(** ** what writing does *)
Lemma read_write_eq s i p : (i < List.length (ph_maps s))%nat -> read (write s i p) (Some i) = p.
Proof. intros H. cbn. now rewrite nth_set_eq. Qed.
Lemma read_write_ne s i p a : a <> Some i -> read (write s i p) a = read s a.
Proof. intros H. destruct a as [j|]; [|reflexivity]. cbn. rewrite nth_set_ne; [reflexivity|congruence]. Qed.

Lemma merge_union p q : props_Merge p q = ((q : gmap string (gval T)) ∪ (p : gmap string (gval T)) : gmap string (gval T)).
Proof.
  apply C57_ext_proof. intros k. pose proof (lookup_merge_perm p q (props_entries q) k (Permutation_refl _)) as H.
  unfold props_Merge. rewrite H. unfold props_lookup.
  destruct ((q : gmap string (gval T)) !! k) eqn:E; symmetry.
  - now apply (lookup_union_Some_l (M := gmap string)).
  - now apply (lookup_union_r (M := gmap string)).
Qed.

Lemma write_step s v op a : ph_var s v = Some a -> writes_through v op ->
  run_pop s op = Ret (write s a (written (seen s v) (merged_from s op) op)).
Proof.
  intros Hv Hw. unfold seen. destruct op as [u|u o|u w|u k x|u k|u w|u|o u|o p]; cbn [writes_through] in Hw; try contradiction; subst u; cbn [run_pop];
    rewrite Hv; try reflexivity.
  cbn [written merged_from]. now rewrite merge_union.
Qed.

Lemma C83_handle_proof s v o ops s1 : heap_reachable s -> run_pops s (HProps v o :: ops) = Ret s1 ->
  Forall (fun op => ~ assigns v op /\ ~ replaces o op) ops ->
  seen s1 v = owned s1 o /\
  forall op, writes_through v op -> exists s2, run_pop s1 op = Ret s2 /\
    owned s2 o = written (owned s1 o) (merged_from s1 op) op /\ seen s2 v = owned s2 o.
Proof.
  intros R E F. assert (W : wf s1) by (eapply wf_run; [apply wf_reachable; exact R|exact E]).
  cbn [run_pops] in E. destruct (run_pop s (HProps v o)) as [s0| |] eqn:G; try discriminate.
  destruct (props_binds _ _ _ _ G) as (a & Hv & Ho). destruct (bound_run v o a ops s0 s1 Hv Ho F E) as [Hv1 Ho1].
  assert (Q : seen s1 v = owned s1 o) by (unfold seen, owned; now rewrite Hv1, Ho1). split; [exact Q|].
  intros op Hw. eexists. split; [exact (write_step _ _ _ _ Hv1 Hw)|]. rewrite <- Q.
  assert (X : forall p, owned (write s1 a p) o = p /\ seen (write s1 a p) v = p).
  { intros p. unfold owned, seen. change (ph_own (write s1 a p)) with (ph_own s1). change (ph_var (write s1 a p)) with (ph_var s1).
    rewrite Hv1, Ho1. rewrite read_write_eq; [auto|]. eapply wf_var; eauto. }
  destruct (X (written (seen s1 v) (merged_from s1 op) op)) as [X1 X2]. split; [exact X1|congruence].
Qed.

(** ** different owners *)
Definition apart s : Prop := forall o o' a, o <> o' -> ph_own s o = Some a -> ph_own s o' = Some a -> False.

Lemma apart_fresh s o p : wf s -> apart s -> apart (set_own (snd (alloc s p)) o (Some (fst (alloc s p)))).
Proof.
  intros W A u u' a Hne. cbn. unfold assign.
  destruct (Nat.eqb_spec u o), (Nat.eqb_spec u' o); try congruence.
  - intros [= <-] H. apply (wf_own _ W) in H. lia.
  - intros H [= <-]. apply (wf_own _ W) in H. lia.
  - apply A. exact Hne.
Qed.

Lemma apart_step s op s' : wf s -> apart s -> ~ restores op -> run_pop s op = Ret s' -> apart s'.
Proof.
  intros W A Hr E. destruct op as [u|u o|u w|u k x|u k|u w|u|o u|o p]; cbn [restores] in Hr; try tauto; cbn [run_pop] in E.
  - injection E as <-. exact A.
  - unfold owner_Props in E. destruct (ph_own s o) as [a|] eqn:F.
    + injection E as <-. exact A.
    + pose proof (apart_fresh s o props_Make W A) as B. destruct (alloc s props_Make) as [i s1]. injection E as <-. exact B.
  - injection E as <-. exact A.
  - destruct (ph_var s u); [|discriminate]. injection E as <-. exact A.
  - destruct (ph_var s u); injection E as <-; exact A.
  - destruct (ph_var s u); [injection E as <-; exact A|]. destruct (_ =? _)%Z; [|discriminate]. injection E as <-. exact A.
  - injection E as <-. exact A.
  - destruct p as [m|].
    + pose proof (apart_fresh s o m W A) as B. destruct (alloc s m) as [i s1]. injection E as <-. exact B.
    + injection E as <-. intros x y a Hne. cbn. unfold assign. destruct (Nat.eqb x o), (Nat.eqb y o); try discriminate. now apply A.
Qed.
Lemma apart_run ops : forall s s', wf s -> apart s -> Forall (fun op => ~ restores op) ops -> run_pops s ops = Ret s' -> apart s'.
Proof.
  induction ops as [|op ops IH]; intros s s' W A F E; cbn in E; [now injection E as <-|].
  destruct (run_pop s op) as [s1| |] eqn:G; try discriminate. inversion F; subst.
  eapply IH; [eapply wf_step; eauto|eapply apart_step; eauto|eassumption|exact E].
Qed.

(** no owner but [o] has the map [a] *)
Definition only (o a : nat) s : Prop := forall o', o' <> o -> ph_own s o' <> Some a.
Lemma only_step s op s' o a : wf s -> (a < List.length (ph_maps s))%nat -> only o a s -> ~ restores op -> run_pop s op = Ret s' ->
  only o a s' /\ (a < List.length (ph_maps s'))%nat.
Proof.
  intros W L A Hr E.
  assert (Fr : forall u p, only o a (set_own (snd (alloc s p)) u (Some (fst (alloc s p)))) /\
    (a < List.length (ph_maps (set_own (snd (alloc s p)) u (Some (fst (alloc s p))))))%nat).
  { intros u p. split; [|cbn; rewrite app_length; lia]. intros o' Hne. cbn. unfold assign. destruct (Nat.eqb_spec o' u); [|now apply A].
    intros [= H]. lia. }
  destruct op as [u|u o'|u w|u k x|u k|u w|u|o' u|o' p]; cbn [restores] in Hr; try tauto; cbn [run_pop] in E.
  - injection E as <-. split; [exact A|cbn; rewrite app_length; lia].
  - unfold owner_Props in E. destruct (ph_own s o') as [b|] eqn:F.
    + injection E as <-. split; [exact A|exact L].
    + specialize (Fr o' props_Make). destruct (alloc s props_Make) as [i s1]. injection E as <-. exact Fr.
  - injection E as <-. split; [exact A|exact L].
  - destruct (ph_var s u); [|discriminate]. injection E as <-. split; [exact A|cbn; rewrite set_nth_len; exact L].
  - destruct (ph_var s u); injection E as <-; (split; [exact A|cbn; rewrite ?set_nth_len; exact L]).
  - destruct (ph_var s u); [injection E as <-; split; [exact A|cbn; rewrite set_nth_len; exact L]|].
    destruct (_ =? _)%Z; [|discriminate]. injection E as <-. auto.
  - injection E as <-. split; [exact A|cbn; rewrite app_length; lia].
  - destruct p as [m|].
    + specialize (Fr o' m). destruct (alloc s m) as [i s1]. injection E as <-. exact Fr.
    + injection E as <-. split; [|exact L]. intros x Hne. cbn. unfold assign. destruct (Nat.eqb x o'); [discriminate|]. now apply A.
Qed.

Lemma C83_separate_proof ops0 s v o ops s1 o' op s2 : Forall (fun op => ~ restores op) ops0 -> run_pops pheap_init ops0 = Ret s ->
  run_pops s (HProps v o :: ops) = Ret s1 -> Forall (fun op => ~ assigns v op /\ ~ restores op) ops -> o' <> o ->
  writes_through v op -> run_pop s1 op = Ret s2 -> owned s2 o' = owned s1 o'.
Proof.
  intros F0 E0 E F Hne Hw E2. assert (W : wf s) by (eapply wf_run; [apply wf_init|exact E0]).
  assert (A : apart s) by (eapply apart_run; [apply wf_init| |exact F0|exact E0]; intros x y a _; discriminate).
  cbn [run_pops] in E. destruct (run_pop s (HProps v o)) as [s0| |] eqn:G; try discriminate.
  assert (A0 : apart s0) by (eapply (apart_step s (HProps v o)); eauto).
  assert (W0 : wf s0) by (eapply wf_step; eauto).
  destruct (props_binds _ _ _ _ G) as (a & Hv & Ho).
  assert (B : forall ops s0 s1, wf s0 -> only o a s0 -> (a < List.length (ph_maps s0))%nat -> ph_var s0 v = Some a ->
     Forall (fun op => ~ assigns v op /\ ~ restores op) ops -> run_pops s0 ops = Ret s1 -> only o a s1 /\ ph_var s1 v = Some a).
  { clear. induction ops as [|op ops IH]; intros s0 s1 W O L V F E; cbn in E; [injection E as <-; auto|].
    destruct (run_pop s0 op) as [s2| |] eqn:G; try discriminate. inversion F as [|? ? [A B] F']; subst.
    destruct (only_step _ _ _ _ _ W L O B G) as [O2 L2].
    apply (IH s2); auto; [eapply wf_step; eauto|]. now rewrite (keep_var _ _ _ _ A G). }
  destruct (B ops s0 s1) as [O1 V1]; auto.
  { intros x Hx Q. now apply (A0 x o a Hx). }
  { eapply wf_own; eauto. }
  rewrite (write_step _ _ _ _ V1 Hw) in E2. injection E2 as <-. unfold owned.
  change (ph_own (write s1 a ?p)) with (ph_own s1). apply read_write_ne. now apply O1.
Qed.

(** ** panics *)
Lemma nonempty_len p : props_len p <> 0%Z <-> exists k, props_lookup p k <> None.
Proof.
  destruct (C57_len_proof p) as (keys & _ & Hk & ->). unfold zlen. split.
  - destruct keys as [|k keys]; [cbn; lia|]. intros _. exists k. apply Hk. now left.
  - intros (k & H). apply Hk in H. destruct keys; [destruct H|]. cbn. lia.
Qed.
Lemma C83_panic_proof s op : (run_pop s op = Panic <-> nil_write s op) /\ run_pop s op <> NoFuel.
Proof.
  destruct op as [u|u o|u w|u k x|u k|u w|u|o u|o p]; cbn [run_pop nil_write].
  - split; [split; [discriminate|tauto]|discriminate].
  - destruct (owner_Props s o). split; [split; [discriminate|tauto]|discriminate].
  - split; [split; [discriminate|tauto]|discriminate].
  - destruct (ph_var s u); (split; [split|]; try discriminate; auto).
  - destruct (ph_var s u); (split; [split|]; try discriminate; tauto).
  - destruct (ph_var s u); [split; [split; [discriminate|intros [? _]; discriminate]|discriminate]|].
    change (read s (ph_var s w)) with (seen s w). destruct (Z.eqb_spec (props_len (seen s w)) 0) as [E|E].
    + split; [|discriminate]. split; [discriminate|]. intros [_ H]. now apply nonempty_len in H.
    + split; [|discriminate]. split; [|auto]. intros _. split; [reflexivity|]. now apply nonempty_len.
  - split; [split; [discriminate|tauto]|discriminate].
  - split; [split; [discriminate|tauto]|discriminate].
  - destruct p; (split; [split; [discriminate|tauto]|discriminate]).
Qed.

(** ** what a user may not expect *)
Lemma read_alloc s p a : (forall i, a = Some i -> (i < List.length (ph_maps s))%nat) -> read (snd (alloc s p)) a = read s a.
Proof. intros H. destruct a as [i|]; [|reflexivity]. cbn. rewrite nth_error_app1; [reflexivity|]. now apply H. Qed.
Lemma read_new s p : read (snd (alloc s p)) (Some (fst (alloc s p))) = p.
Proof. cbn. rewrite nth_error_app2 by lia. now rewrite Nat.sub_diag. Qed.

Lemma props_owned s v o s1 : wf s -> run_pop s (HProps v o) = Ret s1 -> owned s1 o = owned s o.
Proof.
  intros W. cbn [run_pop]. unfold owner_Props, owned. destruct (ph_own s o) as [a|] eqn:F.
  - intros [= <-]. cbn. now rewrite F.
  - pose proof (read_new s props_Make) as B. cbn [alloc fst snd] in *. intros [= <-]. cbn [set_own set_var ph_own]. unfold assign.
    rewrite Nat.eqb_refl. exact B.
Qed.

Lemma C83_reset_proof s v o s' : heap_reachable s -> run_pops s [HProps v o; HReset v] = Ret s' ->
  owned s' o = owned s o /\ seen s' v = props_Make.
Proof.
  intros R E. apply wf_reachable in R. cbn [run_pops] in E. destruct (run_pop s (HProps v o)) as [s1| |] eqn:G; try discriminate.
  assert (W : wf s1) by (eapply wf_step; eauto). cbn [run_pop] in E.
  pose proof (read_alloc s1 props_Make (ph_own s1 o)) as A. pose proof (read_new s1 props_Make) as B.
  cbn [alloc fst snd] in *. injection E as <-. split.
  - rewrite <- (props_owned _ _ _ _ R G). unfold owned. etransitivity; [|apply A; intros i; apply wf_own; exact W]. reflexivity.
  - unfold seen. cbn [set_var ph_var]. unfold assign. rewrite Nat.eqb_refl. exact B.
Qed.

Lemma C83_restore_proof s v o o' w k x s' : heap_reachable s -> ph_var s v <> None ->
  run_pops s [HRestore o v; HRestore o' v; HProps w o; HSet w k x] = Ret s' -> props_lookup (owned s' o') k = Some x.
Proof.
  intros R Hv E. apply wf_reachable in R. destruct (ph_var s v) as [a|] eqn:V; [|contradiction]. clear Hv.
  assert (L : (a < List.length (ph_maps s))%nat) by (eapply wf_var; eauto).
  cbn [run_pops run_pop] in E. rewrite V in E. change (ph_var (set_own s o (Some a)) v) with (ph_var s v) in E. rewrite V in E.
  set (s2 := set_own (set_own s o (Some a)) o' (Some a)) in E.
  assert (O1 : ph_own s2 o = Some a) by (unfold s2; cbn; unfold assign; destruct (Nat.eqb o o'); [reflexivity|]; now rewrite Nat.eqb_refl).
  assert (O2 : ph_own s2 o' = Some a) by (unfold s2; cbn; unfold assign; now rewrite Nat.eqb_refl).
  unfold owner_Props in E. rewrite O1 in E.
  replace (ph_var (set_var s2 w (Some a)) w) with (Some a) in E by (cbn; unfold assign; now rewrite Nat.eqb_refl).
  injection E as <-. unfold owned.
  change (ph_own (write (set_var s2 w (Some a)) a ?p)) with (ph_own s2). rewrite O2.
  rewrite read_write_eq; [|exact L]. unfold props_lookup, props_Set. apply lookup_insert.
Qed.

Lemma C83_snapshot_proof s v o (p : option (props T)) k x s' : heap_reachable s ->
  run_pops s [HProps v o; HFromSnapshot o p; HSet v k x] = Ret s' ->
  owned s' o = match p with Some m => m | None => props_Make end /\ props_lookup (seen s' v) k = Some x.
Proof.
  intros R E. apply wf_reachable in R. cbn [run_pops] in E. destruct (run_pop s (HProps v o)) as [s1| |] eqn:G; try discriminate.
  assert (W : wf s1) by (eapply wf_step; eauto). destruct (props_binds _ _ _ _ G) as (a & Hv & Ho).
  destruct (run_pop s1 (HFromSnapshot o p)) as [s2| |] eqn:G2; try discriminate.
  assert (W2 : wf s2) by (eapply wf_step; eauto).
  assert (V2 : ph_var s2 v = Some a) by (rewrite (keep_var v (HFromSnapshot o p) s1 s2); [exact Hv|tauto|exact G2]).
  assert (L : (a < List.length (ph_maps s1))%nat) by (eapply wf_var; eauto).
  assert (Q : owned s2 o = match p with Some m => m | None => props_Make end /\ ph_own s2 o <> Some a).
  { cbn [run_pop] in G2. destruct p as [m|].
    - pose proof (read_new s1 m) as B. cbn [alloc fst snd] in *. injection G2 as <-. unfold owned. cbn [set_own ph_own]. unfold assign.
      rewrite Nat.eqb_refl. split; [exact B|]. intros [= H]. lia.
    - injection G2 as <-. unfold owned. cbn. unfold assign. rewrite Nat.eqb_refl. split; [reflexivity|discriminate]. }
  destruct Q as [Q1 Q2]. cbn [run_pop] in E. rewrite V2 in E. injection E as <-. split.
  - rewrite <- Q1. unfold owned. change (ph_own (write s2 a ?p)) with (ph_own s2). now apply read_write_ne.
  - unfold seen. change (ph_var (write s2 a ?p)) with (ph_var s2). rewrite V2. rewrite read_write_eq; [apply lookup_insert|]. eapply wf_var; eauto.
Qed.
End H.
