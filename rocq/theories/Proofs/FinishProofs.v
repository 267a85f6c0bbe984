(** What IsFinish tells after a step. *)
From Verif.Model Require Import Base Num Geo Curve PropMap Types Pb TypesSnap Track Route Navigator Device.
From Verif.Spec Require Import NavSpec TypesSpec DeviceSpec.
From Verif.Proofs Require Import DeviceLemmas.
Open Scope num_scope.

Section P.
Context {T : Type} {N : Num T} {J : JsonLib T} {U : UtmLib T}.
Implicit Types (d : device T).

Lemma IsFinish_false (n n' : navigator T) : IsFinish n = (false, n') -> n' = n.
Proof. unfold IsFinish. destruct (_ && _); intros [= <-]; reflexivity. Qed.
Lemma IsFinish_cleared (n n' : navigator T) b : (@f0 T N =? fdec 1 10) = false -> IsFinish n = (b, n') -> fst (IsFinish n') = false.
Proof.
  intros Z0. unfold IsFinish at 1. destruct (_ && _) eqn:E; intros [= <- <-].
  - unfold IsFinish. cbn. rewrite Z0, andb_false_r. reflexivity.
  - unfold IsFinish. rewrite E. reflexivity.
Qed.

Definition fin_cond (n : navigator T) : bool := ((n_ri n =? 0) && (n_ti n =? 0) && (n_si n =? 0))%Z && (n_cd n =? fdec 1 10).
Lemma IsFinish_fst (n : navigator T) : fst (IsFinish n) = fin_cond n.
Proof. unfold IsFinish, fin_cond. destruct (_ && _); reflexivity. Qed.

Lemma C71_stopped_proof d tick x d' : (@f0 T N =? fdec 1 10) = false -> n_routes (d_nav d) <> [] ->
  Next d true tick x = Ret (false, d') -> fst (device_IsFinish d') = false.
Proof.
  intros Z0 Hr E. cbn [Next] in E. apply Next_locked_inv in E; [|exact Hr]. destruct E as (d3 & t & _ & S).
  assert (K : fst (device_IsFinish d') = fst (IsFinish (d_nav d'))) by (unfold device_IsFinish; destruct (IsFinish (d_nav d')); reflexivity).
  rewrite K. inversion S as [n2 n3 E1 E2|n2 n3 n4 d4 d'' E1 E2 E3 E4 _ _ _ _ E5|]; subst.
  - cbn [dset_nav d_nav]. eapply IsFinish_cleared; eauto.
  - assert (EN : d_nav d' = d_nav d4).
    { revert E5. unfold updateState. destruct (nav_Update _ _) as [st| |]; cbn [bind]; try discriminate.
      destruct (deref (pde_battery st)); cbn [bind]; try discriminate. destruct (deref (pde_distance st)); cbn [bind]; try discriminate.
      cbv zeta. destruct (_ =? _)%Z; intros [= <-]; reflexivity. }
    rewrite EN. unfold ShuffleElevation in E3. destruct (deref (n_elev n3)); cbn in E3; try discriminate. injection E3 as E3. rewrite <- E3.
    rewrite IsFinish_fst. change (fin_cond n3 = false). rewrite <- IsFinish_fst. eapply IsFinish_cleared; eauto.
Qed.

Lemma device_IsFinish_fst d : fst (device_IsFinish d) = fin_cond (d_nav d).
Proof. rewrite <- IsFinish_fst. unfold device_IsFinish. destruct (IsFinish (d_nav d)); reflexivity. Qed.
Lemma C71_answer_proof d :
  (fst (device_IsFinish d) = true <->
      n_ri (d_nav d) = 0%Z /\ n_ti (d_nav d) = 0%Z /\ n_si (d_nav d) = 0%Z /\ (n_cd (d_nav d) =? fdec 1 10) = true) /\
  ((@f0 T N =? fdec 1 10) = false -> fst (device_IsFinish (snd (device_IsFinish d))) = false).
Proof.
  split.
  - rewrite device_IsFinish_fst. unfold fin_cond. rewrite !andb_true_iff, !Z.eqb_eq. tauto.
  - intros Z0. rewrite device_IsFinish_fst, <- IsFinish_fst.
    unfold device_IsFinish. destruct (IsFinish (d_nav d)) as [b n] eqn:E. cbn. eapply IsFinish_cleared; eauto.
Qed.

Lemma spurious_finish opts x0 ops tick x :
  match fst (NewDevice opts x0) with
  | GOk d0 => match run_devs d0 ops with
    | Ret d => match Next d true tick x with
      | Ret (b, d') => b && fst (device_IsFinish d') && (n_cd (d_nav d') <? n_dist (d_nav d'))
      | _ => false end
    | _ => false end
  | GErr _ => false end = true ->
  exists d0 d d' tick x, built opts x0 d0 /\ run_devs d0 ops = Ret d /\
    Next d true tick x = Ret (true, d') /\ fst (device_IsFinish d') = true /\ (n_cd (d_nav d') <? n_dist (d_nav d')) = true.
Proof.
  unfold built. destruct (fst (NewDevice opts x0)) as [d0|] eqn:E0; [|discriminate]. destruct (run_devs d0 ops) as [d| |] eqn:E1; try discriminate.
  destruct (Next d true tick x) as [[b d']| |] eqn:E2; try discriminate. intros H.
  apply andb_true_iff in H as [H H3]. apply andb_true_iff in H as [H1 H2]. subst b. exists d0, d, d', tick, x. auto 10.
Qed.
End P.
