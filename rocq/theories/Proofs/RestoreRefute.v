(** C36: what a snapshot does not carry. *)
From Coq Require Import Lia.
From Verif.Model Require Import Base Num NumF64 Utf8 Geo Curve PropMap Types Pb TypesSnap Track Route Navigator Device Wire WireMsgs WireF64 IO.
From Verif.Spec Require Import ListSpec TrackSpec RouteSpec NavSpec TypesSpec DeviceSpec SnapSpec RestoreSpec WireSpec WireMsgSpec.
From Verif.Proofs Require Import BaseLemmas.
Open Scope num_scope.

Section Refute.
Context (m : MathLib) (J : JsonLib f64) (U : UtmLib f64).
#[local] Instance refN : Num f64 := F64Num m.

Definition rf_opts (lo hi : Z) : deviceOptions f64 :=
  mkDevOpts "" "Model" "" "" "" true 2 60 (fofZ 10) (fofZ 300) 8 0 f0 (fofZ 100) 25200000000000 (fofZ lo) (fofZ hi) 16.
Definition rf_draws : newDraws f64 := mkNewDraws "e" (fun _ => f0) (fun _ => f0) "id" "abcdef" "#0000ff" None.
Definition rf_next : nextDraws f64 := mkNextDraws 0 0 (fun _ => f0) (fun _ => f0) (fun _ _ => f0).
Definition rf_route : option (route f64) := Some (NewRoute "r1" "#ff0000").

(** run [ops], encode, decode, run [later] on both *)
Definition both (lo hi : Z) (ops later : list (dev_op f64)) (test : device f64 -> device f64 -> device f64 -> device f64 -> bool) : bool :=
  match fst (NewDevice (Some (rf_opts lo hi)) rf_draws) with
  | GOk d0 =>
    match run_devs d0 ops with
    | Ret d =>
      match EncodeTracker (B := F64Bits) (Some d) with
      | Ret (GOk b, Some d1) =>
        match DecodeTracker (B := F64Bits) b with
        | Ret (GOk d') =>
          match run_devs d1 later, run_devs d' later with
          | Ret e, Ret e' => test d1 d' e e'
          | _, _ => false
          end
        | _ => false
        end
      | _ => false
      end
    | _ => false
    end
  | _ => false
  end.


Definition lost (d : device f64) (later : list (dev_op f64)) : Prop :=
  exists b d1 d', EncodeTracker (B := F64Bits) (Some d) = Ret (GOk b, Some d1) /\
    DecodeTracker (B := F64Bits) b = Ret (GOk d') /\ d_status d1 = Stopped /\ ~ goes_on_like false false d1 d' later.

Lemma both_lost lo hi ops later test : both lo hi ops later test = true ->
  (forall d1 d' e e', view false false e = view false false e' -> test d1 d' e e' = true -> d_status d1 = Stopped -> False) ->
  (forall d1 d' e e', test d1 d' e e' = true -> d_status d1 = Stopped) ->
  exists d0 d, built (Some (rf_opts lo hi)) rf_draws d0 /\ run_devs d0 ops = Ret d /\ lost d later.
Proof.
  unfold both. intros H Ht Hs. destruct (fst (NewDevice _ _)) as [d0|] eqn:E0; [|discriminate].
  destruct (run_devs d0 ops) as [d| |] eqn:E1; try discriminate.
  destruct (EncodeTracker (Some d)) as [[[b|] [d1|]]| |] eqn:E2; try discriminate.
  destruct (DecodeTracker b) as [[d'|]| |] eqn:E3; try discriminate.
  destruct (run_devs d1 later) as [e| |] eqn:E4; try discriminate.
  destruct (run_devs d' later) as [e'| |] eqn:E5; try discriminate.
  exists d0, d. split; [exact E0|]. split; [exact E1|]. exists b, d1, d'. split; [exact E2|]. split; [exact E3|].
  split; [eapply Hs; exact H|]. intros [_ G]. rewrite E4, E5 in G. cbn in G. eapply Ht; eauto.
Qed.

Definition neq (x y : f64) : bool := (x =? x) && negb (x =? y).
Lemma neq_ne x y : neq x y = true -> x <> y.
Proof. unfold neq. intros H ->. destruct (y =? y); discriminate. Qed.

(** one contended Next call is forgotten *)
Lemma owed_lost : exists d0 d, built (Some (rf_opts 1 2)) rf_draws d0 /\
  run_devs d0 [DNext false (fofZ 1) rf_next] = Ret d /\ lost d [DAddRoute [rf_route]; DNext true (fofZ 1) rf_next].
Proof.
  apply (both_lost 1 2 _ _ (fun d1 _ e e' => (d_status d1 =? Stopped)%Z && neq (pde_tick (d_state e)) (pde_tick (d_state e')))).
  - vm_compute. reflexivity.
  - intros d1 d' e e' V H _. apply andb_true_iff in H. destruct H as [_ H]. apply neq_ne in H. apply H.
    exact (f_equal (fun q => pde_tick (d_state q)) V).
  - intros d1 d' e e' H. apply andb_true_iff in H. destruct H as [H _]. now apply Z.eqb_eq.
Qed.
(** the ID of a route that is no longer there *)
Lemma stale_lost : exists d0 d, built (Some (rf_opts 1 2)) rf_draws d0 /\
  run_devs d0 [DAddRoute [rf_route]; DUpdate; DResetRoutes] = Ret d /\ lost d [].
Proof.
  apply (both_lost 1 2 _ _ (fun d1 _ e e' => (d_status d1 =? Stopped)%Z &&
    match pde_navigator (d_state e), pde_navigator (d_state e') with
    | Some v, Some v' => negb (String.eqb (pdv_current_route_id v) (pdv_current_route_id v'))
    | _, _ => false end)).
  - vm_compute. reflexivity.
  - intros d1 d' e e' V H _. apply andb_true_iff in H. destruct H as [_ H].
    pose proof (f_equal (fun q => pde_navigator (d_state q)) V) as Q. cbn in Q. rewrite Q in H.
    destruct (pde_navigator (d_state e')); [|discriminate]. rewrite String.eqb_refl in H. discriminate.
  - intros d1 d' e e' H. apply andb_true_iff in H. destruct H as [H _]. now apply Z.eqb_eq.
Qed.
(** a constant speed shows before the device moves *)
Lemma speed_lost : exists d0 d, built (Some (rf_opts 1 1)) rf_draws d0 /\ run_devs d0 [] = Ret d /\ lost d [].
Proof.
  apply (both_lost 1 1 _ _ (fun d1 _ e e' => (d_status d1 =? Stopped)%Z && neq (pde_speed (d_state e)) (pde_speed (d_state e')))).
  - vm_compute. reflexivity.
  - intros d1 d' e e' V H _. apply andb_true_iff in H. destruct H as [_ H]. apply neq_ne in H. apply H.
    exact (f_equal (fun q => pde_speed (d_state q)) V).
  - intros d1 d' e e' H. apply andb_true_iff in H. destruct H as [H _]. now apply Z.eqb_eq.
Qed.
End Refute.
