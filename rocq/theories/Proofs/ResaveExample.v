(** C87: examples and counterexamples. *)
From Coq Require Import Lia.
From Verif.Model Require Import Base Num NumF64 Utf8 Geo Curve PropMap Types Pb TypesSnap Track Route Navigator Device Wire WireMsgs WireF64 IO.
From Verif.Spec Require Import ListSpec TrackSpec RouteSpec NavSpec TypesSpec DeviceSpec SnapSpec RestoreSpec ResaveSpec WireSpec WireMsgSpec DecodeSpec Examples.
From Verif.Proofs Require Import BaseLemmas RestoreRefute JsonExample WireF64Proofs RestoreExample.
Open Scope num_scope.

Fixpoint bytes_eqb (a b : list byte) : bool :=
  match a, b with
  | [], [] => true
  | x :: a, y :: b => (x =? y)%Z && bytes_eqb a b
  | _, _ => false
  end.
Lemma bytes_eqb_refl a : bytes_eqb a a = true.
Proof. induction a as [|x a IH]; [reflexivity|]. cbn. now rewrite Z.eqb_refl. Qed.

(** ** A device in skip-offline mode *)
Section Skip.
Context (m : MathLib) (J : JsonLib f64) (U : UtmLib f64).
#[local] Instance skN : Num f64 := F64Num m.
Definition skip_test o x : bool :=
  match fst (NewDevice (Some o) x) with
  | GOk d =>
    match EncodeTracker (B := F64Bits) (Some d) with
    | Ret (GOk b, Some d1) =>
      match DecodeTracker (B := F64Bits) b with
      | Ret (GOk d') =>
        match EncodeTracker (B := F64Bits) (Some d') with
        | Ret (GOk b', Some d2) => negb (bytes_eqb b' b)
        | _ => false
        end
      | _ => false
      end
    | _ => false
    end
  | _ => false
  end.
Lemma skip_test_ok : skip_test (rf_opts m 1 2) (rf_draws m) = true.
Proof. vm_compute. reflexivity. Qed.
Lemma skip_of o x : skip_test o x = true -> exists d b d1 d' b' d2, built (Some o) x d /\
  EncodeTracker (B := F64Bits) (Some d) = Ret (GOk b, Some d1) /\ DecodeTracker (B := F64Bits) b = Ret (GOk d') /\
  EncodeTracker (B := F64Bits) (Some d') = Ret (GOk b', Some d2) /\ b' <> b.
Proof.
  intros H. unfold skip_test in H.
  destruct (fst (NewDevice _ _)) as [d|] eqn:E0; [|discriminate].
  destruct (EncodeTracker (Some d)) as [[[b|] [d1|]]| |] eqn:E2; try discriminate.
  destruct (DecodeTracker b) as [[d'|]| |] eqn:E3; try discriminate.
  destruct (EncodeTracker (Some d')) as [[[b'|] [d2|]]| |] eqn:E4; try discriminate.
  exists d, b, d1, d', b', d2. split; [exact E0|]. split; [exact E2|]. split; [exact E3|]. split; [exact E4|].
  intros ->. rewrite bytes_eqb_refl in H. discriminate.
Qed.
End Skip.

(** ** A route with a property JSON has no text for, and a moved device with two routes *)
#[local] Instance exN : Num f64 := F64Num idMath.
#[local] Existing Instance F64Bits.
#[local] Instance exJ : JsonLib f64 := ExampleJson F64_bits_law.
#[local] Instance exU : UtmLib f64 := xu.

Definition bad_route : route f64 := run_route (NewRoute "r1" "#ff0000") (RSetProps (props_Set props_Make "f" GOther)).
Definition bad_test x ops : bool :=
  match fst (NewDevice None x) with
  | GOk d0 =>
    match run_devs d0 ops with
    | Ret d =>
      match EncodeTracker (Some d) with
      | Ret (GOk b, Some d1) =>
        match DecodeTracker b with
        | Ret (GOk d') =>
          match EncodeTracker (Some d') with
          | Ret (GOk b', Some d2) => negb (n_skip (d_nav d1)) && negb (bytes_eqb b' b)
          | _ => false
          end
        | _ => false
        end
      | _ => false
      end
    | _ => false
    end
  | _ => false
  end.
Lemma bad_test_ok : bad_test xd_draws [DAddRoute [Some bad_route]] = true.
Proof. vm_compute. reflexivity. Qed.
Lemma bad_of x ops : bad_test x ops = true -> exists d0 d b d1 d' b' d2, built None x d0 /\ run_devs d0 ops = Ret d /\
  EncodeTracker (Some d) = Ret (GOk b, Some d1) /\ n_skip (d_nav d1) = false /\ DecodeTracker b = Ret (GOk d') /\
  EncodeTracker (Some d') = Ret (GOk b', Some d2) /\ b' <> b.
Proof.
  intros H. unfold bad_test in H.
  destruct (fst (NewDevice _ _)) as [d0|] eqn:E0; [|discriminate].
  destruct (run_devs d0 _) as [d| |] eqn:E1; try discriminate.
  destruct (EncodeTracker (Some d)) as [[[b|] [d1|]]| |] eqn:E2; try discriminate.
  destruct (DecodeTracker b) as [[d'|]| |] eqn:E3; try discriminate.
  destruct (EncodeTracker (Some d')) as [[[b'|] [d2|]]| |] eqn:E4; try discriminate.
  apply andb_true_iff in H. destruct H as [H1 H2]. apply negb_true_iff in H1.
  exists d0, d, b, d1, d', b', d2. split; [exact E0|]. split; [exact E1|]. split; [exact E2|]. split; [exact H1|]. split; [exact E3|]. split; [exact E4|].
  intros ->. rewrite bytes_eqb_refl in H2. discriminate.
Qed.

Definition rw (p : option (props f64)) : bool :=
  match p with
  | None => true
  | Some q =>
    match json_marshal q with
    | Some b => match json_unmarshal b with
                | Some (Some q') => match json_marshal q' with Some b' => String.eqb b' b | None => false end
                | _ => false
                end
    | None => false
    end
  end.
Lemma rw_ok p : rw p = true -> rewritable p.
Proof.
  destruct p as [q|]; [|intros _; exact I]. unfold rw, rewritable. destruct (json_marshal q) as [b|] eqn:E1; [|discriminate].
  destruct (json_unmarshal b) as [[q'|]|] eqn:E2; try discriminate. destruct (json_marshal q') as [b'|] eqn:E3; [|discriminate].
  intros H. apply String.eqb_eq in H. subst b'. exists b, q'. auto.
Qed.
Definition rw_device (d : device f64) : bool :=
  forallb (fun r => rw (rt_props r) && forallb (fun t => rw (tk_props t)) (rt_tracks r)) (n_routes (d_nav d)).
Lemma rw_device_ok d : rw_device d = true -> rewritable_device d.
Proof.
  unfold rw_device, rewritable_device. apply forallb_ok. intros r H. apply andb_true_iff in H. destruct H as [H1 H2].
  split; [now apply rw_ok|]. revert H2. apply forallb_ok. intros t. apply rw_ok.
Qed.
Definition again_test x ops : bool :=
  match fst (NewDevice None x) with
  | GOk d0 =>
    match run_devs d0 ops with
    | Ret d =>
      match EncodeTracker (Some d) with
      | Ret (GOk b, Some d1) =>
        (zlen b <? 2 ^ 63)%Z && match device_Snapshot d1 with Ret s => snap64 s | _ => true end && rw_device d1 &&
        negb (n_skip (d_nav d1)) && (2 <=? zlen (n_routes (d_nav d1)))%Z && (1 <=? zlen (d_sensors d1))%Z && (f0 <? n_cd (d_nav d1))
      | _ => false
      end
    | _ => false
    end
  | _ => false
  end.
Lemma again_test_ok : again_test xd_draws xd_ops = true.
Proof. vm_compute. reflexivity. Qed.
Lemma again_of x ops : Forall dev_adds_made_routes ops -> again_test x ops = true ->
  exists d b d1, made_device d /\ EncodeTracker (Some d) = Ret (GOk b, Some d1) /\ go_sized d1 b /\
  rewritable_device d1 /\ n_skip (d_nav d1) = false /\
  (2 <= zlen (n_routes (d_nav d1)))%Z /\ (1 <= zlen (d_sensors d1))%Z /\ (f0 <? n_cd (d_nav d1)) = true.
Proof.
  intros Hmade H. unfold again_test in H.
  destruct (fst (NewDevice _ _)) as [d0|] eqn:E0; [|discriminate].
  destruct (run_devs d0 _) as [d| |] eqn:E1; try discriminate.
  destruct (EncodeTracker (Some d)) as [[[b|] [d1|]]| |] eqn:E2; try discriminate.
  apply andb_true_iff in H as [H H7]. apply andb_true_iff in H as [H H6]. apply andb_true_iff in H as [H H5].
  apply andb_true_iff in H as [H H4]. apply andb_true_iff in H as [H H3]. apply andb_true_iff in H as [H1 H2].
  exists d, b, d1. split; [eapply made_run; [apply (md_new None x); exact E0|exact Hmade|exact E1]|].
  split; [exact E2|].
  split; [split; [intros s Es; rewrite Es in H2; now apply snap64_ok|now apply Z.ltb_lt]|].
  split; [now apply rw_device_ok|]. split; [now apply negb_true_iff|]. split; [now apply Z.leb_le|]. split; [now apply Z.leb_le|exact H7].
Qed.
