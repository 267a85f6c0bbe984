(** Devices that share routes and sensors. *)
From Coq Require Import Lia.
From Verif.Model Require Import Base Num Utf8 Geo Curve PropMap Types Pb TypesSnap Track Route Navigator Device Shared.
From Verif.Spec Require Import ListSpec TrackSpec RouteSpec NavSpec TypesSpec DeviceSpec SnapSpec RestoreSpec SharedSpec.
From Verif.Proofs Require Import BaseLemmas NavLemmas ViewNav ViewDev DeviceProofs SharedHeap.

Lemma pick_In {A} (h : list A) a x l : nth_error h a = Some x -> In a l -> In x (pick h l).
Proof. intros E H. unfold pick. apply in_flat_map. exists a. split; [exact H|]. rewrite E. now left. Qed.
Lemma del_nth_In {A} (x : A) l : forall i, In x (del_nth i l) -> In x l.
Proof. induction l as [|y l IH]; intros [|i]; cbn; auto. intros [H|H]; eauto. Qed.
Lemma del_nth_NoDup {A} (l : list A) : forall i, NoDup l -> NoDup (del_nth i l).
Proof.
  induction l as [|y l IH]; intros [|i] D; cbn; auto; inversion D; subst; auto. constructor; auto. intros K. apply del_nth_In in K. contradiction.
Qed.
Lemma pick_del {A} (h : list A) l : forall i, valid h l -> pick h (del_nth i l) = del_nth i (pick h l).
Proof.
  induction l as [|a l IH]; intros i V; [now destruct i|]. inversion V as [|? ? Va Vl]; subst.
  destruct (pick_cons h a l Va) as (x & Ex & ->). destruct i as [|i]; cbn [del_nth]; [reflexivity|].
  destruct (pick_cons h a (del_nth i l) Va) as (x' & Ex' & ->). f_equal; [congruence|]. now apply IH.
Qed.
Lemma set_nth_id {A} (l : list A) : forall i x, nth_error l i = Some x -> set_nth i x l = l.
Proof. induction l as [|y l IH]; intros [|i] x H; cbn in *; try discriminate; auto; [now injection H as ->|]. now rewrite IH. Qed.

Lemma Forall2_len {A B} (P : A -> B -> Prop) l l' : Forall2 P l l' -> List.length l = List.length l'.
Proof. induction 1; cbn; auto. Qed.

Section SharedProofs.
Context {T : Type} {N : Num T} {J : JsonLib T} {U : UtmLib T}.
Implicit Types (w : world T) (s : sdevice T).

(** ** pointers *)
Lemma add_route_ptrs_ok (h : list (route T)) new : forall l k, valid h l -> NoDup l ->
  pick h (add_route_ptrs h l new) = fst (add_routes (pick h l) (map (target h) new) k) /\
  valid h (add_route_ptrs h l new) /\ NoDup (add_route_ptrs h l new).
Proof.
  induction new as [|p new IH]; intros l k V D; [now cbn|]. cbn [add_route_ptrs map add_routes]. destruct p as [a|]; [|now apply IH]. cbn [target].
  destruct (nth_error h a) as [x|] eqn:E; [|now apply IH]. destruct (hasRoute (pick h l) (rt_id x)) eqn:F; [now apply IH|].
  assert (Va : (a < List.length h)%nat) by (apply nth_error_Some; congruence).
  destruct (IH (l ++ [a]) (k + 1)%Z) as (A & B & C).
  - apply Forall_app. split; [exact V|]. constructor; [exact Va|constructor].
  - apply NoDup_rev in D. rewrite <- (rev_involutive (l ++ [a])). apply NoDup_rev. rewrite rev_app_distr. cbn. constructor; [|exact D].
    intros K. apply in_rev in K. apply (pick_In h a x) in K; [|exact E]. unfold hasRoute in F.
    assert (G : existsb (fun r => String.eqb (rt_id x) (rt_id r)) (pick h l) = true) by (apply existsb_exists; exists x; split; [exact K|apply String.eqb_refl]). congruence.
  - rewrite A. split; [|auto]. do 2 f_equal. rewrite pick_app. f_equal. unfold pick. cbn. now rewrite E.
Qed.
Lemma add_sensor_ptrs_ok (h : list (sensor T)) new : forall l k, valid h l -> NoDup l ->
  pick h (add_sensor_ptrs h l new) = fst (add_sensors (pick h l) (map (target h) new) k) /\
  valid h (add_sensor_ptrs h l new) /\ NoDup (add_sensor_ptrs h l new).
Proof.
  induction new as [|p new IH]; intros l k V D; [now cbn|]. cbn [add_sensor_ptrs map add_sensors]. destruct p as [a|]; [|now apply IH]. cbn [target].
  destruct (nth_error h a) as [x|] eqn:E; [|now apply IH]. destruct (hasSensor (pick h l) (s_id x)) eqn:F; [now apply IH|].
  assert (Va : (a < List.length h)%nat) by (apply nth_error_Some; congruence).
  destruct (IH (l ++ [a]) (k + 1)%Z) as (A & B & C).
  - apply Forall_app. split; [exact V|]. constructor; [exact Va|constructor].
  - apply NoDup_rev in D. rewrite <- (rev_involutive (l ++ [a])). apply NoDup_rev. rewrite rev_app_distr. cbn. constructor; [|exact D].
    intros K. apply in_rev in K. apply (pick_In h a x) in K; [|exact E]. unfold hasSensor in F.
    assert (G : existsb (fun r => String.eqb (s_id r) (s_id x)) (pick h l) = true) by (apply existsb_exists; exists x; split; [exact K|apply String.eqb_refl]). congruence.
  - rewrite A. split; [|auto]. do 2 f_equal. rewrite pick_app. f_equal. unfold pick. cbn. now rewrite E.
Qed.

Definition held w s : Prop := NoDup (sd_routes s) /\ NoDup (sd_sensors s) /\ valid (w_routes w) (sd_routes s) /\ valid (w_sensors w) (sd_sensors s).
Lemma well_held_held w i s : well_held w -> nth_error (w_devs w) i = Some s -> held w s.
Proof. intros H E. unfold well_held in H. rewrite Forall_forall in H. apply H. eapply nth_error_In, E. Qed.

Lemma route_ptrs_ok w l o : plain (SDevice 0 o) -> valid (w_routes w) l -> NoDup l ->
  pick (w_routes w) (route_ptrs (w_routes w) l o) = base_routes (pick (w_routes w) l) (op_of w o) /\
  valid (w_routes w) (route_ptrs (w_routes w) l o) /\ NoDup (route_ptrs (w_routes w) l o).
Proof.
  intros P V D. destruct o as [new|new|o]; cbn [route_ptrs op_of base_routes]; [now apply add_route_ptrs_ok|now repeat split|].
  cbn in P. destruct o; cbn [base_routes] in *; try contradiction; try (now repeat split).
  - destruct (_ || _)%bool; [now repeat split|]. destruct (find_index _ _) as [i|]; [|now repeat split].
    split; [now apply pick_del|]. split; [now apply del_nth_Forall'|now apply del_nth_NoDup].
  - split; [reflexivity|]. split; constructor.
Qed.
Lemma sensor_ptrs_ok w l o : plain (SDevice 0 o) -> valid (w_sensors w) l -> NoDup l ->
  pick (w_sensors w) (sensor_ptrs (w_sensors w) l o) = base_sensors (pick (w_sensors w) l) (op_of w o) /\
  valid (w_sensors w) (sensor_ptrs (w_sensors w) l o) /\ NoDup (sensor_ptrs (w_sensors w) l o).
Proof.
  intros P V D. destruct o as [new|new|o]; cbn [sensor_ptrs op_of base_sensors]; [now repeat split|now apply add_sensor_ptrs_ok|].
  cbn in P. destruct o; cbn [base_sensors] in *; try contradiction; try (now repeat split).
  - split; [reflexivity|]. split; constructor.
  - destruct (_ =? _)%Z; [now repeat split|]. destruct (find_index _ _) as [i|]; [|now repeat split].
    split; [now apply pick_del|]. split; [now apply del_nth_Forall'|now apply del_nth_NoDup].
Qed.

(** ** one call *)
Definition reload (d : device T) (rs : list (route T)) (ss : list (sensor T)) : device T :=
  dset_sensors (dset_nav d (set_routes (d_nav d) rs)) ss.
Lemma reload_id (d : device T) : reload d (n_routes (d_nav d)) (d_sensors d) = d.
Proof. destruct d as [? [] ? ? ? ? ? ? ?]. reflexivity. Qed.

Lemma op_of_on w o : plain (SDevice 0 o) -> on_device (op_of w o) = true.
Proof. destruct o as [| |o]; cbn; try reflexivity. now destruct o. Qed.
Lemma op_of_frame w o : plain (SDevice 0 o) -> match op_of w o with DRouteOp _ _ | DSensorOp _ _ => False | _ => True end.
Proof. destruct o as [| |o]; cbn; try easy. now destruct o. Qed.

Lemma held_after w s rs ss ds : held w s -> List.length rs = List.length (w_routes w) -> List.length ss = List.length (w_sensors w) -> held (mkWorld rs ss ds) s.
Proof. intros (A & B & C & D) E F. unfold held, valid in *. cbn. now rewrite E, F. Qed.

Lemma call_device_inv w i o s w' : well_held w -> plain (SDevice i o) -> nth_error (w_devs w) i = Some s -> call_device w i o = Ret w' ->
  exists d, run_dev (load w s) (op_of w o) = Ret d /\
    let rp := route_ptrs (w_routes w) (sd_routes s) o in
    let sp := sensor_ptrs (w_sensors w) (sd_sensors s) o in
    w' = mkWorld (put (w_routes w) rp (n_routes (d_nav d))) (put (w_sensors w) sp (d_sensors d)) (set_nth i (mkSDev d rp sp) (w_devs w)) /\
    nth_error (w_devs w') i = Some (mkSDev d rp sp) /\ load w' (mkSDev d rp sp) = d /\ well_held w' /\
    Forall2 rstep (w_routes w) (w_routes w') /\ (~ removes_track (op_of w o) -> Forall2 touched (w_routes w) (w_routes w')) /\
    Forall2 sstep (w_sensors w) (w_sensors w').
Proof.
  intros W P E H. unfold call_device in H. rewrite E in H. destruct (run_dev _ _) as [d| |] eqn:R; cbn [bind] in H; try discriminate.
  exists d. split; [reflexivity|]. cbv zeta in *. injection H as H. split; [now rewrite <- H|].
  destruct (well_held_held w i s W E) as (D1 & D2 & V1 & V2).
  destruct (route_ptrs_ok w (sd_routes s) o P V1 D1) as (A1 & A2 & A3). destruct (sensor_ptrs_ok w (sd_sensors s) o P V2 D2) as (B1 & B2 & B3).
  destruct (frame _ _ _ (op_of_frame w o P) R) as (F1 & F2 & F3). cbn in F1, F2, F3. rewrite <- A1 in F1, F2. rewrite <- B1 in F3.
  subst w'. cbn [w_devs w_routes w_sensors].
  assert (Ei : nth_error (set_nth i (mkSDev d (route_ptrs (w_routes w) (sd_routes s) o) (sensor_ptrs (w_sensors w) (sd_sensors s) o)) (w_devs w)) i = Some (mkSDev d (route_ptrs (w_routes w) (sd_routes s) o) (sensor_ptrs (w_sensors w) (sd_sensors s) o))).
  { apply nth_set_eq. apply nth_error_Some. congruence. }
  split; [exact Ei|]. split.
  { unfold load. cbn [w_routes w_sensors sd_dev sd_routes sd_sensors].
    rewrite !pick_put; auto; [apply reload_id| |].
    - apply Forall2_len in F3. rewrite pick_length in F3 by exact B2. congruence.
    - apply Forall2_len in F1. rewrite pick_length in F1 by exact A2. congruence. }
  split.
  { unfold well_held. cbn [w_devs w_routes w_sensors]. apply Forall_forall. intros s' Hs. apply In_nth_error in Hs as (k & Hk). rewrite !put_length.
    destruct (Nat.eq_dec i k) as [<-|Hne].
    - rewrite Ei in Hk. injection Hk as <-. cbn. unfold valid in *. auto.
    - rewrite nth_set_ne in Hk by exact Hne. apply (well_held_held w k s' W Hk). }
  split; [|split].
  - apply put_Forall2; auto using rstep_refl.
  - intros K. apply put_Forall2; auto using touched_refl.
  - apply put_Forall2; auto using sstep_refl.
Qed.

Lemma set_nth_Forall2 {A} (P : A -> A -> Prop) (h : list A) : (forall x, P x x) -> forall a x y, nth_error h a = Some x -> P x y -> Forall2 P h (set_nth a y h).
Proof.
  intros R. assert (Rh : forall l, Forall2 P l l) by (induction l; auto).
  induction h as [|z h IH]; intros [|a] x y E Hp; cbn in *; try discriminate; constructor; auto.
  - injection E as ->. exact Hp.
  - eapply IH; eauto.
Qed.

Lemma Forall2_rrefl {A} (P : A -> A -> Prop) (h : list A) : (forall x, P x x) -> Forall2 P h h.
Proof. intros R. induction h; auto. Qed.

Lemma run_call_step w c w' : well_held w -> plain c -> run_call w c = Ret w' ->
  well_held w' /\ Forall2 rstep (w_routes w) (w_routes w') /\ Forall2 sstep (w_sensors w) (w_sensors w') /\
  (forall j, match c with SDevice i _ => i <> j | _ => True end -> nth_error (w_devs w') j = nth_error (w_devs w) j).
Proof.
  intros W P H. destruct c as [i o|a o|a o]; cbn [run_call] in H.
  - destruct (nth_error (w_devs w) i) as [s|] eqn:E.
    + destruct (call_device_inv w i o s w' W P E H) as (d & _ & _ & _ & _ & A & B & _ & C). repeat split; auto.
      intros j Hj. unfold call_device in H. rewrite E in H. destruct (run_dev _ _); cbn [bind] in H; try discriminate. injection H as <-. cbn. now apply nth_set_ne.
    + unfold call_device in H. rewrite E in H. injection H as <-. repeat split; auto; apply Forall2_rrefl; [apply rstep_refl|apply sstep_refl].
  - destruct (nth_error (w_routes w) a) as [r|] eqn:E; injection H as <-.
    + cbn. split; [|split; [|split]]; auto.
      * unfold well_held in *. cbn. now rewrite set_nth_length.
      * eapply set_nth_Forall2; [apply rstep_refl|exact E|]. now exists [o].
      * apply Forall2_rrefl, sstep_refl.
    + repeat split; auto; apply Forall2_rrefl; [apply rstep_refl|apply sstep_refl].
  - destruct (nth_error (w_sensors w) a) as [r|] eqn:E.
    + destruct (run_sensor1 r o) as [r'| |] eqn:F; cbn [bind] in H; try discriminate. injection H as <-.
      cbn. split; [|split; [|split]]; auto.
      * unfold well_held in *. cbn. now rewrite set_nth_length.
      * apply Forall2_rrefl, rstep_refl.
      * eapply set_nth_Forall2; [apply sstep_refl|exact E|]. now exists [o].
    + injection H as <-. repeat split; auto; apply Forall2_rrefl; [apply rstep_refl|apply sstep_refl].
Qed.

(** ** a history of one device *)
Definition handle (o : dev_op T) : Prop := on_device o = false.

Lemma run_devs_app' a : forall (d : device T) b, run_devs d (a ++ b) = bind (run_devs d a) (fun d' => run_devs d' b).
Proof. induction a as [|o a IH]; intros d b; [reflexivity|]. cbn. destruct (run_dev d o); cbn; auto. Qed.

Lemma set_nth_middle {A} (done : list A) x y l : set_nth (List.length done) y (done ++ x :: l) = done ++ y :: l.
Proof. induction done as [|z done IH]; cbn; [reflexivity|]. now rewrite IH. Qed.
Lemma nth_middle {A} (done : list A) x l : nth_error (done ++ x :: l) (List.length done) = Some x.
Proof. rewrite nth_error_app2, Nat.sub_diag by lia. reflexivity. Qed.

Lemma route_history ops : forall (d : device T) done r l, n_routes (d_nav d) = done ++ r :: l ->
  run_devs d (map (DRouteOp (List.length done)) ops) = Ret (reload d (done ++ fold_left run_route ops r :: l) (d_sensors d)).
Proof.
  induction ops as [|o ops IH]; intros d done r l E.
  - cbn. rewrite <- E. now rewrite reload_id.
  - cbn [map run_devs run_dev]. unfold nav_mutateRoute. rewrite E, nth_middle. cbn [bind].
    erewrite IH; [|cbn; rewrite set_nth_middle; reflexivity]. cbn [fold_left]. reflexivity.
Qed.
Lemma routes_history l l' : Forall2 rstep l l' -> forall (d : device T) done, n_routes (d_nav d) = done ++ l ->
  exists ops, Forall handle ops /\ run_devs d ops = Ret (reload d (done ++ l') (d_sensors d)).
Proof.
  induction 1 as [|r r' l l' (ops & ->) H IH]; intros d done E.
  - exists []. split; [constructor|]. cbn. rewrite <- E. now rewrite reload_id.
  - destruct (IH (reload d (done ++ fold_left run_route ops r :: l) (d_sensors d)) (done ++ [fold_left run_route ops r])) as (ops' & A & B).
    { cbn. now rewrite <- app_assoc. }
    exists (map (DRouteOp (List.length done)) ops ++ ops'). split.
    + apply Forall_app. split; [|exact A]. clear. induction ops; cbn; constructor; auto. reflexivity.
    + rewrite run_devs_app', (route_history ops d done r l E). cbn [bind]. rewrite B. cbn. now rewrite <- app_assoc.
Qed.
Lemma sensor_history ops : forall (d : device T) done (s : sensor T) l (s' : sensor T), d_sensors d = done ++ s :: l -> run_sensor s ops = Ret s' ->
  run_devs d (map (DSensorOp (List.length done)) ops) = Ret (dset_sensors d (done ++ s' :: l)).
Proof.
  induction ops as [|o ops IH]; intros d done s l s' E R.
  - cbn in *. injection R as <-. rewrite <- E. now destruct d.
  - cbn [map run_devs run_dev]. rewrite E, nth_middle.
    assert (exists s1 : sensor T, run_sensor1 s o = Ret s1 /\ run_sensor s1 ops = Ret s') as (s1 & R1 & R2).
    { unfold run_sensor1. destruct o; cbn in *; [eauto|]. destruct (sensor_Next s tick); cbn in *; try discriminate. eauto. }
    rewrite R1. cbn [bind]. erewrite IH; [|cbn; rewrite set_nth_middle; reflexivity|exact R2]. reflexivity.
Qed.
Lemma sensors_history l l' : Forall2 sstep l l' -> forall (d : device T) done, d_sensors d = done ++ l ->
  exists ops, Forall handle ops /\ run_devs d ops = Ret (dset_sensors d (done ++ l')).
Proof.
  induction 1 as [|s s' l l' (ops & R) H IH]; intros d done E.
  - exists []. split; [constructor|]. cbn. rewrite <- E. now destruct d.
  - destruct (IH (dset_sensors d (done ++ s' :: l)) (done ++ [s'])) as (ops' & A & B).
    { cbn. now rewrite <- app_assoc. }
    exists (map (DSensorOp (List.length done)) ops ++ ops'). split.
    + apply Forall_app. split; [|exact A]. clear. induction ops; cbn; constructor; auto. reflexivity.
    + rewrite run_devs_app', (sensor_history ops d done s l s' E R). cbn [bind]. rewrite B. cbn. now rewrite <- app_assoc.
Qed.
Lemma objects_history (d : device T) rs ss : Forall2 rstep (n_routes (d_nav d)) rs -> Forall2 sstep (d_sensors d) ss ->
  exists ops, Forall handle ops /\ run_devs d ops = Ret (reload d rs ss).
Proof.
  intros A B. destruct (routes_history _ _ A d [] eq_refl) as (o1 & H1 & R1). cbn [app] in R1.
  destruct (sensors_history _ _ B (reload d rs (d_sensors d)) [] eq_refl) as (o2 & H2 & R2). cbn [app] in R2.
  exists (o1 ++ o2). split; [now apply Forall_app|]. rewrite run_devs_app', R1. cbn [bind]. rewrite R2. reflexivity.
Qed.

Lemma handle_filter ops : Forall handle ops -> filter on_device ops = [].
Proof. induction 1 as [|o ops H _ IH]; cbn; [reflexivity|]. now rewrite H. Qed.

(** one call, seen from one device *)
Lemma step_history w c w' j s : well_held w -> plain c -> run_call w c = Ret w' -> nth_error (w_devs w) j = Some s ->
  exists s' ops, nth_error (w_devs w') j = Some s' /\ run_devs (load w s) ops = Ret (load w' s') /\
    filter on_device ops = match c with SDevice i o => if Nat.eqb i j then [op_of w o] else [] | _ => [] end.
Proof.
  intros W P H E. destruct (run_call_step w c w' W P H) as (W' & R & S & K).
  assert (G : match c with SDevice i _ => i <> j | _ => True end -> exists s' ops, nth_error (w_devs w') j = Some s' /\ run_devs (load w s) ops = Ret (load w' s') /\ filter on_device ops = []).
  { intros Hc. destruct (objects_history (load w s) (pick (w_routes w') (sd_routes s)) (pick (w_sensors w') (sd_sensors s))) as (ops & A & B).
    - cbn. now apply pick_Forall2.
    - cbn. now apply pick_Forall2.
    - exists s, ops. rewrite (K j Hc). repeat split; [exact E|exact B|now apply handle_filter]. }
  destruct c as [i o|a o|a o]; [|now apply G|now apply G]. destruct (Nat.eqb_spec i j) as [->|Hne]; [|now apply G].
  destruct (call_device_inv w j o s w' W P E H) as (d & A & _ & B & C & _).
  eexists. exists [op_of w o]. split; [exact B|]. rewrite C. cbn [run_devs filter]. rewrite A. split; [reflexivity|].
  now rewrite (op_of_on w o P).
Qed.

Lemma history_proof l : forall w w' j d, well_held w -> Forall plain l -> run_calls w l = Ret w' -> device_at w j = Some d ->
  exists d' ops, device_at w' j = Some d' /\ run_devs d ops = Ret d' /\ filter on_device ops = calls_on w j l.
Proof.
  induction l as [|c l IH]; intros w w' j d W P H E; cbn [run_calls calls_on] in *.
  - injection H as <-. exists d, []. repeat split; auto.
  - inversion P as [|? ? Pc Pl]; subst. destruct (run_call w c) as [w1| |] eqn:H1; cbn [bind] in H; try discriminate.
    unfold device_at in E. destruct (nth_error (w_devs w) j) as [s|] eqn:Es; [|discriminate]. injection E as <-.
    destruct (step_history w c w1 j s W Pc H1 Es) as (s1 & o1 & A1 & A2 & A3).
    destruct (run_call_step w c w1 W Pc H1) as (W1 & _).
    destruct (IH w1 w' j (load w1 s1) W1 Pl H) as (d' & o2 & B1 & B2 & B3).
    { unfold device_at. now rewrite A1. }
    exists d', (o1 ++ o2). split; [exact B1|]. split; [rewrite run_devs_app', A2; exact B2|]. rewrite filter_app, A3, B3. reflexivity.
Qed.
End SharedProofs.
