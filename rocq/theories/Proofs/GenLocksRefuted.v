(** One owner of a device; callbacks that deadlock. *)
From Coq Require Import Lia.
From Verif.Model Require Import Base Num Geo Curve PropMap Pb Types TypesSnap Track Route Navigator Device Generator Mutex DeviceConc Locks GenLocks.
From Verif.Spec Require Import NavSpec TypesSpec DeviceSpec GenSpec MutexSpec DeviceConcSpec LocksSpec GenLocksSpec.
From Verif.Proofs Require Import MutexProofs GenProofs LocksBase LocksLive LocksSerial GenLocksLive GenLocksSerial.

Lemma NoDup_app_l {A} (l l' : list A) : NoDup (l ++ l') -> NoDup l.
Proof. induction l as [|a l IH]; intros H; [constructor|]. inversion H; subst. constructor; [intros I; apply H2, in_or_app; auto|auto]. Qed.
Lemma NoDup_app_r {A} (l l' : list A) : NoDup (l ++ l') -> NoDup l'.
Proof. induction l as [|a l IH]; intros H; [exact H|]. inversion H; auto. Qed.

Section P.
Context {T : Type} {NT : Num T} {J : JsonLib T} {U : UtmLib T}.
Implicit Types (w : world T).
Notation gp := (gprog T).

(** *** the worlds concurrent calls leave are worlds calls in turn leave *)
Lemma does_made w u v w' : made_world w -> serial_use w u -> does w u = Some (v, w') -> made_world w'.
Proof.
  intros M S E. destruct u as [g p|g id|g id|g id|g|g|g fn|p c|p i|p|p|g tick x|g|g]; cbn [does serial_use] in *; try contradiction; try (injection E as <- <-; exact M).
  - destruct (Attach w g p) as [e w1] eqn:Ea. injection E as <- <-. replace w1 with (run_world w (OpAttach g p)) by (cbn; now rewrite Ea). now constructor.
  - destruct (Detach w g id) as [e w1] eqn:Ea. injection E as <- <-. replace w1 with (run_world w (OpDetach g id)) by (cbn; now rewrite Ea). now constructor.
  - destruct c as [tick x|o|f]; [contradiction| |injection E as <- <-; exact M]. destruct (run_dev (w_heap w p) o) as [d| |] eqn:Er; try discriminate. injection E as <- <-.
    replace (set_heap w p d) with (run_world w (OpCall p o)) by (cbn; now rewrite Er). constructor; [exact M|]. apply S.
Qed.
Lemma turns_made turns w us w' us' : in_turn turns w us w' us' -> made_world w -> Forall (fun x => Forall (serial_use w) (fst x)) us -> made_world w'.
Proof.
  induction 1 as [w us|i turns u l r us w v w1 w2 us2 Hn E _ IH]; intros M F; [exact M|].
  assert (Fu : Forall (serial_use w) (u :: l)) by (rewrite Forall_forall in F; apply (F _ (nth_error_In _ _ Hn))). inversion Fu; subst.
  pose proof (does_gens _ _ _ _ E) as EG. apply IH; [eapply does_made; eauto|].
  apply Forall_set; cbn; [eapply Forall_impl; [|eassumption]; intros; eapply serial_gens; eauto|].
  eapply Forall_impl; [|exact F]. intros x Fx. eapply Forall_impl; [|exact Fx]. intros; eapply serial_gens; eauto.
Qed.
Lemma C73_world_proof w calls y : made_world w -> Forall (Forall (serial_use w)) calls ->
  steps (start (memory w) (map (map use_prog) calls)) y -> finished y ->
  exists w', made_world w' /\ forall i, sh_mem (sy_shared y) i = memory w' i.
Proof.
  intros M F S Fin. destruct (C73_proof w calls _ _ F (ss_nil _) S) as (t1 & t2 & w1 & us1 & w2 & us2 & Q1 & _ & Q2 & _ & X). destruct (X Fin) as [Y _].
  exists w2. split; [|exact Y].
  assert (Q : in_turn (t1 ++ t2) w (map (fun l => (l, [])) calls) w2 us2).
  { clear - Q1 Q2. induction Q1; [exact Q2|]. cbn. econstructor; eauto. }
  eapply turns_made; [exact Q|exact M|]. rewrite Forall_map. exact F.
Qed.

(** *** one owner *)
Lemma attach_running w g p : is_running w p -> does w (UAttach g (Some p)) = Some (RErr (Some ErrAlreadyRunning), w).
Proof. intros R. cbn. unfold Attach. now rewrite (mount_running _ R). Qed.
Lemma attach_stopped w g p : ~ is_running w p -> exists w', does w (UAttach g (Some p)) = Some (RErr None, w') /\ is_running w' p.
Proof.
  intros R. cbn. unfold Attach. rewrite (mount_stopped _ R). eexists. split; [reflexivity|]. unfold is_running. cbn. now rewrite Nat.eqb_refl.
Qed.

Definition shape (p : nat) (x : list (gen_use T) * list (gval T)) : Prop := fst x = [] \/ snd x = [] /\ exists g, fst x = [UAttach g (Some p)].
Lemma refused p turns w us w' us' : in_turn turns w us w' us' -> is_running w p -> Forall (shape p) us ->
  forall j x x', nth_error us j = Some x -> nth_error us' j = Some x' -> fst x' = [] ->
    snd x' = match fst x with [] => snd x | _ => [RErr (Some ErrAlreadyRunning)] end.
Proof.
  induction 1 as [w us|i turns u l r us w v w1 w2 us2 Hn E _ IH]; intros R F j x x' Hx Hx' L.
  - rewrite Hx in Hx'. injection Hx' as <-. now rewrite L.
  - assert (Fi : shape p (u :: l, r)) by (rewrite Forall_forall in F; apply (F _ (nth_error_In _ _ Hn))). destruct Fi as [Fi|[Fr [g Fi]]]; cbn in *; [discriminate|].
    injection Fi as -> ->. subst r. rewrite (attach_running _ _ _ R) in E. injection E as <- <-.
    assert (F' : Forall (shape p) (set_nth i ([], [] ++ [RErr (Some ErrAlreadyRunning)]) us)) by (apply Forall_set; [now left|exact F]).
    destruct (Nat.eq_dec j i) as [->|Ne].
    + rewrite Hn in Hx. injection Hx as <-. exact (IH R F' i _ _ (nth_set_same _ _ _ _ Hn) Hx' L).
    + eapply (IH R F' j); [rewrite nth_set_other by congruence; exact Hx|exact Hx'|exact L].
Qed.
Lemma C73_owner_proof w gs p y : gs <> [] -> ~ is_running w p -> Forall (fun g => g < List.length (w_gens w))%nat gs ->
  steps (start (memory w) (map (map use_prog) (attach_to gs p))) y -> finished y ->
  exists i, (i < List.length gs)%nat /\
    map go_results (sy_gos y) = map (fun j => [if (j =? i)%nat then RErr None else RErr (Some ErrAlreadyRunning)]) (seq 0 (List.length gs)).
Proof.
  intros Ne R F S Fin.
  assert (FS : Forall (Forall (serial_use w)) (attach_to gs p)).
  { unfold attach_to. rewrite Forall_map. eapply Forall_impl; [|exact F]. intros g Hg. constructor; [exact Hg|constructor]. }
  destruct (C73_proof w _ _ _ FS (ss_nil _) S) as (t1 & t2 & w1 & us1 & w2 & us2 & Q1 & _ & Q2 & _ & X). destruct (X Fin) as [_ ->].
  assert (Q : in_turn (t1 ++ t2) w (map (fun l => (l, [])) (attach_to gs p)) w2 (map (fun g => ([], go_results g)) (sy_gos y))).
  { clear - Q1 Q2. induction Q1; [exact Q2|]. cbn. econstructor; eauto. }
  clear Q1 Q2 X. set (us := map (fun l => (l, [])) (attach_to gs p)) in *.
  assert (LEN : List.length (sy_gos y) = List.length gs).
  { assert (Z : forall turns w us w' us', in_turn turns w us w' us' -> List.length us' = List.length us) by (clear; induction 1; [reflexivity|]; now rewrite length_set in *).
    apply Z in Q. rewrite map_length in Q. rewrite Q. unfold us, attach_to. now rewrite !map_length. }
  inversion Q as [? ? E1 E2 E3 E4|i turns u l r ? ? v w3 ? ? Hn E Q']; subst.
  - exfalso. destruct gs as [|g gs]; [congruence|]. destruct (sy_gos y) as [|z zs]; [discriminate LEN|]. discriminate.
  - assert (SH : Forall (shape p) us) by (unfold us, attach_to; rewrite map_map, Forall_map; apply Forall_forall; intros g _; right; cbn; eauto).
    assert (HI : shape p (u :: l, r)) by (rewrite Forall_forall in SH; apply (SH _ (nth_error_In _ _ Hn))). destruct HI as [HI|[HR [g HI]]]; cbn in *; [discriminate|].
    injection HI as -> ->. subst r. destruct (attach_stopped w g p R) as (w4 & E' & R'). rewrite E' in E. injection E as <- <-.
    assert (Hi : (i < List.length gs)%nat).
    { assert (Z : (i < List.length us)%nat) by (apply nth_error_Some; congruence). unfold us, attach_to in Z. now rewrite !map_length in Z. }
    exists i. split; [exact Hi|]. apply nth_ext_error. intros j. rewrite !nth_error_map.
    destruct (nth_error (sy_gos y) j) as [z|] eqn:Hz.
    + assert (Hj : (j < List.length gs)%nat) by (rewrite <- LEN; apply nth_error_Some; congruence).
      assert (Hs : nth_error (seq 0 (List.length gs)) j = Some j).
      { rewrite (nth_error_nth' _ 0%nat) by now rewrite seq_length. f_equal. now rewrite seq_nth. }
      rewrite Hs. cbn [option_map]. f_equal.
      destruct (nth_error gs j) as [h|] eqn:Hh; [|apply nth_error_None in Hh; lia].
      assert (Hus : nth_error us j = Some ([UAttach h (Some p)], [])) by (unfold us, attach_to; now rewrite !nth_error_map, Hh).
      assert (SH' : Forall (shape p) (set_nth i ([], [] ++ [RErr None]) us)) by (apply Forall_set; [now left|exact SH]).
      assert (Hz' : nth_error (map (fun g => ([] : list (gen_use T), go_results g)) (sy_gos y)) j = Some ([], go_results z)) by now rewrite nth_error_map, Hz.
      destruct (Nat.eqb_spec j i) as [->|Nj].
      * exact (refused _ _ _ _ _ _ Q' R' SH' i _ _ (nth_set_same _ _ _ _ Hn) Hz' eq_refl).
      * refine (refused _ _ _ _ _ _ Q' R' SH' j ([UAttach h (Some p)], []) _ _ Hz' eq_refl). rewrite nth_set_other by congruence. exact Hus.
    + apply nth_error_None in Hz. rewrite (proj2 (nth_error_None _ _)); [reflexivity|]. rewrite seq_length. lia.
Qed.

(** *** deadlocks *)
Notation sys := (Locks.system gkey (cell T) (gval T)).
Lemma blocked_still (s : Locks.shared gkey (cell T)) (gs : list (Locks.goroutine gkey (cell T) (gval T))) :
  Forall (fun g => go_now g = None /\ go_calls g = [] \/ exists i, blocked s ([], g) i) gs -> forall y, ~ step (mkSys s gs false) y.
Proof.
  intros F y St. inversion St; subst;
  match goal with H : nth_error _ _ = Some _ |- _ => pose proof (proj1 (Forall_forall _ _) F _ (nth_error_In _ _ H)) as X end;
  cbn in X; destruct X as [[X1 X2]|(j & p0 & X1 & X2 & X3)]; cbn in *; try discriminate.
  - injection X1 as <-.
    match goal with H : act _ _ _ _ |- _ => destruct H; cbn in *; try discriminate; injection X2 as <-; try contradiction; try (now apply (X3 n)) end.
  - injection X1 as <-. discriminate.
  - injection X1 as <-. discriminate.
Qed.

Ltac mu := cbn; unfold upd; repeat (match goal with |- context [eqK ?a ?b] => destruct (eqK a b); try congruence end); try reflexivity; try congruence.
Ltac go i := eapply ss_cons; [eapply (st_act i); [reflexivity|]; econstructor; mu|cbn].
Ltac call i := eapply ss_cons; [eapply (st_call i); reflexivity|cbn].
Ltac ret i := eapply ss_cons; [eapply (st_return i); reflexivity|cbn].
Lemma each_self m g q k p l : m (G g) = CList (p :: l) -> q = Lock (G g) k ->
  exists x : sys, steps (start m [[Each_prog g (then_go_on q)]]) x /\ deadlock x.
Proof.
  intros Em ->. eexists. split.
  - call 0%nat. go 0%nat. go 0%nat. rewrite Em. cbn. go 0%nat. apply ss_nil.
  - repeat split.
    + intros F. inversion F as [|? ? [X _] _]. discriminate X.
    + apply blocked_still. constructor; [|constructor]. right. exists (G g). eexists. repeat split. mu.
Qed.
Lemma each_writer m g q k k' p l : m (G g) = CList (p :: l) -> q = RLock (G g) k ->
  exists x : sys, steps (start m [[Each_prog g (then_go_on q)]; [Lock (G g) k']]) x /\ deadlock x.
Proof.
  intros Em ->. eexists. split.
  - call 0%nat. go 0%nat. go 0%nat. rewrite Em. cbn. call 1%nat. go 1%nat. apply ss_nil.
  - repeat split.
    + intros F. inversion F as [|? ? [X _] _]. discriminate X.
    + apply blocked_still. constructor; [|constructor; [|constructor]]; right; exists (G g); eexists; repeat split; mu.
Qed.
Lemma sensors_attach m g q k p d s l : m (D p) = CDev d -> d_sensors d = s :: l -> q = RLock (G g) k \/ q = Lock (G g) k ->
  exists x : sys, steps (start m [[DeviceEachSensor_prog p (then_go_on q)]; [Attach_prog g (Some p)]]) x /\ deadlock x.
Proof.
  intros Em Es [-> | ->]; eexists; (split;
  [ call 0%nat; go 0%nat; go 0%nat; rewrite Em; cbn; rewrite Es; cbn; call 1%nat; unfold mount_prog; go 1%nat; go 1%nat; go 1%nat; apply ss_nil
  | repeat split;
    [ intros F; inversion F as [|? ? [X _] _]; discriminate X
    | apply blocked_still; constructor; [right; exists (G g); eexists; repeat split; mu|constructor; [right; exists (D p); eexists; repeat split; mu|constructor]] ] ]).
Qed.
(** A run of two Attach calls that overlap, to the end. *)
Lemma race_run (w : world T) p : fst (mount (w_heap w p)) = None -> fst (mount (snd (mount (w_heap w p)))) = Some ErrAlreadyRunning ->
  exists y : sys, steps (start (memory w) (map (map use_prog) (attach_to [0; 1]%nat p))) y /\ finished y /\
    map go_results (sy_gos y) = [[RErr (Some ErrAlreadyRunning)]; [RErr None]].
Proof.
  intros M1 M2. eexists. split.
  - cbn. call 0%nat. go 0%nat. go 0%nat. call 1%nat. go 1%nat. go 1%nat. unfold mount_prog. go 1%nat. go 1%nat. go 1%nat. go 1%nat.
    rewrite M1. unfold read_list at 2. unfold write_list at 2. go 1%nat. unfold upd; cbn. go 1%nat. go 1%nat. ret 1%nat.
    go 0%nat. go 0%nat. go 0%nat. unfold upd; cbn.
    destruct (Nat.eq_dec p p) as [e|]; [cbn|congruence]. rewrite M2. go 0%nat. go 0%nat. ret 0%nat. apply ss_nil.
  - split; [repeat constructor|reflexivity].
Qed.

Lemma slen_nonempty (s : string) : s <> ""%string -> (slen s =? 0)%Z = false.
Proof. intros N. apply Z.eqb_neq. destruct s; [congruence|]. unfold slen. cbn. lia. Qed.
Definition writes (g : nat) (u : gen_use T) : Prop :=
  match u with UAttach h p => h = g /\ p <> None | UDetach h id => h = g /\ id <> ""%string | UHas h _ | UOn h => h = g | _ => False end.
Definition asks (g : nat) (u : gen_use T) : Prop :=
  match u with ULookup h id => h = g /\ id <> ""%string | UNum h => h = g | _ => False end.
Lemma writes_lock g u : writes g u -> exists k, use_prog u = Lock (G g) k.
Proof.
  destruct u; cbn; try contradiction; [intros [-> X]|intros [-> X]|intros ->|intros ->].
  - destruct p; [|congruence]. unfold Attach_prog. eauto.
  - unfold Detach_prog. rewrite (slen_nonempty _ X). eauto.
  - unfold HasTracker_prog. eauto.
  - unfold On_prog. eauto.
Qed.
Lemma asks_rlock g u : asks g u -> exists k, use_prog u = RLock (G g) k.
Proof.
  destruct u; cbn; try contradiction; [intros [-> X]|intros ->].
  - unfold Lookup_prog. rewrite (slen_nonempty _ X). eauto.
  - unfold NumDevices_prog. eauto.
Qed.
Lemma C72_each_proof w g u : gen_devices w g <> [] -> writes g u ->
  exists x : sys, steps (start (memory w) [[Each_prog g (then_go_on (use_prog u))]]) x /\ deadlock x.
Proof.
  intros Ne Wr. destruct (writes_lock _ _ Wr) as [k E]. destruct (gen_devices w g) as [|p l] eqn:El; [congruence|].
  apply (each_self _ g _ k p l); [cbn [memory]; now rewrite El|exact E].
Qed.
Lemma C72_each_reader_proof w g u v : gen_devices w g <> [] -> asks g u -> writes g v ->
  exists x : sys, steps (start (memory w) [[Each_prog g (then_go_on (use_prog u))]; [use_prog v]]) x /\ deadlock x.
Proof.
  intros Ne As Wr. destruct (asks_rlock _ _ As) as [k E]. destruct (writes_lock _ _ Wr) as [k' E']. rewrite E'.
  destruct (gen_devices w g) as [|p l] eqn:El; [congruence|].
  apply (each_writer _ g _ k k' p l); [cbn [memory]; now rewrite El|exact E].
Qed.
Lemma C72_sensors_proof w g p u : d_sensors (w_heap w p) <> [] ->
  (match u with ULookup h id => h = g /\ id <> ""%string | UNum h | UHas h _ => h = g | _ => False end) ->
  exists x : sys, steps (start (memory w) [[DeviceEachSensor_prog p (then_go_on (use_prog u))]; [Attach_prog g (Some p)]]) x /\ deadlock x.
Proof.
  intros Ne X. destruct (d_sensors (w_heap w p)) as [|s l] eqn:El; [congruence|].
  assert (Y : asks g u \/ writes g u) by (destruct u; cbn in *; tauto).
  destruct Y as [Y|Y]; [destruct (asks_rlock _ _ Y) as [k E]|destruct (writes_lock _ _ Y) as [k E]];
  eapply (sensors_attach _ g _ k p _ s l); eauto; reflexivity.
Qed.
Lemma C73_membership_proof w calls (y : sys) : made_world w -> Forall (Forall (serial_use w)) calls ->
  steps (start (memory w) (map (map use_prog) calls)) y -> finished y ->
  let m := sh_mem (sy_shared y) in
  (forall g l, m (G g) = CList l -> NoDup l) /\
  (forall g h p l l', m (G g) = CList l -> m (G h) = CList l' -> In p l -> In p l' -> g = h) /\
  (forall p d, m (D p) = CDev d -> (d_status d = Running <-> exists g l, m (G g) = CList l /\ In p l)).
Proof.
  intros M F S Fin m. destruct (C73_world_proof _ _ _ M F S Fin) as (w' & M' & E). fold m in E.
  destruct (C51_membership_proof w' M') as (A & B).
  assert (EG : forall g l, m (G g) = CList l -> gen_devices w' g = l) by (intros g l H; rewrite E in H; cbn [memory] in H; congruence).
  split; [|split].
  - intros g l H. apply EG in H. subst l. clear - A. unfold gen_devices.
    generalize dependent (w_gens w'). intros gs. revert g. induction gs as [|l gs IH]; intros g A; [destruct g; constructor|].
    cbn in A. destruct g; cbn; [eapply NoDup_app_l; eauto|]. apply IH. eapply NoDup_app_r; eauto.
  - intros g h p l l' H H' I I'. apply EG in H, H'. subst. eapply C51_one_proof; eauto.
  - intros p d H. rewrite E in H. cbn [memory] in H. injection H as <-. specialize (B p). unfold is_running, attached in B. rewrite B. split.
    + intros [g I]. exists g, (gen_devices w' g). split; [now rewrite E|exact I].
    + intros (g & l & H & I). apply EG in H. subst l. eauto.
Qed.
End P.
