(** C49-C51. *)
From Coq Require Import Lia Permutation.
From Verif.Model Require Import Base Num Geo Curve PropMap Pb Types TypesSnap Track Route Navigator Device Generator.
From Verif.Spec Require Import NavSpec DeviceSpec GenSpec.
From Verif.Proofs Require Import BaseLemmas DeviceLemmas DeviceProofs DeviceProofs2.

(** ** settings *)

Lemma prepare_ok cpus o : (1 <= cpus)%Z ->
  let q := prepare cpus o in
  (1024 <= go_PacketSize q /\ 1 <= go_Interval q /\ 1 <= go_NumWorkers q)%Z.
Proof.
  intros H. unfold prepare.
  destruct (Z.ltb_spec (go_PacketSize o) 1024); cbn;
  destruct (Z.leb_spec (go_Interval o) 0); cbn;
  destruct (Z.leb_spec (go_NumWorkers o) 0); cbn; lia.
Qed.

Lemma prepare_keeps cpus o : let q := prepare cpus o in
  ((1024 <= go_PacketSize o)%Z -> go_PacketSize q = go_PacketSize o) /\
  ((0 < go_Interval o)%Z -> go_Interval q = go_Interval o) /\
  ((0 < go_NumWorkers o)%Z -> go_NumWorkers q = go_NumWorkers o).
Proof.
  unfold prepare.
  destruct (Z.ltb_spec (go_PacketSize o) 1024); cbn;
  destruct (Z.leb_spec (go_Interval o) 0); cbn;
  destruct (Z.leb_spec (go_NumWorkers o) 0); cbn; repeat split; intros; try lia; auto.
Qed.

Lemma New_ok cpus opts : (1 <= cpus)%Z -> conf_ok (New cpus opts).
Proof.
  intros H. unfold New, conf_ok. cbn.
  pose proof (prepare_ok cpus (match opts with Some o => o | None => NewGenOptions end) H) as (A & B & C).
  split; lia.
Qed.

Lemma New_packet cpus opts : (1 <= cpus)%Z -> (Z.to_nat 1024 <= c_packet (New cpus opts))%nat.
Proof.
  intros H. unfold New. cbn -[Z.to_nat].
  pose proof (prepare_ok cpus (match opts with Some o => o | None => NewGenOptions end) H) as (A & B & C).
  lia.
Qed.

Lemma New_workerSize cpus opts : (1 <= cpus)%Z ->
  c_workerSize (New cpus opts) = (c_packet (New cpus opts) / c_workers (New cpus opts))%nat.
Proof.
  intros H. unfold New. cbn [c_workerSize c_packet c_workers].
  pose proof (prepare_ok cpus (match opts with Some o => o | None => NewGenOptions end) H) as (A & B & C).
  apply Z2Nat.inj_div; lia.
Qed.

(** ** slices *)

Lemma slices_tile (W step rem index : nat) : (1 <= W)%nat -> index = (W * step + rem)%nat ->
  forall k j, (j + k = W)%nat -> (1 <= k)%nat ->
  tiles (j * step) (map (fun i => (i * step, i * step + step + (if i =? W - 1 then rem else 0))%nat) (seq j k)) index.
Proof.
  intros HW E. induction k as [|k IH]; intros j Hj Hk; [lia|]. cbn [seq map].
  destruct (Nat.eqb_spec j (W - 1)) as [Ej|Ej].
  - assert (k = 0%nat) by lia. subst k. cbn. constructor; [lia|].
    replace index with (j * step + step + rem)%nat; [constructor|].
    assert (W = S j) by lia. subst W. rewrite E. lia.
  - constructor; [lia|]. replace (j * step + step + 0)%nat with (S j * step)%nat by lia. apply IH; lia.
Qed.

Lemma C49_tiles c index : (1 <= c_workers c)%nat -> tiles 0 (flush_slices c index) index.
Proof.
  intros H. unfold flush_slices. destruct (one_slice c index).
  - constructor; [lia|constructor].
  - pose proof (slices_tile (c_workers c) (index / c_workers c) (index mod c_workers c) index H) as Q.
    specialize (Q (Nat.div_mod_eq _ _) (c_workers c) 0%nat eq_refl H). exact Q.
Qed.

Lemma tiles_le a l b : tiles a l b -> (a <= b)%nat.
Proof. induction 1; lia. Qed.

Lemma tiles_covered e a l b : tiles a l b -> covered e l = (if (a <=? e) && (e <? b) then 1 else 0)%nat.
Proof.
  induction 1 as [a|a b c l H1 H2 IH]; cbn [covered].
  - destruct (Nat.leb_spec a e), (Nat.ltb_spec e a); cbn; lia.
  - rewrite IH. pose proof (tiles_le _ _ _ H2).
    destruct (Nat.leb_spec a e), (Nat.ltb_spec e b), (Nat.leb_spec b e), (Nat.ltb_spec e c); cbn; lia.
Qed.

Lemma C49_nonempty c index : (1 <= c_workers c)%nat -> (1 <= index)%nat ->
  Forall (fun s => fst s < snd s)%nat (flush_slices c index).
Proof.
  intros H Hi. unfold flush_slices. destruct (one_slice c index) eqn:E.
  - constructor; [exact Hi|constructor].
  - unfold one_slice in E. apply Nat.leb_gt in E. apply Forall_forall. intros s Hs.
    apply in_map_iff in Hs as (i & <- & _). unfold slice_no. cbn.
    assert (1 <= index / c_workers c)%nat by (apply Nat.div_le_lower_bound; lia). lia.
Qed.

Lemma C49_number c index : (1 <= c_workers c)%nat -> (List.length (flush_slices c index) <= c_workers c)%nat.
Proof.
  intros H. unfold flush_slices. destruct (one_slice c index); [exact H|].
  rewrite map_length, seq_length. lia.
Qed.

(** ** packets *)

Lemma skip_skip {A} (l : list A) : forall n m, skipn m (skipn n l) = skipn (n + m) l.
Proof. induction l as [|x l IH]; intros [|n] m; cbn; auto; now destruct m. Qed.

Lemma sub_tiles {A} (buf : list A) a l b : tiles a l b -> (b <= List.length buf)%nat ->
  List.concat (map (sub_list buf) l) = sub_list buf (a, b).
Proof.
  unfold sub_list. induction 1 as [a|a b c l H1 H2 IH]; intros L; cbn [map List.concat fst snd].
  - now rewrite Nat.sub_diag.
  - rewrite IH by assumption. cbn [fst snd]. pose proof (tiles_le _ _ _ H2).
    replace (c - a)%nat with ((b - a) + (c - b))%nat by lia.
    replace (skipn b buf) with (skipn (b - a) (skipn a buf)).
    2:{ rewrite skip_skip. f_equal. lia. }
    generalize (skipn a buf) as x. generalize (b - a)%nat as n. generalize (c - b)%nat as m. clear.
    intros m n. induction n as [|n IH]; intros [|y x]; cbn; auto.
    + now rewrite firstn_nil.
    + f_equal. apply IH.
Qed.

Lemma is_zero_sub {A} (buf : list A) s : is_zero s = true -> sub_list buf s = [].
Proof.
  unfold is_zero, sub_list. intros H. apply andb_true_iff in H as (H1 & H2).
  apply Nat.eqb_eq in H1, H2. now rewrite H1, H2.
Qed.

Lemma concat_nonzero {A} (buf : list A) l :
  List.concat (map (sub_list buf) (filter (fun s => negb (is_zero s)) l)) = List.concat (map (sub_list buf) l).
Proof.
  induction l as [|s l IH]; [reflexivity|]. cbn. destruct (is_zero s) eqn:E; cbn; rewrite IH; [|reflexivity].
  now rewrite (is_zero_sub buf s E).
Qed.

Lemma flush_concat {A} c (buf : list A) : (1 <= c_workers c)%nat -> List.concat (flush_packets c buf) = buf.
Proof.
  intros H. unfold flush_packets. rewrite concat_nonzero.
  rewrite (sub_tiles buf 0 _ _ (C49_tiles c _ H)) by lia.
  unfold sub_list. cbn. rewrite Nat.sub_0_r. apply firstn_all.
Qed.

Lemma concat_flush {A} c (l : list (list A)) : (1 <= c_workers c)%nat ->
  List.concat (List.concat (map (flush_packets c) l)) = List.concat l.
Proof.
  intros H. induction l as [|b l IH]; [reflexivity|]. cbn. rewrite concat_app, IH, flush_concat by exact H. reflexivity.
Qed.

Lemma fill_concat {A} size (devs : list A) : (1 <= size)%nat -> forall buf k, (List.length buf < size)%nat ->
  List.concat (fill size buf devs) =
  buf ++ at_positions (fun i => negb (S i mod size =? 0)%nat) (k * size + List.length buf)%nat devs.
Proof.
  intros HS. induction devs as [|d r IH]; intros buf k Hb; cbn [fill at_positions List.concat].
  - reflexivity.
  - destruct (Nat.eqb_spec (List.length buf + 1) size) as [E|E].
    + replace (S (k * size + List.length buf))%nat with (0 + S k * size)%nat by lia.
      rewrite Nat.mod_add by lia. rewrite Nat.mod_0_l by lia. cbn [Nat.eqb negb].
      cbn [List.concat app]. rewrite (IH [] (S k)) by (cbn; lia).
      f_equal. cbn [List.length app]. f_equal. lia.
    + replace (S (k * size + List.length buf) mod size)%nat with (S (List.length buf)).
      2:{ replace (S (k * size + List.length buf))%nat with (S (List.length buf) + k * size)%nat by lia.
          rewrite Nat.mod_add by lia. rewrite Nat.mod_small; lia. }
      cbn [Nat.eqb negb app]. rewrite (IH (buf ++ [d]) k) by (rewrite app_length; cbn; lia).
      rewrite app_length. cbn. rewrite <- app_assoc. cbn. do 3 f_equal. lia.
Qed.

Lemma tick_concat {A} c (devs : list A) : conf_ok c ->
  List.concat (tick_packets c devs) = at_positions (fun i => negb (S i mod c_packet c =? 0)%nat) 0 devs.
Proof.
  intros (H1 & H2). unfold tick_packets. rewrite concat_flush by exact H1.
  pose proof (fill_concat (c_packet c) devs H2 [] 0) as Q. cbn in Q. apply Q. lia.
Qed.

Lemma at_positions_all {A} (p : nat -> bool) (l : list A) : forall i,
  (forall j, i <= j < i + List.length l -> p j = true)%nat -> at_positions p i l = l.
Proof.
  induction l as [|x r IH]; intros i H; [reflexivity|]. cbn. rewrite (H i) by (cbn; lia). cbn. f_equal.
  apply IH. intros j Hj. apply H. cbn. lia.
Qed.

Lemma C50_few {A} c (devs : list A) : conf_ok c -> (List.length devs < c_packet c)%nat ->
  List.concat (tick_packets c devs) = devs.
Proof.
  intros H L. rewrite tick_concat by exact H. apply at_positions_all. intros j Hj.
  rewrite Nat.mod_small by lia. reflexivity.
Qed.

Lemma at_positions_In {A} (p : nat -> bool) (l : list A) x : forall i,
  In x (at_positions p i l) <-> exists j, nth_error l j = Some x /\ p (i + j)%nat = true.
Proof.
  induction l as [|y r IH]; intros i; cbn.
  - split; [contradiction|]. intros ([|j] & H & _); discriminate.
  - rewrite in_app_iff, IH. split.
    + intros [H|(j & H1 & H2)].
      * destruct (p i) eqn:E; [|contradiction]. destruct H as [->|[]]. exists 0%nat. cbn. rewrite Nat.add_0_r. auto.
      * exists (S j). cbn. replace (i + S j)%nat with (S i + j)%nat by lia. auto.
    + intros ([|j] & H1 & H2); cbn in H1.
      * left. injection H1 as ->. rewrite Nat.add_0_r in H2. rewrite H2. now left.
      * right. exists j. replace (i + S j)%nat with (S i + j)%nat in H2 by lia. auto.
Qed.

Lemma C50_lost {A} c (devs : list A) i d : conf_ok c -> NoDup devs -> nth_error devs i = Some d ->
  (In d (List.concat (tick_packets c devs)) <-> (S i mod c_packet c)%nat <> 0%nat).
Proof.
  intros H ND Hi. rewrite tick_concat, at_positions_In by exact H. cbn. split.
  - intros (j & Hj & Hp). rewrite (NoDup_nth_error devs) in ND.
    assert (i = j); [|subst; apply negb_true_iff, Nat.eqb_neq in Hp; exact Hp].
    apply ND; [|congruence]. apply nth_error_Some. congruence.
  - intros Hp. exists i. split; [exact Hi|]. now apply negb_true_iff, Nat.eqb_neq.
Qed.

Lemma C50_refuted_proof {A} c (devs : list A) : conf_ok c -> NoDup devs -> (c_packet c <= List.length devs)%nat ->
  exists d, In d devs /\ ~ In d (List.concat (tick_packets c devs)).
Proof.
  intros H ND L. destruct (nth_error devs (c_packet c - 1)%nat) as [d|] eqn:E.
  - exists d. split; [eapply nth_error_In; eassumption|]. rewrite (C50_lost c devs _ d H ND E).
    destruct H as (_ & H). replace (S (c_packet c - 1))%nat with (c_packet c) by lia. rewrite Nat.mod_same by lia. tauto.
  - apply nth_error_None in E. destruct H as (_ & H). lia.
Qed.

(** ** attached devices *)
Section D.
Context {T : Type} {N : Num T} {J : JsonLib T} {U : UtmLib T}.
Implicit Types (d : device T) (w : world T).

Definition who d : Z * string := (d_status d, device_ID d).

Lemma who_state d d' : d' = dset_state d (d_state d') -> ident (d_state d') = ident (d_state d) -> who d' = who d.
Proof. intros E I. unfold who, device_ID. unfold ident in I. injection I as -> _ _ _ _ _ _ _. rewrite E. reflexivity. Qed.

Lemma who_updateState d d' : updateState d = Ret d' -> who d' = who d.
Proof. intros H. apply updateState_inv in H. exact (who_state _ _ (rf_same _ _ H) (rf_ident _ _ H)). Qed.

Lemma who_updateRoutes d d' : updateRoutes d = Ret d' -> who d' = who d.
Proof.
  intros H. apply updateRoutes_inv in H. destruct H as (H1 & _ & _ & _ & _ & H2 & _).
  unfold who, device_ID. rewrite H1, H2. reflexivity.
Qed.

Lemma who_Next d tick x b d' : Next d true tick x = Ret (b, d') -> who d' = who d.
Proof.
  destruct (n_routes (d_nav d)) eqn:Er.
  { rewrite C42_proof by exact Er. intros [= _ <-]. reflexivity. }
  intros E. unfold Next in E. apply Next_locked_inv in E; [|now rewrite Er]. destruct E as (d3 & t & NB & St).
  destruct NB as [B1 B2 B3 B4 B5 B6 B7]. unfold frame in B1. injection B1 as B1 _ _ _.
  assert (W3 : who d3 = who d) by (unfold who, device_ID; rewrite B1, B7; reflexivity).
  inversion St as [n2 n3 S1 S2 Eb Ed|n2 n3 n4 d4 d5 S1 S2 S3 S4 S5 S6 S7 S8 S9 Eb Ed|n2 n3 ss d4 d5 d6 S1 S2 S3 S4 S5 S6 Eb Ed]; subst.
  - rewrite <- W3. reflexivity.
  - apply who_updateState in S9. rewrite S9, <- W3. unfold who, device_ID. rewrite S8. injection S7 as -> _ _ _ _. reflexivity.
  - apply who_updateState in S6. rewrite S6, <- W3. destruct S5 as [[-> _]|[_ S5]]; [reflexivity|].
    apply who_updateRoutes in S5. rewrite S5. reflexivity.
Qed.

Lemma run_dev_who d o d' : not_mount o -> run_dev d o = Ret d' -> who d' = who d.
Proof.
  intros NM. destruct o; cbn [run_dev]; intros E; try contradiction;
    try (injection E as <-; reflexivity).
  - unfold SetModel in E. destruct (NewModel m) in E; injection E as <-; reflexivity.
  - destruct hex; injection E as <-; reflexivity.
  - unfold AddSensor in E. destruct (add_sensors _ _ _) in E. destruct (_ <? _)%Z in E; injection E as <-; reflexivity.
  - unfold RemoveSensor in E. destruct (_ =? _)%Z in E; [injection E as <-; reflexivity|].
    destruct (find_index _ _) in E; injection E as <-; reflexivity.
  - destruct (nth_error _ _) in E; [|injection E as <-; reflexivity].
    destruct (run_sensor1 _ _) in E; cbn [bind] in E; try discriminate. injection E as <-. reflexivity.
  - unfold AddRoute in E. destruct (nav_AddRoute _ _) as [[e|] n]; cbn [bind] in E; [injection E as <-; reflexivity|].
    destruct (updateRoutes _) eqn:R in E; cbn [bind] in E; try discriminate. injection E as <-.
    apply who_updateRoutes in R. rewrite R. reflexivity.
  - unfold RemoveRoute in E. destruct (nav_RemoveRoute _ _) as [[|] n]; cbn [bind] in E; [|injection E as <-; reflexivity].
    destruct (updateRoutes _) eqn:R in E; cbn [bind] in E; try discriminate. injection E as <-.
    apply who_updateRoutes in R. rewrite R. reflexivity.
  - unfold RemoveTrack in E. destruct (nav_RemoveTrack _ _ _) as [[|] n]; cbn [bind] in E; [|injection E as <-; reflexivity].
    destruct (updateRoutes _) eqn:R in E; cbn [bind] in E; try discriminate. injection E as <-.
    apply who_updateRoutes in R. rewrite R. reflexivity.
  - unfold ResetRoutes in E. destruct (nav_ResetRoutes _) as [[|] n]; cbn [bind] in E; [|injection E as <-; reflexivity].
    destruct (updateRoutes _) eqn:R in E; cbn [bind] in E; try discriminate. injection E as <-.
    apply who_updateRoutes in R. rewrite R. reflexivity.
  - unfold device_move in E. destruct (NextRoute _) in E. injection E as <-. reflexivity.
  - unfold device_move in E. destruct (PrevRoute _) in E. injection E as <-. reflexivity.
  - unfold device_move in E. destruct (MoveToRouteByID _ _) in E. injection E as <-. reflexivity.
  - unfold device_move in E. destruct (MoveToTrackByID _ _ _) in E. injection E as <-. reflexivity.
  - unfold device_move in E. destruct (MoveToRoute _ _) in E. injection E as <-. reflexivity.
  - unfold device_move in E. destruct (MoveToTrack _ _ _) in E. injection E as <-. reflexivity.
  - unfold device_move in E. destruct (MoveToSegment _ _ _ _) in E. injection E as <-. reflexivity.
  - unfold device_move in E. destruct (DestinationTo _ _) in E. injection E as <-. reflexivity.
  - unfold device_ToOffline in E. destruct (ToOffline _ _) in E; cbn [bind] in E; try discriminate. injection E as <-. reflexivity.
  - unfold device_IsFinish in E. destruct (IsFinish _) in E. injection E as <-. reflexivity.
  - unfold device_Update in E. destruct (updateState d) as [d1| |] eqn:E1; cbn [bind] in E; try discriminate.
    destruct (updateRoutes d1) as [d2| |] eqn:E2; cbn [bind] in E; try discriminate. injection E as <-.
    apply who_updateState in E1. apply who_updateRoutes in E2. rewrite <- E1, <- E2. reflexivity.
  - destruct free.
    + destruct (Next d true tick x) as [[b d1]| |] eqn:En; cbn [bind] in E; try discriminate. injection E as <-.
      eapply who_Next; eassumption.
    + cbn in E. injection E as <-. reflexivity.
  - destruct (run_nav _ _) in E; cbn [bind] in E; try discriminate.
    destruct (device_Snapshot _) in E; cbn [bind] in E; try discriminate. injection E as <-. reflexivity.
Qed.

(** ** worlds *)

Lemma gen_set w g l : (g < List.length (w_gens w))%nat -> gen_devices (set_gen w g l) g = l.
Proof.
  unfold gen_devices, set_gen. cbn. generalize (w_gens w) as x. clear. intros x. revert g.
  induction x as [|y x IH]; intros [|g] H; cbn in *; try lia; auto. apply IH. lia.
Qed.

Lemma gen_set_other w g h l : h <> g -> gen_devices (set_gen w g l) h = gen_devices w h.
Proof.
  unfold gen_devices, set_gen. cbn. generalize (w_gens w) as x. clear. intros x. revert g h.
  induction x as [|y x IH]; intros [|g] [|h] H; cbn in *; auto; try congruence.
Qed.

Lemma gens_split w g : (g < List.length (w_gens w))%nat ->
  exists pre post, w_gens w = pre ++ gen_devices w g :: post /\ List.length pre = g.
Proof.
  intros H. unfold gen_devices. exists (firstn g (w_gens w)), (skipn (S g) (w_gens w)).
  rewrite firstn_length. split; [|lia]. generalize (w_gens w) as x, H. clear. intros x. revert g.
  induction x as [|y x IH]; intros [|g] H; cbn in *; try lia; auto. f_equal. apply IH. lia.
Qed.

Lemma mount_running d : d_status d = Running -> mount d = (Some ErrAlreadyRunning, d).
Proof. unfold mount. intros ->. reflexivity. Qed.
Lemma mount_stopped d : d_status d <> Running -> mount d = (None, dset_status d Running).
Proof. unfold mount. intros H. apply Z.eqb_neq in H. now rewrite H. Qed.
Lemma unmount_running d : d_status d = Running -> unmount d = (None, dset_status d Stopped).
Proof. unfold unmount. intros ->. reflexivity. Qed.

Lemma heap_set w p d q : w_heap (set_heap w p d) q = if (q =? p)%nat then d else w_heap w q.
Proof. reflexivity. Qed.

Lemma find_first w g id i : find_index (has_id w id) (gen_devices w g) = Some i ->
  exists pre p post, gen_devices w g = pre ++ p :: post /\ i = List.length pre /\ id_of w p = id /\
   Forall (fun q => id_of w q <> id) pre.
Proof.
  intros H. pose proof (find_index_spec (has_id w id) (gen_devices w g)) as S. rewrite H in S.
  destruct S as (pre & p & post & S1 & S2 & S3 & S4). exists pre, p, post. repeat split; auto.
  - now apply String.eqb_eq.
  - eapply Forall_impl; [|exact S3]. cbn. intros q Q. now apply String.eqb_neq.
Qed.

Lemma find_none w g id : find_index (has_id w id) (gen_devices w g) = None ->
  Forall (fun q => id_of w q <> id) (gen_devices w g).
Proof.
  intros H. pose proof (find_index_spec (has_id w id) (gen_devices w g)) as S. rewrite H in S.
  eapply Forall_impl; [|exact S]. cbn. intros q Q. now apply String.eqb_neq.
Qed.

Lemma find_at w g id pre p post : gen_devices w g = pre ++ p :: post -> id_of w p = id ->
  Forall (fun q => id_of w q <> id) pre -> find_index (has_id w id) (gen_devices w g) = Some (List.length pre).
Proof.
  intros -> Hp Hpre. unfold find_index.
  assert (G : forall k, find_index_from (has_id w id) (pre ++ p :: post) k = Some (k + List.length pre)%nat); [|now rewrite G].
  induction Hpre as [|q pre Hq Hpre IH]; intros k; cbn.
  - apply String.eqb_eq in Hp. unfold has_id. unfold id_of in Hp. rewrite Hp. f_equal. lia.
  - apply String.eqb_neq in Hq. unfold has_id at 1. unfold id_of in Hq. rewrite Hq, IH. f_equal. lia.
Qed.

Record consistent w : Prop := {
  cs_once : NoDup (List.concat (w_gens w));
  cs_running : forall p, is_running w p <-> In p (List.concat (w_gens w)) }.

Lemma in_gens w p : In p (List.concat (w_gens w)) <-> exists g, attached w g p.
Proof.
  unfold attached, gen_devices. rewrite in_concat. split.
  - intros (l & H1 & H2). apply In_nth with (d := []) in H1 as (g & _ & <-). eauto.
  - intros (g & H). exists (nth g (w_gens w) []). split; [|exact H]. apply nth_In.
    destruct (Nat.ltb_spec g (List.length (w_gens w))); [assumption|]. rewrite nth_overflow in H by lia. destruct H.
Qed.

Lemma Attach_fails w g p : is_running w p -> Attach w g (Some p) = (Some ErrAlreadyRunning, w).
Proof. intros H. unfold Attach. now rewrite mount_running. Qed.

Lemma Attach_works w g p : (g < List.length (w_gens w))%nat -> ~ is_running w p -> exists w', Attach w g (Some p) = (None, w') /\
 w_heap w' p = dset_status (w_heap w p) Running /\ same_status_except w w' p /\
 gen_devices w' g = gen_devices w g ++ [p] /\ same_gens_except w w' g.
Proof.
  intros Hg H. unfold Attach. rewrite mount_stopped by exact H. eexists. split; [reflexivity|].
  split; [cbn; now rewrite Nat.eqb_refl|]. split.
  { intros q Hq. cbn. apply Nat.eqb_neq in Hq. now rewrite Hq. }
  split; [now rewrite gen_set|]. split; [cbn; apply set_nth_length|]. intros h Hh. now rewrite gen_set_other.
Qed.

Lemma Detach_none w g id : id = ""%string \/ Forall (fun q => id_of w q <> id) (gen_devices w g) -> Detach w g id = (None, w).
Proof.
  intros H. unfold Detach. destruct (slen id =? 0)%Z eqn:E; [reflexivity|]. destruct H as [->|H]; [discriminate|].
  unfold gen_delete. destruct (find_index _ _) as [i|] eqn:F; [|reflexivity].
  apply find_first in F as (pre & p & post & F1 & _ & F2 & _). rewrite F1 in H. rewrite Forall_forall in H.
  exfalso. apply (H p); auto. apply in_or_app. right. now left.
Qed.

Lemma Detach_first w g id pre p post : (g < List.length (w_gens w))%nat -> id <> ""%string ->
  gen_devices w g = pre ++ p :: post -> id_of w p = id -> Forall (fun q => id_of w q <> id) pre -> is_running w p ->
  exists w', Detach w g id = (None, w') /\
 w_heap w' p = dset_status (w_heap w p) Stopped /\ same_status_except w w' p /\
 gen_devices w' g = pre ++ post /\ same_gens_except w w' g.
Proof.
  intros Hg Hid El Hp Hpre Hr. unfold Detach.
  assert (slen id =? 0 = false)%Z as ->.
  { destruct id; [congruence|]. unfold slen. cbn [String.length]. apply Z.eqb_neq. lia. }
  unfold gen_delete. rewrite (find_at w g id pre p post El Hp Hpre), El.
  replace (nth (List.length pre) (pre ++ p :: post) 0%nat) with p by (rewrite app_nth2, Nat.sub_diag by lia; reflexivity).
  rewrite unmount_running by exact Hr. eexists. split; [reflexivity|].
  split; [cbn; now rewrite Nat.eqb_refl|]. split.
  { intros q Hq. cbn. apply Nat.eqb_neq in Hq. now rewrite Hq. }
  rewrite del_nth_app. split; [now rewrite gen_set|]. split; [cbn; apply set_nth_length|]. intros h Hh. now rewrite gen_set_other.
Qed.

Lemma consistent_Attach w g p : (g < List.length (w_gens w))%nat -> consistent w -> consistent (snd (Attach w g p)).
Proof.
  intros Hg [C1 C2]. destruct p as [p|]; [|constructor; assumption].
  destruct (Z.eq_dec (d_status (w_heap w p)) Running) as [E|E].
  { rewrite Attach_fails by exact E. constructor; assumption. }
  unfold Attach. rewrite mount_stopped by exact E. cbn [snd].
  destruct (gens_split w g Hg) as (pre & post & Hs & Hl).
  assert (Q : Permutation (List.concat (w_gens (set_gen (set_heap w p (dset_status (w_heap w p) Running)) g (gen_devices w g ++ [p]))))
                          (p :: List.concat (w_gens w))).
  { cbn. rewrite Hs, <- Hl, set_nth_app, !concat_app. cbn. rewrite <- !app_assoc. cbn.
    rewrite !app_assoc. symmetry. apply Permutation_middle. }
  assert (NI : ~ In p (List.concat (w_gens w))).
  { intros H. apply C2 in H. exact (E H). }
  constructor.
  - eapply Permutation_NoDup; [symmetry; exact Q|]. constructor; assumption.
  - intros q. unfold is_running. cbn [set_gen w_heap]. rewrite heap_set.
    assert (R : In q (List.concat (w_gens (set_gen (set_heap w p (dset_status (w_heap w p) Running)) g (gen_devices w g ++ [p])))) <->
                p = q \/ In q (List.concat (w_gens w))).
    { split; intros H; [apply (Permutation_in _ Q) in H; exact H|]. apply (Permutation_in _ (Permutation_sym Q)). exact H. }
    rewrite R. destruct (Nat.eqb_spec q p) as [->|Hq]; [cbn; tauto|]. rewrite <- (C2 q). unfold is_running. intuition congruence.
Qed.

Lemma consistent_Detach w g id : (g < List.length (w_gens w))%nat -> consistent w -> consistent (snd (Detach w g id)).
Proof.
  intros Hg [C1 C2]. destruct (string_dec id "") as [->|Hid]; [rewrite Detach_none by auto; constructor; assumption|].
  destruct (find_index (has_id w id) (gen_devices w g)) as [i|] eqn:F.
  2:{ apply find_none in F. rewrite Detach_none by auto. constructor; assumption. }
  apply find_first in F as (pre & p & post & F1 & _ & F2 & F3).
  destruct (gens_split w g Hg) as (gp & gq & Hs & Hl).
  assert (Hin : In p (List.concat (w_gens w))).
  { apply in_gens. exists g. unfold attached. rewrite F1. apply in_or_app. right. now left. }
  pose proof (proj2 (C2 p) Hin) as Hr.
  destruct (Detach_first w g id pre p post Hg Hid F1 F2 F3 Hr) as (w' & D1 & D2 & D3 & D4 & D5 & D6).
  rewrite D1. cbn [snd].
  assert (Ew : w_gens w' = gp ++ (pre ++ post) :: gq).
  { apply nth_ext with (d := []) (d' := []).
    - rewrite D5, Hs, !app_length. reflexivity.
    - intros k Hk. destruct (Nat.eq_dec k g) as [->|Hkg].
      + change (nth g (w_gens w') []) with (gen_devices w' g). rewrite D4. rewrite <- Hl, app_nth2, Nat.sub_diag by lia. reflexivity.
      + change (nth k (w_gens w') []) with (gen_devices w' k). rewrite D6 by exact Hkg. unfold gen_devices. rewrite Hs.
        destruct (Nat.ltb_spec k (List.length gp)).
        * rewrite !app_nth1 by lia. reflexivity.
        * rewrite !app_nth2 by lia. destruct (k - List.length gp)%nat eqn:Ek; [lia|]. reflexivity. }
  assert (Q : Permutation (List.concat (w_gens w)) (p :: List.concat (w_gens w'))).
  { rewrite Ew, Hs, F1, !concat_app. cbn. rewrite <- !app_assoc. cbn.
    rewrite !(app_assoc (List.concat gp)). symmetry. apply Permutation_middle. }
  pose proof (Permutation_NoDup Q C1) as ND. inversion ND as [|? ? N1 N2]; subst.
  constructor; [exact N2|]. intros q. unfold is_running. destruct (Nat.eq_dec q p) as [->|Hq].
  - rewrite D2. cbn. split; [discriminate|]. intros H. contradiction.
  - rewrite (D3 q Hq). fold (is_running w q). rewrite (C2 q). split; intros H.
    + apply (Permutation_in _ Q) in H as [H|H]; [congruence|exact H].
    + apply (Permutation_in _ (Permutation_sym Q)). now right.
Qed.

Lemma made_consistent w : made_world w -> consistent w.
Proof.
  induction 1 as [heap n H|w o H IH Ho].
  - assert (E : List.concat (repeat (@nil nat) n) = []) by (induction n; auto).
    constructor; cbn; rewrite E; [constructor|]. intros p. unfold is_running. cbn. split; [|contradiction]. intros Q. exfalso. exact (H p Q).
  - destruct o as [g p|g id|p o]; cbn [run_world op_ok] in *.
    + now apply consistent_Attach.
    + now apply consistent_Detach.
    + destruct (run_dev (w_heap w p) o) as [d| |] eqn:E; auto.
      apply run_dev_who in E; [|exact Ho]. unfold who in E. injection E as E _. destruct IH as [C1 C2]. constructor; [exact C1|].
      intros q. rewrite <- (C2 q). unfold is_running. rewrite heap_set. destruct (Nat.eqb_spec q p) as [->|]; [rewrite E|]; tauto.
Qed.

Lemma C51_membership_proof w : made_world w ->
  NoDup (List.concat (w_gens w)) /\ forall p, is_running w p <-> exists g, attached w g p.
Proof.
  intros H. apply made_consistent in H as [C1 C2]. split; [exact C1|]. intros p. now rewrite C2, in_gens.
Qed.

Lemma C51_one_proof w g h p : made_world w -> attached w g p -> attached w h p -> g = h.
Proof.
  intros H Hg Hh. apply made_consistent in H as [C1 _].
  assert (Lg : (g < List.length (w_gens w))%nat).
  { destruct (Nat.ltb_spec g (List.length (w_gens w))); [assumption|]. unfold attached, gen_devices in Hg. rewrite nth_overflow in Hg by lia. destruct Hg. }
  destruct (Nat.eq_dec g h) as [|Hne]; [assumption|exfalso].
  destruct (gens_split w g Lg) as (gp & gq & Hs & Hl).
  assert (Hin : In p (List.concat (gp ++ gq))).
  { unfold attached, gen_devices in Hh. rewrite Hs in Hh. apply in_concat. destruct (Nat.ltb_spec h (List.length gp)).
    - rewrite app_nth1 in Hh by lia. exists (nth h gp []). split; [apply in_or_app; left; now apply nth_In|exact Hh].
    - rewrite app_nth2 in Hh by lia. destruct (h - List.length gp)%nat as [|k] eqn:Ek; [lia|]. cbn in Hh.
      exists (nth k gq []). split; [|exact Hh]. apply in_or_app. right. apply nth_In.
      destruct (Nat.ltb_spec k (List.length gq)); [assumption|]. rewrite nth_overflow in Hh by lia. destruct Hh. }
  rewrite Hs, concat_app in C1. cbn in C1. rewrite concat_app in Hin.
  unfold attached in Hg. apply in_split in Hg as (l1 & l2 & E). rewrite E in C1.
  rewrite <- !app_assoc in C1. cbn in C1. rewrite app_assoc in C1. apply NoDup_remove_2 in C1. apply C1.
  rewrite !in_app_iff in *. tauto.
Qed.

(** ** lookups *)

Lemma gen_find_first w g id p : gen_find w g id = Some p <->
  exists pre post, gen_devices w g = pre ++ p :: post /\ id_of w p = id /\ Forall (fun q => id_of w q <> id) pre.
Proof.
  unfold gen_find. split.
  - destruct (find_index _ _) as [i|] eqn:F; [|discriminate]. apply find_first in F as (pre & q & post & F1 & -> & F2 & F3).
    rewrite F1. rewrite nth_error_app2, Nat.sub_diag by lia. cbn. intros [= ->]. eauto 6.
  - intros (pre & post & F1 & F2 & F3). rewrite (find_at w g id pre p post F1 F2 F3), F1.
    rewrite nth_error_app2, Nat.sub_diag by lia. reflexivity.
Qed.

Lemma HasTracker_spec w g id : HasTracker w g id = true <-> exists p, attached w g p /\ id_of w p = id.
Proof.
  unfold HasTracker. split.
  - destruct (gen_find w g id) as [p|] eqn:F; [|discriminate]. intros _. apply gen_find_first in F as (pre & post & F1 & F2 & _).
    exists p. split; [|exact F2]. unfold attached. rewrite F1. apply in_or_app. right. now left.
  - intros (p & H1 & H2). destruct (gen_find w g id) as [q|] eqn:F; [reflexivity|]. unfold gen_find in F.
    destruct (find_index _ _) as [i|] eqn:G.
    + apply find_first in G as (pre & q & post & G1 & -> & _). rewrite G1, nth_error_app2, Nat.sub_diag in F by lia. discriminate.
    + apply find_none in G. rewrite Forall_forall in G. exfalso. exact (G p H1 H2).
Qed.

Lemma Lookup_spec w g id p : GenLookup w g id = Some p <-> id <> ""%string /\
 exists pre post, gen_devices w g = pre ++ p :: post /\ id_of w p = id /\ Forall (fun q => id_of w q <> id) pre.
Proof.
  unfold GenLookup. destruct (slen id =? 0)%Z eqn:E.
  - split; [discriminate|]. intros (H & _). destruct id; [congruence|]. unfold slen in E. cbn [String.length] in E. apply Z.eqb_eq in E. lia.
  - rewrite gen_find_first. split; [|tauto]. intros H. split; [|exact H]. intros ->. discriminate.
Qed.

Lemma each_all (l : list nat) : forall i, each_from (fun _ _ => true) i l = combine (seq i (List.length l)) l.
Proof. induction l as [|p l IH]; intros i; cbn; [reflexivity|]. now rewrite IH. Qed.

Lemma each_stop (more : nat -> nat -> bool) (l : list nat) : forall i, exists rest,
  combine (seq i (List.length l)) l = each_from more i l ++ rest /\
 (forall x, In x (removelast (each_from more i l)) -> more (fst x) (snd x) = true) /\
 (rest <> [] -> exists x, In x (each_from more i l) /\ more (fst x) (snd x) = false).
Proof.
  induction l as [|p l IH]; intros i; cbn [each_from List.length seq combine].
  - exists []. cbn. repeat split; [contradiction|congruence].
  - destruct (more i p) eqn:E.
    + destruct (IH (S i)) as (rest & R1 & R2 & R3). exists rest. rewrite R1. split; [reflexivity|]. split.
      * destruct (each_from more (S i) l) as [|y r] eqn:Er; [contradiction|]. intros x [<-|H]; [exact E|]. now apply R2.
      * intros H. destruct (R3 H) as (x & X1 & X2). exists x. split; [now right|exact X2].
    + exists (combine (seq (S i) (List.length l)) l). split; [reflexivity|]. split; [contradiction|].
      intros _. exists (i, p). split; [now left|exact E].
Qed.

(** ** restoring an attached device *)

Lemma FromSnapshot_status d s d' : device_FromSnapshot d s = Ret d' -> d_status d' = (psn_status s mod 256)%Z.
Proof.
  unfold device_FromSnapshot. cbn zeta.
  destruct (nav_FromSnapshot _ _) as [n| |]; cbn [bind]; try discriminate.
  destruct (speed_FromSnapshot _) as [sp| |]; cbn [bind]; try discriminate.
  destruct (battery_FromSnapshot _) as [b| |]; cbn [bind]; try discriminate.
  destruct (match psn_sensors s with [] => _ | _ => _ end) as [l| |]; cbn [bind]; try discriminate.
  destruct (updateState _) as [d1| |] eqn:E1; cbn [bind]; try discriminate. intros E2.
  apply who_updateState in E1. apply who_updateRoutes in E2. unfold who in *. injection E1 as E1 _. injection E2 as E2 _.
  rewrite E2, E1. reflexivity.
Qed.

Lemma Snapshot_status d s : device_Snapshot d = Ret s -> psn_status s = Stopped.
Proof. unfold device_Snapshot. destruct (nav_Snapshot _) as [n| |]; cbn [bind]; try discriminate. intros [= <-]. reflexivity. Qed.

Lemma C51_restored_proof w g h p d0 s d : (h < List.length (w_gens w))%nat ->
  attached w g p -> device_Snapshot d0 = Ret s -> device_FromSnapshot (w_heap w p) s = Ret d ->
  exists w', Attach (set_heap w p d) h (Some p) = (None, w') /\ attached w' h p /\
   (g <> h -> attached w' g p) /\ (g = h -> exists pre mid post, gen_devices w' g = pre ++ p :: mid ++ p :: post).
Proof.
  intros Lh Ha Hs Hd. apply FromSnapshot_status in Hd. rewrite (Snapshot_status _ _ Hs) in Hd.
  assert (NR : ~ is_running (set_heap w p d) p).
  { unfold is_running. cbn. rewrite Nat.eqb_refl, Hd. discriminate. }
  destruct (Attach_works (set_heap w p d) h p Lh NR) as (w' & A1 & A2 & A3 & A4 & A5 & A6).
  exists w'. split; [exact A1|]. split; [unfold attached; rewrite A4; apply in_or_app; right; now left|]. split.
  - intros Hne. unfold attached. rewrite A6 by exact Hne. exact Ha.
  - intros ->. rewrite A4. change (gen_devices (set_heap w p d) h) with (gen_devices w h).
    apply in_split in Ha as (pre & post & ->). exists pre, post, []. now rewrite <- app_assoc.
Qed.
End D.
