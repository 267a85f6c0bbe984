(** The methods of generators, and the changes and queries of devices, behave as if they were made one at a time. *)
From Coq Require Import Lia.
From Verif.Model Require Import Base Num Geo Curve PropMap Pb Types TypesSnap Track Route Navigator Device Generator Mutex DeviceConc Locks GenLocks.
From Verif.Spec Require Import NavSpec TypesSpec DeviceSpec GenSpec MutexSpec DeviceConcSpec LocksSpec GenLocksSpec.
From Verif.Proofs Require Import MutexProofs GenProofs LocksBase LocksLive LocksSerial GenLocksLive.

Section P.
Context {T : Type} {NT : Num T} {J : JsonLib T} {U : UtmLib T}.
Implicit Types (w : world T) (m : gkey -> cell T).
Notation gp := (gprog T).

(** *** what is known of the cells: devices keep their IDs *)
Section TP.
Variable ids : nat -> string.
Definition ok (i : gkey) (c : cell T) : Prop :=
  match i with
  | G _ => exists l, c = CList l
  | D p => exists d, c = CDev d /\ device_ID d = ids p
  | _ => True
  end.
Notation tk := (taking (V := gval T) ok).
Notation rl := (releasing (V := gval T) ok).

Lemma rl_end_w g v : rl [(G g, true)] (Unlock (G g) (Return v)).
Proof. constructor; [now left|]. rewrite release_head by tauto. constructor. Qed.
Lemma rl_end_r g v : rl [(G g, false)] (RUnlock (G g) (Return v)).
Proof. constructor; [now left|]. rewrite release_head by tauto. constructor. Qed.
Hint Resolve rl_end_w rl_end_r : core.

Lemma tk_read g b t k : (forall l, tk [(G g, b)] (G g :: t) (k l)) -> tk [(G g, b)] t (read_list g k).
Proof.
  intros H. apply tk_access; [destruct b; [left; now left|right; split; [now left|reflexivity]]|auto|]. intros c (l & ->). apply H.
Qed.
Lemma tk_ID g b t p k : (forall s, tk [(G g, b)] t (k s)) -> ~ In (D p) t -> tk [(G g, b)] t (ID_prog p k).
Proof.
  intros H Nt. apply tk_rlock; [cbn; intros [?|[]]; discriminate|]. apply tk_constant; [now left|reflexivity| |].
  - intros c c' (d & -> & Ed) (d' & -> & Ed'). now rewrite Ed, Ed'.
  - intros c (d & -> & Ed). apply tk_runlock; [now left|exact Nt|]. rewrite release_head; [apply H|]. cbn. intros [?|[]]; discriminate.
Qed.
Lemma tk_find g b t id l : (forall p, ~ In (D p) t) -> forall i found none, (forall i p, tk [(G g, b)] t (found i p)) -> tk [(G g, b)] t none ->
  tk [(G g, b)] t (find_prog id i l found none).
Proof.
  intros Nt. induction l as [|p l IH]; intros i found none Hf Hn; cbn; [exact Hn|]. apply tk_ID; [|apply Nt]. intros s. destruct (String.eqb s id); auto.
Qed.

Lemma tk_device (f : device T -> device T) (k : device T -> gp) g t p : (forall d, device_ID (f d) = device_ID d) ->
  (forall d, rl [(G g, true)] (k d)) ->
  tk [(G g, true)] t (Lock (D p) (Access (D p) (on_dev f) (fun c => match c with CDev d => Unlock (D p) (k d) | _ => Crash end))).
Proof.
  intros Hf Hk. apply tk_lock; [cbn; intros [?|[]]; discriminate|]. apply tk_access; [left; now left| |].
  - intros c (d & -> & Ed). exists (f d). split; [reflexivity|]. now rewrite Hf.
  - intros c (d & -> & Ed). apply tk_release. constructor; [now left|]. rewrite release_head; [apply Hk|]. cbn. intros [?|[]]; discriminate.
Qed.
Lemma mount_ID (d : device T) : device_ID (snd (mount d)) = device_ID d.
Proof. unfold mount. destruct (_ =? _)%Z; reflexivity. Qed.
Lemma unmount_ID (d : device T) : device_ID (snd (unmount d)) = device_ID d.
Proof. unfold unmount. destruct (_ =? _)%Z; reflexivity. Qed.

Lemma rl_read g k : (forall l, rl [(G g, true)] (k l)) -> rl [(G g, true)] (read_list g k).
Proof. intros H. constructor; [left; now left|auto|]. intros c (l & ->). apply H. Qed.
Lemma rl_write g l k : rl [(G g, true)] k -> rl [(G g, true)] (write_list g l k).
Proof. intros H. constructor; [left; now left|intros; cbn; eauto|]. auto. Qed.

Lemma tk_each g t more l : forall i done, tk [(G g, false)] t (each_loop g i l done (fun i p k => k (more i p))).
Proof. induction l as [|p l IH]; intros i done; cbn; [apply tk_release; auto|]. destruct (more i p); [apply IH|apply tk_release; auto]. Qed.

Lemma use_two_phase w u : serial_use w u -> two_phase ok (use_prog u).
Proof.
  unfold two_phase. destruct u as [g [p|]|g id|g id|g id|g|g|g fn|p c|p i|p|p|g tick x|g|g]; cbn [use_prog serial_use]; intros S; try contradiction.
  - apply tk_lock; [tauto|]. apply tk_device; [apply mount_ID|]. intros d. destruct (fst (mount d)); [auto|]. apply rl_read. intros l. apply rl_write. auto.
  - apply tk_release. constructor.
  - unfold Detach_prog. destruct (_ =? _)%Z; [apply tk_release; constructor|]. apply tk_lock; [tauto|]. apply tk_read. intros l.
    apply tk_find; [intros p [?|[]]; discriminate| |apply tk_release; auto]. intros i p. apply tk_device; [apply unmount_ID|]. intros d. apply rl_write. auto.
  - apply tk_lock; [tauto|]. apply tk_read. intros l. apply tk_find; [intros p [?|[]]; discriminate| |apply tk_release; auto]. intros i p. apply tk_release. auto.
  - unfold Lookup_prog. destruct (_ =? _)%Z; [apply tk_release; constructor|]. apply tk_rlock; [tauto|]. apply tk_read. intros l.
    apply tk_find; [intros p [?|[]]; discriminate| |apply tk_release; auto]. intros i p. apply tk_release. auto.
  - apply tk_rlock; [tauto|]. apply tk_read. intros l. apply tk_release. auto.
  - apply tk_lock; [tauto|]. apply tk_release. auto.
  - destruct S as [_ S]. apply tk_rlock; [tauto|]. apply tk_read. intros l.
    assert (E : forall l i done, tk [(G g, false)] [G g] (each_loop g i l done (fun i p => callback (fst (fn i p)) (snd (fn i p))))).
    { clear - S. induction l as [|p l IH]; intros i done; cbn; [apply tk_release; auto|]. rewrite S. cbn. destruct (snd (fn i p)); [apply IH|apply tk_release; auto]. }
    apply E.
  - destruct c as [tick x|o|f]; cbn [call_prog] in *; [contradiction| |].
    + destruct S as [_ NM]. cbn. apply tk_lock; [tauto|].
      assert (X : forall c, (match (let* d' := run_dev c o in Ret (@VUnit T, d')) with Ret (_, d') => d' | _ => c end) = match run_dev c o with Ret d' => d' | _ => c end).
      { intros c. destruct (run_dev c o); reflexivity. }
      apply tk_access; [left; now left| |].
      * intros c (d & -> & Ed). cbn. rewrite X. eexists. split; [reflexivity|]. rewrite <- Ed. destruct (run_dev d o) as [d'| |] eqn:E; try reflexivity.
        apply (run_dev_who _ _ _ NM) in E. unfold who in E. congruence.
      * intros c (d & -> & Ed). destruct (run_dev d o) as [d'| |]; cbn; try apply tk_crash. apply tk_release. constructor; [now left|]. rewrite release_head by tauto. constructor.
    + cbn. apply tk_rlock; [tauto|]. apply tk_access; [right; split; [now left|]| |].
      * intros [l|d|z]; reflexivity.
      * intros c (d & -> & Ed). cbn. eauto.
      * intros c (d & -> & Ed). apply tk_release. constructor; [now left|]. rewrite release_head by tauto. constructor.
Qed.
End TP.

(** *** one call alone does what Generator.v says *)
Definition like m w : Prop := forall i, m i = memory w i.

Lemma like_heap m w p d : like m w -> like (upd m (D p) (CDev d)) (set_heap w p d).
Proof.
  intros L i. unfold upd. destruct (eqK i (D p)) as [->|Ne]; [cbn; now rewrite Nat.eqb_refl|]. rewrite L. destruct i as [g|g|q|q]; cbn; auto.
  destruct (q =? p)%nat eqn:E; [|reflexivity]. apply Nat.eqb_eq in E. congruence.
Qed.
Lemma like_gen m w g l : (g < List.length (w_gens w))%nat -> like m w -> like (upd m (G g) (CList l)) (set_gen w g l).
Proof.
  intros Hg L i. unfold upd. destruct (eqK i (G g)) as [->|Ne]; [cbn [memory]; now rewrite gen_set|]. rewrite L. destruct i as [h|h|q|q]; cbn [memory]; auto.
  rewrite gen_set_other; [reflexivity|congruence].
Qed.
Lemma like_ext m m' w : like m w -> (forall i, m' i = m i) -> like m' w.
Proof. intros L X i. now rewrite X. Qed.
Lemma upd_id m i : forall j, upd m i (m i) j = m j.
Proof. intros j. unfold upd. destruct (eqK j i) as [->|]; reflexivity. Qed.

Lemma alone_inv (p : gp) m m' v : alone p m m' v ->
  match p with
  | Return v0 => v = v0 /\ forall i, m' i = m i
  | Crash => False
  | Access i f k => alone (k (m i)) (upd m i (f (m i))) m' v
  | Lock _ k | LockWait _ k | Unlock _ k | RLock _ k | RUnlock _ k => alone k m m' v
  | TryLock _ k => exists b, alone (k b) m m' v
  end.
Proof. destruct 1; auto. eauto. Qed.
Ltac ai A := apply alone_inv in A; cbn match beta in A.

Lemma alone_read m w g (k : list nat -> gp) m' v : like m w -> alone (read_list g k) m m' v -> alone (k (gen_devices w g)) m m' v.
Proof. intros L A. unfold read_list in A. ai A. rewrite (L (G g)) in A at 1. cbn [memory] in A. eapply alone_ext; [exact A|]. intros j. symmetry. apply upd_id. Qed.
Lemma alone_write m w g l (k : gp) m' v : (g < List.length (w_gens w))%nat -> like m w -> alone (write_list g l k) m m' v ->
  exists m1, like m1 (set_gen w g l) /\ alone k m1 m' v.
Proof. intros Hg L A. unfold write_list in A. ai A. eexists. split; [|exact A]. now apply like_gen. Qed.
Lemma alone_ID m w p (k : string -> gp) m' v : like m w -> alone (ID_prog p k) m m' v -> alone (k (id_of w p)) m m' v.
Proof.
  intros L A. unfold ID_prog in A. do 2 ai A. rewrite (L (D p)) in A at 1. cbn [memory] in A. ai A. eapply alone_ext; [exact A|].
  intros j. symmetry. apply upd_id.
Qed.
Lemma alone_device m w p (f : device T -> device T) (k : device T -> gp) m' v : like m w ->
  alone (Lock (D p) (Access (D p) (on_dev f) (fun c => match c with CDev d => Unlock (D p) (k d) | _ => Crash end))) m m' v ->
  exists m1, like m1 (set_heap w p (f (w_heap w p))) /\ alone (k (w_heap w p)) m1 m' v.
Proof.
  intros L A. do 2 ai A. rewrite (L (D p)) in A. cbn [memory] in A. ai A. eexists. split; [|exact A]. now apply like_heap.
Qed.
Lemma alone_find m w id (found : nat -> nat -> gp) none m' v : like m w -> forall l i, alone (find_prog id i l found none) m m' v ->
  match find_index_from (has_id w id) l i with
  | Some j => alone (found j (nth (j - i) l 0%nat)) m m' v /\ (i <= j)%nat /\ nth_error l (j - i) = Some (nth (j - i) l 0%nat)
  | None => alone none m m' v
  end.
Proof.
  intros L. induction l as [|p l IH]; intros i A; cbn in *; [exact A|]. apply (alone_ID _ w) in A; [|exact L]. unfold id_of in A. unfold has_id at 1.
  destruct (String.eqb (device_ID (w_heap w p)) id).
  - replace (i - i)%nat with O by lia. cbn. auto.
  - apply IH in A. destruct (find_index_from (has_id w id) l (S i)) as [j|]; [|exact A]. destruct A as (A & B & C).
    replace (j - i)%nat with (S (j - S i)) by lia. cbn. split; [exact A|]. split; [lia|exact C].
Qed.
Lemma alone_end_w g m m' v v0 : alone (Unlock (G g) (Return v0 : gp)) m m' v -> v = v0 /\ forall i, m' i = m i.
Proof. intros A. now do 2 ai A. Qed.
Lemma alone_end_r g m m' v v0 : alone (RUnlock (G g) (Return v0 : gp)) m m' v -> v = v0 /\ forall i, m' i = m i.
Proof. intros A. now do 2 ai A. Qed.

Lemma alone_each g fn : (forall i p, fst (fn i p) = []) -> forall l i done m m' v,
  alone (each_loop g i l done (fun i p => callback (fst (fn i p)) (snd (fn i p))) : gp) m m' v ->
  v = RCalls (done ++ Generator.each_from (fun i p => snd (fn i p)) i l) /\ forall j, m' j = m j.
Proof.
  intros S. induction l as [|p l IH]; intros i done m m' v A; cbn in A.
  - rewrite app_nil_r. eapply alone_end_r; eauto.
  - rewrite S in A. cbn in A. cbn. destruct (snd (fn i p)).
    + apply IH in A. rewrite <- app_assoc in A. exact A.
    + eapply alone_end_r; eauto.
Qed.

Lemma does_alone w u m m' v : serial_use w u -> like m w -> alone (use_prog u) m m' v -> exists w', does w u = Some (v, w') /\ like m' w'.
Proof.
  destruct u as [g [p|]|g id|g id|g id|g|g|g fn|p c|p i|p|p|g tick x|g|g]; cbn [use_prog serial_use does]; intros S L A; try contradiction.
  - cbn [Attach_prog] in A. ai A. apply (alone_device _ w) in A; [|exact L]. destruct A as (m1 & L1 & A1). unfold Attach.
    destruct (mount (w_heap w p)) as [[e|] d] eqn:E; cbn [fst snd] in *.
    + apply alone_end_w in A1. destruct A1 as [-> X]. eexists. split; [reflexivity|]. eapply like_ext; [|exact X].
      unfold mount in E. destruct (_ =? _)%Z in E; [|discriminate]. injection E as _ <-. eapply like_ext; [exact L|]. intros i. rewrite (L1 i), (L i).
      destruct i as [g'|g'|q|q]; cbn; auto. destruct (q =? p)%nat eqn:Eq; [apply Nat.eqb_eq in Eq; subst|]; reflexivity.
    + apply (alone_read _ _ _ _ _ _ L1) in A1. apply (alone_write _ (set_heap w p d)) in A1; [|exact S|exact L1]. destruct A1 as (m2 & L2 & A2).
      apply alone_end_w in A2. destruct A2 as [-> X]. eexists. split; [reflexivity|]. eapply like_ext; [exact L2|exact X].
  - cbn [Attach_prog] in A. ai A. destruct A as [-> X]. eexists. split; [reflexivity|]. eapply like_ext; eauto.
  - unfold Detach_prog, Detach in *. destruct (_ =? _)%Z.
    { ai A. destruct A as [-> X]. eexists. split; [reflexivity|]. eapply like_ext; eauto. }
    unfold HasTracker_prog, NumDevices_prog, Each_prog in A. ai A. apply (alone_read _ _ _ _ _ _ L) in A. apply (alone_find _ w _ _ _ _ _ L) in A. unfold gen_delete, find_index.
    destruct (find_index_from _ _ _) as [i|].
    + destruct A as (A1 & _ & _). rewrite Nat.sub_0_r in A1. apply (alone_device _ w) in A1; [|exact L]. destruct A1 as (m1 & L1 & A1).
      destruct (unmount (w_heap w (nth i (gen_devices w g) 0%nat))) as [e d]. cbn [fst snd] in *.
      apply (alone_write _ (set_heap w (nth i (gen_devices w g) 0%nat) d)) in A1; [|exact S|exact L1]. destruct A1 as (m2 & L2 & A2).
      apply alone_end_w in A2. destruct A2 as [-> X]. eexists. split; [reflexivity|]. eapply like_ext; [exact L2|exact X].
    + apply alone_end_w in A. destruct A as [-> X]. eexists. split; [reflexivity|]. eapply like_ext; eauto.
  - unfold HasTracker_prog, NumDevices_prog, Each_prog in A. ai A. apply (alone_read _ _ _ _ _ _ L) in A. apply (alone_find _ w _ _ _ _ _ L) in A. unfold HasTracker, gen_find, find_index.
    destruct (find_index_from _ _ _) as [i|].
    + destruct A as (A1 & _ & C). rewrite Nat.sub_0_r in C. rewrite C. apply alone_end_w in A1. destruct A1 as [-> X]. eexists. split; [reflexivity|]. eapply like_ext; eauto.
    + apply alone_end_w in A. destruct A as [-> X]. eexists. split; [reflexivity|]. eapply like_ext; eauto.
  - unfold Lookup_prog, GenLookup in *. destruct (_ =? _)%Z.
    { ai A. destruct A as [-> X]. eexists. split; [reflexivity|]. eapply like_ext; eauto. }
    unfold HasTracker_prog, NumDevices_prog, Each_prog in A. ai A. apply (alone_read _ _ _ _ _ _ L) in A. apply (alone_find _ w _ _ _ _ _ L) in A. unfold gen_find, find_index.
    destruct (find_index_from _ _ _) as [i|].
    + destruct A as (A1 & _ & C). rewrite Nat.sub_0_r in *. rewrite C. apply alone_end_r in A1. destruct A1 as [-> X]. eexists. split; [reflexivity|]. eapply like_ext; eauto.
    + apply alone_end_r in A. destruct A as [-> X]. eexists. split; [reflexivity|]. eapply like_ext; eauto.
  - unfold HasTracker_prog, NumDevices_prog, Each_prog in A. ai A. apply (alone_read _ _ _ _ _ _ L) in A. apply alone_end_r in A. destruct A as [-> X]. eexists. split; [reflexivity|]. eapply like_ext; eauto.
  - unfold On_prog in A. ai A. apply alone_end_w in A. destruct A as [-> X]. eexists. split; [reflexivity|]. eapply like_ext; eauto.
  - destruct S as [_ S]. unfold HasTracker_prog, NumDevices_prog, Each_prog in A. ai A. apply (alone_read _ _ _ _ _ _ L) in A. apply (alone_each _ _ S) in A. destruct A as [-> X].
    eexists. split; [reflexivity|]. eapply like_ext; eauto.
  - destruct c as [tick x|o|f]; cbn [call_prog] in *; [contradiction| |].
    + unfold change, part in A. cbn [at_device] in A. do 2 ai A. rewrite (L (D p)) in A. cbn [memory on_dev] in A. destruct (run_dev (w_heap w p) o) as [d| |]; cbn [bind at_device] in A; [|now ai A|now ai A].
      do 2 ai A. destruct A as [-> X]. eexists. split; [reflexivity|]. eapply like_ext; [|exact X]. now apply like_heap.
    + unfold query, DeviceConc.look in A. cbn [at_device] in A. do 2 ai A. rewrite (L (D p)) in A. cbn [memory on_dev] in A. do 2 ai A. destruct A as [-> X].
      eexists. split; [reflexivity|]. eapply like_ext; [exact L|]. intros j. rewrite X. unfold upd. destruct (eqK j (D p)) as [->|]; [now rewrite L|reflexivity].
Qed.

Lemma does_gens w u v w' : does w u = Some (v, w') -> List.length (w_gens w') = List.length (w_gens w).
Proof.
  assert (LS : forall (w : world T) g l, List.length (w_gens (set_gen w g l)) = List.length (w_gens w)) by (intros; apply length_set).
  destruct u as [g [p|]|g id|g id|g id|g|g|g fn|p c|p i|p|p|g tick x|g|g]; cbn [does]; intros E; try (injection E as <- <-; reflexivity).
  - unfold Attach in E. destruct (mount _) as [[e|] d]; injection E as <- <-; [reflexivity|]. now rewrite LS.
  - unfold Detach, gen_delete in E. destruct (_ =? _)%Z; [injection E as <- <-; reflexivity|]. destruct (find_index _ _); [|injection E as <- <-; reflexivity].
    destruct (unmount _) as [e d]. injection E as <- <-. now rewrite LS.
  - destruct c as [tick x|o|f]; try (injection E as <- <-; reflexivity). destruct (run_dev _ _); try discriminate. injection E as <- <-. reflexivity.
Qed.
Lemma serial_gens w w' u : List.length (w_gens w') = List.length (w_gens w) -> serial_use w u -> serial_use w' u.
Proof. intros E. destruct u as [g p|g id|g id|g id|g|g|g fn|p [| |]|p i|p|p|g tick x|g|g]; cbn; rewrite ?E; auto. Qed.

Definition lower (us : list (list (gen_use T) * list (gval T))) : list (list gp * list (gval T)) := map (fun x => (map use_prog (fst x), snd x)) us.
Lemma turn_of turns m gs m' gs' : one_by_one turns m gs m' gs' -> forall w us, like m w -> gs = lower us ->
  Forall (fun x => Forall (serial_use w) (fst x)) us ->
  exists w' us', in_turn turns w us w' us' /\ like m' w' /\ gs' = lower us' /\ Forall (fun x => Forall (serial_use w') (fst x)) us'.
Proof.
  induction 1 as [m gs|i turns p l r gs m m1 v m2 gs2 Hn A _ IH]; intros w us L -> F.
  - exists w, us. repeat split; auto. constructor.
  - unfold lower in Hn. rewrite nth_error_map in Hn. destruct (nth_error us i) as [[[|u lu] ru]|] eqn:Hu; cbn in Hn; try discriminate. injection Hn as <- <- <-.
    assert (Fu : Forall (serial_use w) (u :: lu)) by (rewrite Forall_forall in F; apply (F _ (nth_error_In _ _ Hu))). inversion Fu; subst.
    destruct (does_alone _ _ _ _ _ H1 L A) as (w1 & E & L1). pose proof (does_gens _ _ _ _ E) as EG.
    destruct (IH w1 (set_nth i (lu, ru ++ [v]) us) L1) as (w' & us' & Q & L' & E' & F').
    + unfold lower. rewrite map_set. reflexivity.
    + apply Forall_set; cbn; [eapply Forall_impl; [|exact H2]; intros; eapply serial_gens; eauto|].
      eapply Forall_impl; [|exact F]. intros x Fx. eapply Forall_impl; [|exact Fx]. intros; eapply serial_gens; eauto.
    + exists w', us'. split; [econstructor; eauto|]. auto.
Qed.

Definition begin (calls : list (list (gen_use T))) : list (list (gen_use T) * list (gval T)) := map (fun l => (l, [])) calls.
Lemma C73_proof w calls x y : Forall (Forall (serial_use w)) calls ->
  steps (start (memory w) (map (map use_prog) calls)) x -> steps x y ->
  exists before after w1 us1 w2 us2,
    in_turn before w (map (fun l => (l, [])) calls) w1 us1 /\ explains us1 x /\
    in_turn after w1 us1 w2 us2 /\ explains us2 y /\
    (finished y -> (forall i, sh_mem (sy_shared y) i = memory w2 i) /\ us2 = map (fun g => ([], go_results g)) (sy_gos y)).
Proof.
  intros F S1 S2.
  destruct (serial (ok (fun p => device_ID (w_heap w p))) (memory w) (map (map use_prog) calls) x y) as (t1 & t2 & a & gs & b & hs & Q1 & E1 & Q2 & E2 & Fin); auto.
  { intros [g|g|p|p]; cbn; eauto. }
  { rewrite Forall_map. eapply Forall_impl; [|exact F]. intros l Fl. rewrite Forall_map. eapply Forall_impl; [|exact Fl]. intros u Hu. eapply use_two_phase; eauto. }
  destruct (turn_of _ _ _ _ _ Q1 w (map (fun l => (l, [])) calls)) as (w1 & us1 & T1 & L1 & -> & F1).
  { intros i. reflexivity. }
  { unfold lower. rewrite !map_map. reflexivity. }
  { rewrite Forall_map. exact F. }
  destruct (turn_of _ _ _ _ _ Q2 w1 us1 L1 eq_refl F1) as (w2 & us2 & T2 & L2 & -> & F2).
  assert (SND : forall us, map snd (lower us) = map snd us) by (intros us; unfold lower; rewrite map_map; reflexivity).
  exists t1, t2, w1, us1, w2, us2. split; [exact T1|]. split; [unfold explains; rewrite <- SND; exact E1|]. split; [exact T2|]. split; [unfold explains; rewrite <- SND; exact E2|].
  intros Fy. destruct (Fin Fy) as [M R]. split; [intros i; rewrite M; apply L2|].
  clear - R. unfold lower in R. revert R. generalize (sy_gos y). induction us2 as [|[l r] us IH]; intros [|g gs] R; cbn in *; try discriminate; [reflexivity|].
  injection R as R1 R2 R3. destruct l; [|discriminate]. rewrite R2. f_equal. auto.
Qed.
End P.
