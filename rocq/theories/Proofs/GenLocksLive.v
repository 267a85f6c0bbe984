(** The methods of generators and devices take their mutexes in ascending order. *)
From Coq Require Import Lia.
From Verif.Model Require Import Base Num Geo Curve PropMap Pb Types TypesSnap Track Route Navigator Device Generator Mutex DeviceConc Locks GenLocks.
From Verif.Spec Require Import NavSpec TypesSpec DeviceSpec GenSpec MutexSpec DeviceConcSpec LocksSpec GenLocksSpec.
From Verif.Proofs Require Import LocksBase LocksLive.

Definition rank (i : gkey) : nat := match i with G _ => 0 | P _ => 1 | D _ => 2 | N _ => 3 end.

Section P.
Context {T : Type} {NT : Num T} {J : JsonLib T} {U : UtmLib T}.
Notation ord := (ordered (C := cell T) (V := gval T) rank).

Lemma release_head (i : gkey) b h : ~ In i (keys h) -> release i ((i, b) :: h) = h.
Proof.
  intros N. unfold release. cbn. destruct (eqK i i); [|congruence]. induction h as [|[j x] h IH]; [reflexivity|]. cbn in *.
  destruct (eqK j i) as [->|]; [tauto|]. f_equal. apply IH. tauto.
Qed.
Lemma lower_notin (i : gkey) h : Forall (fun j => rank j < rank i)%nat (keys h) -> ~ In i (keys h).
Proof. intros F H. rewrite Forall_forall in F. specialize (F i H). lia. Qed.

Lemma ord_unlock i h k : Forall (fun j => rank j < rank i)%nat (keys h) -> ord h k -> ord ((i, true) :: h) (Unlock i k).
Proof. intros F H. constructor; [now left|]. rewrite release_head; [exact H|now apply lower_notin]. Qed.
Lemma ord_runlock i h k : Forall (fun j => rank j < rank i)%nat (keys h) -> ord h k -> ord ((i, false) :: h) (RUnlock i k).
Proof. intros F H. constructor; [now left|]. rewrite release_head; [exact H|now apply lower_notin]. Qed.

(** [well o q]: the rest [q] of a device method that holds the mutex ([o]: as a writer or not). *)
Inductive well : option bool -> dprog T -> Prop :=
| we_return v : well None (Mutex.Return v)
| we_crash o : well o Mutex.Crash
| we_access o f k : (forall d, well o (k d)) -> well o (Mutex.Access f k)
| we_load o k : (forall z, well o (k z)) -> well o (Mutex.Load k)
| we_store o z k : well o k -> well o (Mutex.Store z k)
| we_inc o k : well o k -> well o (Mutex.Inc k)
| we_lock k : well (Some true) k -> well None (Mutex.Lock k)
| we_rlock k : well (Some false) k -> well None (Mutex.RLock k)
| we_unlock k : well None k -> well (Some true) (Mutex.Unlock k)
| we_runlock k : well None k -> well (Some false) (Mutex.RUnlock k)
| we_try k : well (Some true) (k true) -> well None (k false) -> well None (Mutex.TryLock k).

Definition below_dev (h : holding) : Prop := Forall (fun j => rank j < 2)%nat (keys h).
Lemma at_device_ordered p o q : well o q -> forall h k, below_dev h -> (forall v, ord h (k v)) ->
  ord (match o with Some b => (D p, b) :: h | None => h end) (at_device p q k).
Proof.
  induction 1; intros h kk B Hk; cbn [at_device].
  - apply Hk.
  - constructor.
  - constructor. intros [l|d|z]; try constructor. apply H0; assumption.
  - constructor. intros [l|d|z]; try constructor. apply H0; assumption.
  - constructor. intros _. apply IHwell; assumption.
  - constructor. intros _. apply IHwell; assumption.
  - constructor; [exact B|]. apply (IHwell h kk B Hk).
  - constructor; [exact B|]. apply (IHwell h kk B Hk).
  - apply ord_unlock; [exact B|]. apply (IHwell h kk B Hk).
  - apply ord_runlock; [exact B|]. apply (IHwell h kk B Hk).
  - constructor; [now apply lower_notin|apply (IHwell1 h kk B Hk)|apply (IHwell2 h kk B Hk)].
Qed.

Lemma well_part {A} o (f : device T -> res (A * device T)) k : (forall a, well o (k a)) -> well o (part f k).
Proof. intros H. constructor. intros d. destruct (f d) as [[a d']| |]; [apply H|constructor|constructor]. Qed.
Lemma well_part_ o (f : device T -> res (device T)) k : well o k -> well o (part_ f k).
Proof. intros H. now apply well_part. Qed.
Lemma well_look o k : (forall d, well o (k d)) -> well o (look k).
Proof. intros H. now constructor. Qed.

Lemma call_well (c : dev_call T) : well None (call_prog c).
Proof.
  destruct c as [tick x|o|f]; cbn [call_prog].
  - unfold Next_prog. constructor; [|repeat constructor]. apply well_look. intros d. destruct (n_routes (d_nav d)); [repeat constructor|].
    constructor. intros z. constructor. do 4 apply well_part_. apply well_look. intros d'. apply well_part_. apply well_part. intros b. apply well_part. intros b'. repeat constructor.
  - unfold change. constructor. apply well_part. intros v. repeat constructor.
  - repeat constructor.
Qed.
Lemma SensorAt_well i : well None (SensorAt_prog i).
Proof. apply well_look. intros d. destruct (_ || _)%bool; [constructor|]. constructor. apply well_look. intros d'. destruct (zget _ _); repeat constructor. Qed.
Lemma IsFinish_well : well None IsFinish_prog.
Proof. constructor. apply well_look. intros d. destruct (fst _); repeat constructor. Qed.
Lemma Snapshot_well : well None Snapshot_prog.
Proof.
  unfold Snapshot_prog. do 7 (apply well_look; intros ?). apply well_part. intros nav. do 3 (apply well_look; intros ?). destruct (_ <? _)%Z; [|constructor].
  apply well_look. intros ?. constructor. apply well_look. intros ?. destruct (_ <=? _)%Z; repeat constructor.
Qed.

Lemma call_ordered h p c k : below_dev h -> (forall v, ord h (k v)) -> ord h (at_device p (call_prog c) k).
Proof. intros B Hk. apply (at_device_ordered p None _ (call_well c) h k B Hk). Qed.

Lemma ID_ordered h p k : below_dev h -> (forall s, ord h (k s)) -> ord h (ID_prog p k).
Proof.
  intros B Hk. constructor; [exact B|]. constructor. intros [l|d|z]; try constructor; [now left|]. rewrite release_head by (now apply lower_notin). apply Hk.
Qed.
Lemma mount_ordered h p k : below_dev h -> (forall e, ord h (k e)) -> ord h (mount_prog p k).
Proof. intros B Hk. constructor; [exact B|]. constructor. intros [l|d|z]; try constructor; [now left|]. rewrite release_head by (now apply lower_notin). apply Hk. Qed.
Lemma unmount_ordered h p k : below_dev h -> (forall e, ord h (k e)) -> ord h (unmount_prog p k).
Proof. intros B Hk. constructor; [exact B|]. constructor. intros [l|d|z]; try constructor; [now left|]. rewrite release_head by (now apply lower_notin). apply Hk. Qed.
Lemma find_ordered h id l : below_dev h -> forall i found none, (forall i p, ord h (found i p)) -> ord h none -> ord h (find_prog id i l found none).
Proof.
  intros B. induction l as [|p l IH]; intros i found none Hf Hn; cbn; [exact Hn|]. apply ID_ordered; [exact B|]. intros s. destruct (String.eqb s id); auto.
Qed.
Lemma read_ordered h g k : (forall l, ord h (k l)) -> ord h (read_list g k).
Proof. intros H. constructor. intros [l|d|z]; [apply H|constructor|constructor]. Qed.
Lemma write_ordered h g l k : ord h k -> ord h (write_list g l k).
Proof. intros H. constructor. auto. Qed.

Lemma end_unlock g v : ord [(G g, true)] (Unlock (G g) (Return v)).
Proof. apply ord_unlock; repeat constructor. Qed.
Lemma end_runlock g v : ord [(G g, false)] (RUnlock (G g) (Return v)).
Proof. apply ord_runlock; repeat constructor. Qed.
Lemma below_gen g b : below_dev [(G g, b)].
Proof. repeat constructor. Qed.
Hint Resolve end_unlock end_runlock below_gen : core.

Lemma callback_ordered h l next k : below_dev h -> (forall b, ord h (k b)) -> ord h (callback l next k).
Proof. intros B Hk. induction l as [|[p c] l IH]; cbn; [apply Hk|]. apply call_ordered; auto. Qed.
Lemma each_ordered g fn : (forall i p k, (forall b, ord [(G g, false)] (k b)) -> ord [(G g, false)] (fn i p k)) ->
  forall l i done, ord [(G g, false)] (each_loop g i l done fn).
Proof. intros H. induction l as [|p l IH]; intros i done; cbn; [apply end_runlock|]. apply H. intros []; auto. Qed.
Lemma move_ordered h l tick x k : below_dev h -> ord h k -> ord h (move_all l tick x k).
Proof. intros B Hk. induction l as [|p l IH]; cbn; [exact Hk|]. apply (call_ordered h p (CNext tick (x p))); auto. Qed.
Lemma pack_ordered g l k : ord [(G g, false)] k -> ord [(G g, false)] (pack_all g l k).
Proof.
  intros Hk. induction l as [|p l IH]; cbn [pack_all]; [exact Hk|]. constructor; [repeat constructor|].
  apply (call_ordered _ p (CQuery (fun _ => VUnit))); [repeat constructor|]. intros _. apply ord_unlock; [repeat constructor|exact IH].
Qed.

Lemma use_ordered u : ord [] (use_prog u).
Proof.
  destruct u as [g [p|]|g id|g id|g id|g|g|g fn|p c|p i|p|p|g tick x|g|g]; cbn [use_prog].
  - constructor; [constructor|]. apply mount_ordered; auto. intros [e|]; auto. apply read_ordered. intros l. apply write_ordered; auto.
  - constructor.
  - unfold Detach_prog. destruct (_ =? _)%Z; [constructor|]. constructor; [constructor|]. apply read_ordered. intros l. apply find_ordered; auto.
    intros i p. apply unmount_ordered; auto. intros e. apply write_ordered; auto.
  - constructor; [constructor|]. apply read_ordered. intros l. apply find_ordered; auto.
  - unfold Lookup_prog. destruct (_ =? _)%Z; [constructor|]. constructor; [constructor|]. apply read_ordered. intros l. apply find_ordered; auto.
  - constructor; [constructor|]. apply read_ordered; auto.
  - constructor; [constructor|]. auto.
  - constructor; [constructor|]. apply read_ordered. intros l. apply each_ordered. intros i p k Hk. apply callback_ordered; auto.
  - apply call_ordered; [constructor|]. intros v. constructor.
  - apply (at_device_ordered p None _ (SensorAt_well i) [] _); [constructor|]. intros v. constructor.
  - apply (at_device_ordered p None _ IsFinish_well [] _); [constructor|]. intros v. constructor.
  - apply (at_device_ordered p None _ Snapshot_well [] _); [constructor|]. intros v. constructor.
  - constructor; [constructor|]. apply read_ordered. intros l. apply move_ordered; auto. apply pack_ordered; auto.
  - constructor; [constructor|]. apply ord_runlock; repeat constructor.
  - constructor; [constructor|]. apply ord_unlock; repeat constructor.
Qed.

Lemma C72_proof m (calls : list (list (gen_use T))) x : steps (start m (map (map use_prog) calls)) x -> ends x.
Proof.
  apply (ordered_ends rank). rewrite Forall_map. apply Forall_forall. intros l _. rewrite Forall_map. apply Forall_forall. intros u _. apply use_ordered.
Qed.
End P.
