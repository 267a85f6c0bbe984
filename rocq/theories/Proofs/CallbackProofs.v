(** C89: callbacks replaced while the generator runs. *)
From Coq Require Import Lia.
From Verif.Model Require Import Base Num Pb Wire WireMsgs Worker Callbacks.
From Verif.Spec Require Import CallbackSpec.

Section X.
Context {F : Type}.
Implicit Types (c k : callbacks F) (ms : list (move F)) (x : setter F).

Lemma replaced_set c x : replaced x c (set_callback c x).
Proof. destruct x; repeat split. Qed.
Lemma replaced_is c x (c' : callbacks F) : replaced x c c' -> c' = set_callback c x.
Proof. destruct c', x; cbn; intros (-> & -> & ->); reflexivity. Qed.
Lemma am_set' c x ms k : at_some_moment (set_callback c x) ms k -> at_some_moment c (MSet x :: ms) k.
Proof. apply am_set, replaced_set. Qed.

Lemma handle_done err data ms : forall c, handle err data c HDone ms = (HDone, []).
Proof. induction ms as [|[|x] ms IH]; intros c; cbn; [reflexivity| |apply IH]. now rewrite IH. Qed.
Lemma handle_panic err data ms : forall c, handle err data c HPanic ms = (HPanic, []).
Proof. induction ms as [|[|x] ms IH]; intros c; cbn; [reflexivity| |apply IH]. now rewrite IH. Qed.

(** *** once set, set *)
Definition keeps (x : setter F) : Prop := match x with SetOnError None | SetOnPacket None | SetOnNext None => False | _ => True end.
Lemma keeps_error c x : keeps x -> cb_error c <> None -> cb_error (set_callback c x) <> None.
Proof. destruct x as [[f|]|[f|]|[f|]]; cbn; intros K H; try contradiction; auto; discriminate. Qed.
Lemma keeps_packet c x : keeps x -> cb_packet c <> None -> cb_packet (set_callback c x) <> None.
Proof. destruct x as [[f|]|[f|]|[f|]]; cbn; intros K H; try contradiction; auto; discriminate. Qed.
Lemma keeps_next c x : keeps x -> cb_next c <> None -> cb_next (set_callback c x) <> None.
Proof. destruct x as [[f|]|[f|]|[f|]]; cbn; intros K H; try contradiction; auto; discriminate. Qed.

Lemma only_cons m ms : only_functions (m :: ms) -> only_functions ms /\ match m with MSet x => keeps x | MStep => True end.
Proof. intros H. inversion H as [|m0 ms0 H1 H2]; subst. split; [exact H2|]. destruct m as [|[[f|]|[f|]|[f|]]]; auto. Qed.

(** where the goroutine is, what must be set *)
Definition armed (err : option goerr) c (p : hpc) : Prop :=
  match p with
  | HErrCall => err <> None /\ cb_error c <> None
  | HPckCall => cb_packet c <> None
  | HNextCall => cb_next c <> None
  | HPanic => False
  | _ => True
  end.
Lemma armed_set err c x p : keeps x -> armed err c p -> armed err (set_callback c x) p.
Proof.
  destruct p; cbn; auto; [intros K [H1 H2]; split; [exact H1|now apply keeps_error]|apply keeps_packet|apply keeps_next].
Qed.
Lemma armed_step err data c p : armed err c p -> armed err c (fst (hstep err data c p)).
Proof.
  destruct p; cbn; auto.
  - destruct err, (cb_error c) eqn:E; cbn; auto. rewrite E. split; discriminate.
  - intros [H1 H2]. destruct err, (cb_error c); cbn; auto; contradiction.
  - destruct (cb_packet c) eqn:E; cbn; auto. rewrite E. discriminate.
  - destruct (cb_packet c); cbn; auto.
  - destruct (cb_next c) eqn:E; cbn; auto. rewrite E. discriminate.
  - destruct (cb_next c); cbn; auto.
Qed.

Lemma armed_handle err data ms : forall c p, only_functions ms -> armed err c p -> fst (handle err data c p ms) <> HPanic.
Proof.
  induction ms as [|m ms IH]; intros c p H A.
  - cbn. intros ->. exact A.
  - destruct (only_cons m ms H) as (H1 & H2). destruct m as [|x]; cbn.
    + pose proof (armed_step err data c p A) as B. destruct (hstep err data c p) as [p1 l1]. cbn in B.
      specialize (IH c p1 H1 B). destruct (handle err data c p1 ms). exact IH.
    + apply IH; [exact H1|now apply armed_set].
Qed.

Lemma C89_no_panic_proof err data c ms p : only_functions ms -> In p [HErrTest; HNextTest] -> fst (handle err data c p ms) <> HPanic.
Proof. intros H [<-|[<-|[]]]; apply armed_handle; auto; exact I. Qed.

(** *** at most one call, of a function that was set *)
Lemma from_pckcall err data ms : forall c, 
  snd (handle err data c HPckCall ms) = [] \/
  exists k f, at_some_moment c ms k /\ cb_packet k = Some f /\ snd (handle err data c HPckCall ms) = [CallPacket f data].
Proof.
  induction ms as [|[|x] ms IH]; intros c; cbn; [now left| |].
  - destruct (cb_packet c) as [f|] eqn:E.
    + rewrite handle_done. right. exists c, f. repeat split; auto; constructor.
    + rewrite handle_panic. now left.
  - destruct (IH (set_callback c x)) as [H|(k & f & H1 & H2 & H3)]; [now left|]. right. exists k, f. repeat split; auto. now apply am_set'.
Qed.
Lemma from_pcktest err data ms : forall c, 
  snd (handle err data c HPckTest ms) = [] \/
  exists k f, at_some_moment c ms k /\ cb_packet k = Some f /\ snd (handle err data c HPckTest ms) = [CallPacket f data].
Proof.
  induction ms as [|[|x] ms IH]; intros c; cbn; [now left| |].
  - destruct (cb_packet c) as [f|] eqn:E.
    + destruct (from_pckcall err data ms c) as [H|(k & g & H1 & H2 & H3)]; destruct (handle err data c HPckCall ms); cbn in *; [now left|].
      right. exists k, g. repeat split; auto. now constructor.
    + rewrite handle_done. now left.
  - destruct (IH (set_callback c x)) as [H|(k & f & H1 & H2 & H3)]; [now left|]. right. exists k, f. repeat split; auto. now apply am_set'.
Qed.
Lemma from_errcall e data ms : forall c, 
  snd (handle (Some e) data c HErrCall ms) = [] \/
  exists k f, at_some_moment c ms k /\ cb_error k = Some f /\ snd (handle (Some e) data c HErrCall ms) = [CallError f e].
Proof.
  induction ms as [|[|x] ms IH]; intros c; cbn; [now left| |].
  - destruct (cb_error c) as [f|] eqn:E.
    + rewrite handle_done. right. exists c, f. repeat split; auto; constructor.
    + rewrite handle_panic. now left.
  - destruct (IH (set_callback c x)) as [H|(k & f & H1 & H2 & H3)]; [now left|]. right. exists k, f. repeat split; auto. now apply am_set'.
Qed.

Lemma C89_once_proof err data ms : forall c, 
  snd (handle err data c HErrTest ms) = [] \/ exists k f, at_some_moment c ms k /\
    ((cb_packet k = Some f /\ snd (handle err data c HErrTest ms) = [CallPacket f data]) \/
     exists e, err = Some e /\ cb_error k = Some f /\ snd (handle err data c HErrTest ms) = [CallError f e]).
Proof.
  induction ms as [|[|x] ms IH]; intros c; cbn; [now left| |].
  - assert (P : forall l, snd (handle err data c HPckTest ms) = l -> l = [] \/ exists k f, at_some_moment c (MStep :: ms) k /\
      ((cb_packet k = Some f /\ l = [CallPacket f data]) \/ exists e, err = Some e /\ cb_error k = Some f /\ l = [CallError f e])).
    { intros l <-. destruct (from_pcktest err data ms c) as [H|(k & f & H1 & H2 & H3)]; [now left|].
      right. exists k, f. split; [now constructor|]. left. now split. }
    destruct err as [e|]; [destruct (cb_error c) as [g|] eqn:E|].
    + destruct (from_errcall e data ms c) as [H|(k & f & H1 & H2 & H3)]; destruct (handle (Some e) data c HErrCall ms); cbn in *; [now left|].
      right. exists k, f. split; [now constructor|]. right. exists e. auto.
    + specialize (P _ eq_refl). destruct (handle (Some e) data c HPckTest ms). exact P.
    + specialize (P _ eq_refl). destruct (handle None data c HPckTest ms). exact P.
  - destruct (IH (set_callback c x)) as [H|(k & f & H1 & H2)]; [now left|]. right. exists k, f. split; [now apply am_set'|]. exact H2.
Qed.

(** *** when the goroutine is through *)
Lemma pckcall_done err data ms : forall c, fst (handle err data c HPckCall ms) = HDone ->
  exists k f, at_some_moment c ms k /\ cb_packet k = Some f /\ snd (handle err data c HPckCall ms) = [CallPacket f data].
Proof.
  induction ms as [|[|x] ms IH]; intros c; cbn; [discriminate| |].
  - destruct (cb_packet c) as [f|] eqn:E.
    + rewrite handle_done. intros _. exists c, f. repeat split; auto; constructor.
    + rewrite handle_panic. discriminate.
  - intros H. destruct (IH (set_callback c x) H) as (k & f & H1 & H2 & H3). exists k, f. repeat split; auto. now apply am_set'.
Qed.
Lemma pcktest_done err data ms : forall c, fst (handle err data c HPckTest ms) = HDone ->
  exists k, at_some_moment c ms k /\
    snd (handle err data c HPckTest ms) = match cb_packet k with Some f => [CallPacket f data] | None => [] end.
Proof.
  induction ms as [|[|x] ms IH]; intros c; cbn; [discriminate| |].
  - destruct (cb_packet c) as [f|] eqn:E.
    + intros H. destruct (pckcall_done err data ms c) as (k & g & H1 & H2 & H3); [destruct (handle err data c HPckCall ms); exact H|].
      exists k. split; [now constructor|]. rewrite H2. destruct (handle err data c HPckCall ms). exact H3.
    + rewrite handle_done. intros _. exists c. split; [constructor|]. now rewrite E.
  - intros H. destruct (IH (set_callback c x) H) as (k & H1 & H2). exists k. split; [now apply am_set'|]. exact H2.
Qed.
Lemma errcall_done e data ms : forall c, fst (handle (Some e) data c HErrCall ms) = HDone ->
  exists k f, at_some_moment c ms k /\ cb_error k = Some f /\ snd (handle (Some e) data c HErrCall ms) = [CallError f e].
Proof.
  induction ms as [|[|x] ms IH]; intros c; cbn; [discriminate| |].
  - destruct (cb_error c) as [f|] eqn:E.
    + rewrite handle_done. intros _. exists c, f. repeat split; auto; constructor.
    + rewrite handle_panic. discriminate.
  - intros H. destruct (IH (set_callback c x) H) as (k & f & H1 & H2 & H3). exists k, f. repeat split; auto. now apply am_set'.
Qed.
Lemma nextcall_done err data ms : forall c, fst (handle err data c HNextCall ms) = HDone ->
  exists k f, at_some_moment c ms k /\ cb_next k = Some f /\ snd (handle err data c HNextCall ms) = [CallNext f].
Proof.
  induction ms as [|[|x] ms IH]; intros c; cbn; [discriminate| |].
  - destruct (cb_next c) as [f|] eqn:E.
    + rewrite handle_done. intros _. exists c, f. repeat split; auto; constructor.
    + rewrite handle_panic. discriminate.
  - intros H. destruct (IH (set_callback c x) H) as (k & f & H1 & H2 & H3). exists k, f. repeat split; auto. now apply am_set'.
Qed.

Lemma C89_next_proof err data ms : forall c, fst (handle err data c HNextTest ms) = HDone ->
  exists k, at_some_moment c ms k /\ snd (handle err data c HNextTest ms) = wanted_next k.
Proof.
  unfold wanted_next. induction ms as [|[|x] ms IH]; intros c; cbn; [discriminate| |].
  - destruct (cb_next c) as [f|] eqn:E.
    + intros H. destruct (nextcall_done err data ms c) as (k & g & H1 & H2 & H3); [destruct (handle err data c HNextCall ms); exact H|].
      exists k. split; [now constructor|]. rewrite H2. destruct (handle err data c HNextCall ms). exact H3.
    + rewrite handle_done. intros _. exists c. split; [constructor|]. now rewrite E.
  - intros H. destruct (IH (set_callback c x) H) as (k & H1 & H2). exists k. split; [now apply am_set'|]. exact H2.
Qed.

Lemma C89_packet_proof data ms : forall c, fst (handle None data c HErrTest ms) = HDone ->
  exists k, at_some_moment c ms k /\ snd (handle None data c HErrTest ms) = wanted None data k.
Proof.
  induction ms as [|[|x] ms IH]; intros c; cbn; [discriminate| |].
  - intros H. destruct (pcktest_done None data ms c) as (k & H1 & H2); [destruct (handle None data c HPckTest ms); exact H|].
    exists k. split; [now constructor|]. destruct (handle None data c HPckTest ms). exact H2.
  - intros H. destruct (IH (set_callback c x) H) as (k & H1 & H2). exists k. split; [now apply am_set'|]. exact H2.
Qed.

Lemma alone_cons m ms : error_left_alone (m :: ms) -> error_left_alone ms /\ forall c x, m = MSet x -> cb_error (set_callback c x) = cb_error c.
Proof. intros H. inversion H as [|m0 ms0 H1 H2]; subst. split; [exact H2|]. intros c x ->. destruct x; [contradiction|reflexivity|reflexivity]. Qed.
Lemma alone_moment c ms k : at_some_moment c ms k -> error_left_alone ms -> cb_error k = cb_error c.
Proof.
  induction 1 as [|c ms k H IH|c x c' ms k R H IH]; intros A; [reflexivity| |]; destruct (alone_cons _ _ A) as (A1 & A2); [now apply IH|].
  rewrite IH by exact A1. rewrite (replaced_is _ _ _ R). now apply A2.
Qed.

Lemma C89_error_alone_proof e data ms : forall c, error_left_alone ms -> fst (handle (Some e) data c HErrTest ms) = HDone ->
  exists k, at_some_moment c ms k /\ snd (handle (Some e) data c HErrTest ms) = wanted (Some e) data k.
Proof.
  unfold wanted. induction ms as [|[|x] ms IH]; intros c A; cbn; [discriminate| |]; destruct (alone_cons _ _ A) as (A1 & A2).
  - destruct (cb_error c) as [f|] eqn:E; intros H.
    + destruct (errcall_done e data ms c) as (k & g & H1 & H2 & H3); [destruct (handle (Some e) data c HErrCall ms); exact H|].
      exists k. split; [now constructor|]. rewrite H2. destruct (handle (Some e) data c HErrCall ms). exact H3.
    + destruct (pcktest_done (Some e) data ms c) as (k & H1 & H2); [destruct (handle (Some e) data c HPckTest ms); exact H|].
      exists k. split; [now constructor|]. rewrite (alone_moment c ms k H1 A1), E. destruct (handle (Some e) data c HPckTest ms). exact H2.
  - intros H. destruct (IH (set_callback c x) A1 H) as (k & H1 & H2). exists k. split; [now apply am_set'|]. exact H2.
Qed.

Lemma C89_error_set_proof e data ms : forall c, cb_error c <> None -> only_functions ms ->
  fst (handle (Some e) data c HErrTest ms) = HDone ->
  exists k, at_some_moment c ms k /\ snd (handle (Some e) data c HErrTest ms) = wanted (Some e) data k.
Proof.
  unfold wanted. induction ms as [|m ms IH]; intros c N O; [discriminate|]; destruct (only_cons m ms O) as (O1 & O2). destruct m as [|x]; cbn.
  - destruct (cb_error c) as [f|] eqn:E; [|contradiction]. intros H.
    destruct (errcall_done e data ms c) as (k & g & H1 & H2 & H3); [destruct (handle (Some e) data c HErrCall ms); exact H|].
    exists k. split; [now constructor|]. rewrite H2. destruct (handle (Some e) data c HErrCall ms). exact H3.
  - intros H. destruct (IH (set_callback c x) (keeps_error c x O2 N) O1 H) as (k & H1 & H2). exists k. split; [now apply am_set'|]. exact H2.
Qed.

(** *** it takes three moves *)
Definition rank (p : hpc) : nat :=
  match p with HErrTest => 3 | HPckTest | HNextTest => 2 | HErrCall | HPckCall | HNextCall => 1 | _ => 0 end.
Lemma rank_step err data c p : (rank (fst (hstep err data c p)) <= rank p - 1)%nat.
Proof.
  destruct p; cbn; auto; [destruct err, (cb_error c)|destruct err, (cb_error c)|destruct (cb_packet c)|destruct (cb_packet c)|destruct (cb_next c)|destruct (cb_next c)]; cbn; lia.
Qed.
Lemma rank_handle err data ms : forall c p, (rank p <= moves ms)%nat ->
  fst (handle err data c p ms) = HDone \/ fst (handle err data c p ms) = HPanic.
Proof.
  induction ms as [|[|x] ms IH]; intros c p H; cbn in *.
  - destruct p; cbn in *; auto; lia.
  - pose proof (rank_step err data c p) as R. destruct (hstep err data c p) as [p1 l1]. cbn in R.
    specialize (IH c p1 ltac:(lia)). destruct (handle err data c p1 ms). exact IH.
  - now apply IH.
Qed.
Lemma C89_ends_proof err data c ms p : In p [HErrTest; HNextTest] -> (3 <= moves ms)%nat ->
  fst (handle err data c p ms) = HDone \/ fst (handle err data c p ms) = HPanic.
Proof. intros H L. apply rank_handle. destruct H as [<-|[<-|[]]]; cbn; lia. Qed.

(** *** callbacks that stay *)
Lemma stay_steps err data c n : (3 <= n)%nat -> handle err data c HErrTest (repeat MStep n) = (HDone, wanted err data c).
Proof.
  intros L. destruct n as [|[|[|n]]]; try lia. unfold wanted. cbn.
  destruct err as [e|]; [destruct (cb_error c) as [f|] eqn:E|]; cbn; rewrite ?E; cbn;
    try (destruct (cb_packet c) as [g|] eqn:E2; cbn; rewrite ?E2); cbn; rewrite ?handle_done; reflexivity.
Qed.

Lemma C89_unchanged_proof {T} {B : Bits64 T} (p : pbPacket T) c n : (3 <= n)%nat ->
  let '(data, ok) := part_msg d_Packet (w_Packet p) in
  let (pc, calls) := handle (if ok then None else Some ErrUTF8) data c HErrTest (repeat MStep n) in
  pc = HDone /\ flat_map told calls =
    deliver (match cb_error c with Some _ => true | None => false end) (match cb_packet c with Some _ => true | None => false end) p.
Proof.
  intros L. unfold deliver. destruct (part_msg d_Packet (w_Packet p)) as [data ok].
  rewrite (stay_steps _ data c n L). split; [reflexivity|]. unfold wanted.
  destruct ok; cbn; [destruct (cb_packet c); reflexivity|]. destruct (cb_error c); [reflexivity|]. cbn. destruct (cb_packet c); reflexivity.
Qed.

(** *** taken away in between *)
Lemma C89_nil_packet_proof data c f : cb_packet c = Some f ->
  handle None data c HErrTest [MStep; MStep; MSet (SetOnPacket None); MStep] = (HPanic, []).
Proof. intros E. cbn. rewrite E. reflexivity. Qed.
Lemma C89_nil_error_proof e data c f : cb_error c = Some f ->
  handle (Some e) data c HErrTest [MStep; MSet (SetOnError None); MStep] = (HPanic, []).
Proof. intros E. cbn. rewrite E. reflexivity. Qed.
Lemma C89_nil_next_proof err data c f : cb_next c = Some f ->
  handle err data c HNextTest [MStep; MSet (SetOnNext None); MStep] = (HPanic, []).
Proof. intros E. cbn. rewrite E. reflexivity. Qed.

Lemma no_moment_order (f g : F) e data k :
  let ms := [MStep; MSet (SetOnError (Some f)); MSet (SetOnPacket (Some g)); MStep; MStep] in
  at_some_moment (mkCallbacks None None None) ms k -> wanted (Some e) data k <> [CallPacket g data].
Proof.
  intros ms H. unfold ms in H.
  repeat match goal with
    | H : replaced _ _ _ |- _ => apply replaced_is in H; subst
    | H : at_some_moment _ _ _ |- _ => inversion H; subst; clear H end; cbn; discriminate.
Qed.
Lemma C89_order_proof (f g : F) e data :
  let ms := [MStep; MSet (SetOnError (Some f)); MSet (SetOnPacket (Some g)); MStep; MStep] in
  handle (Some e) data (mkCallbacks None None None) HErrTest ms = (HDone, [CallPacket g data]) /\
  only_functions ms /\
  forall k, at_some_moment (mkCallbacks None None None) ms k -> wanted (Some e) data k <> [CallPacket g data].
Proof. intros ms. split; [reflexivity|]. split; [repeat constructor|]. intros k. apply no_moment_order. Qed.
End X.
