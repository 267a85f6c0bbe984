(** C48. *)
From Coq Require Import Lia.
From Verif.Model Require Import Base Contention.
From Verif.Spec Require Import ContentionSpec.

Lemma ev_app es es' s1 s2 s3 : ev_steps es s1 s2 -> ev_steps es' s2 s3 -> ev_steps (es ++ es') s1 s3.
Proof. induction 1; cbn; auto. intros H1. econstructor; eauto. Qed.

Lemma failed_nonneg es : (0 <= failed es)%Z.
Proof. induction es as [|[] es IH]; cbn [failed]; lia. Qed.

Definition is_loaded (h : holder) : bool := match h with Loaded _ => true | _ => false end.

(** between a load and its store the counter may have grown by the crossed increments *)
Definition extra (s : counter) : Z := match ct_lock s with Loaded v => ct_tick s - v | _ => 0 end%Z.

Record sane (s : counter) : Prop := {
  sn_tick : (0 <= ct_tick s)%Z;
  sn_loaded : match ct_lock s with Loaded v => (0 <= v <= ct_tick s)%Z | _ => True end }.

Lemma ledger es : forall s s', ev_steps es s s' -> sane s ->
  (ct_tick s + Z.of_nat (ct_late s) + failed es < 2 ^ 32)%Z ->
  sane s' /\
  (counted es + ct_tick s' + Z.of_nat (ct_late s') + crossed (is_loaded (ct_lock s)) es + extra s =
   failed es + ct_tick s + Z.of_nat (ct_late s) + extra s')%Z.
Proof.
  intros s s' H. induction H as [s|e es s1 s2 s3 H1 H2 IH]; intros Sn B; cbn [failed counted crossed] in *.
  - split; [exact Sn|lia].
  - pose proof (failed_nonneg es) as Fn. destruct Sn as [S1 S2].
    inversion H1; subst; cbn [failed counted crossed ct_lock ct_tick ct_late is_loaded] in *;
      unfold extra in *; cbn [ct_lock ct_tick] in *; rewrite ?Nat2Z.inj_succ in *.
    + destruct IH as (A & E); [constructor; cbn; auto|lia|]. split; [exact A|lia].
    + destruct IH as (A & E); [constructor; cbn; auto|lia|]. split; [exact A|lia].
    + destruct IH as (A & E); [constructor; cbn; auto|lia|]. split; [exact A|lia].
    + destruct IH as (A & E); [constructor; cbn; auto|lia|]. split; [exact A|lia].
    + destruct IH as (A & E); [constructor; cbn; auto|lia|]. split; [exact A|]. lia.
    + rewrite Z.mod_small in * by lia.
      destruct IH as (A & E); [constructor; cbn; [lia|destruct l; auto; lia]|lia|]. split; [exact A|].
      destruct l; cbn [is_loaded] in *; lia.
    + destruct IH as (A & E); [constructor; cbn; auto; lia|lia|]. split; [exact A|lia].
    + destruct IH as (A & E); [constructor; cbn; auto; lia|lia|]. split; [exact A|lia].
Qed.

Lemma C48_ledger_proof es s : ev_steps es idle_counter s -> (failed es < 2 ^ 32)%Z ->
  ct_lock s = Free ->
  (counted es + ct_tick s + Z.of_nat (ct_late s) + crossed false es = failed es)%Z.
Proof.
  intros H B Hf. destruct (ledger es _ _ H) as (_ & E); [constructor; cbn; auto; lia|cbn; lia|].
  cbn [ct_lock ct_tick ct_late idle_counter is_loaded] in E. unfold extra in E. rewrite Hf in E. cbn in E. lia.
Qed.

(** a call that has loaded the counter stores what it loaded *)
Lemma loaded_keeps es : forall t n k s, ev_steps es (mkCounter (Loaded t) n k) s ->
  (forall w, ~ In (EStore w) es) -> ct_lock s = Loaded t.
Proof.
  induction es as [|e es IH]; intros t n k s H N; inversion H as [|e0 es0 s0 s1 s2 A1 A2]; subst; [reflexivity|].
  assert (N' : forall w, ~ In (EStore w) es) by (intros w Hw; exact (N w (or_intror Hw))).
  inversion A1; subst; try (eapply IH; eassumption).
  exfalso. eapply N. left. reflexivity.
Qed.

Lemma ev_split es : forall es' s1 s3, ev_steps (es ++ es') s1 s3 ->
  exists s2, ev_steps es s1 s2 /\ ev_steps es' s2 s3.
Proof.
  induction es as [|e es IH]; intros es' s1 s3 H; cbn in H.
  - exists s1. split; [constructor|exact H].
  - inversion H as [|e0 es0 s0 s2 s4 A1 A2]; subst. destruct (IH _ _ _ A2) as (s5 & B1 & B2).
    exists s5. split; [econstructor; eassumption|exact B2].
Qed.

(** the next successful call, when nobody is late and nothing crossed *)
Lemma C48_next_proof es s es' v s' : ev_steps es idle_counter s -> (failed es < 2 ^ 32)%Z ->
  ct_lock s = Free -> ct_late s = 0%nat -> crossed false es = 0%Z ->
  ev_steps (ENext :: ELoad :: es' ++ [EStore v]) s s' -> (forall w, ~ In (EStore w) es') ->
  v = (failed es - counted es)%Z.
Proof.
  intros H B Hf Hl Hc H' N. pose proof (C48_ledger_proof es s H B Hf) as E. rewrite Hl, Hc in E. cbn in E.
  inversion H' as [|e0 es0 s0 s1 s2 A1 A2]; subst. inversion A2 as [|e0 es0 s0 s3 s4 A3 A4]; subst.
  inversion A1; subst. inversion A3; subst. cbn in E.
  destruct (ev_split _ _ _ _ A4) as (s5 & B1 & B2). pose proof (loaded_keeps _ _ _ _ _ B1 N) as K.
  inversion B2 as [|e0 es0 s0 s6 s7 C1 C2]; subst. inversion C1; subst. cbn in K. injection K as K. lia.
Qed.

(** a second is lost for good: the call failed, every call has returned, and nothing is owed *)
Lemma C48_refuted_proof : exists es, ev_steps es idle_counter idle_counter /\
  failed es = 1%Z /\ counted es = 0%Z.
Proof.
  exists [ENext; ELoad; EFail; EInc; EStore 0; EUnlock]. split; [|split; reflexivity].
  unfold idle_counter. repeat (econstructor; try discriminate).
Qed.
