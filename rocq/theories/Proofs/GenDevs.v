(** Attach and Detach while a tick is under way. *)
From Coq Require Import Lia Permutation.
From Verif.Model Require Import Base Generator GenConc.
From Verif.Spec Require Import GenSpec GenConcSpec.
From Verif.Proofs Require Import BaseLemmas GenProofs GenConcProofs GenLive.

Section C.
Context {D : Type} (c : genConf) (on : bool) (HC : conf_ok c).
Implicit Types s : state D.
Notation P := (c_packet c).

(** the packets of the flushes that were full, from position [k0] on *)
Inductive fulls (k0 : nat) : nat -> list (list D) -> list (list (option D)) -> Prop :=
| fu_nil : fulls k0 k0 [] []
| fu_snoc k Ls acc l : fulls k0 k Ls acc -> (k + P <= List.length l)%nat ->
    fulls k0 (k + P) (Ls ++ [l]) (acc ++ flush_packets c (map Some (firstn (P - 1) (skipn k l)))).

Lemma fill_group (g x : list (option D)) : List.length g = P -> fill P [] (g ++ x) = firstn (P - 1) g :: fill P [] x.
Proof.
  intros L. assert (Z : forall buf g, (List.length buf + List.length g = P)%nat -> g <> [] ->
    fill P buf (g ++ x) = firstn (P - 1) (buf ++ g) :: fill P [] x).
  { clear. intros buf g. revert buf. induction g as [|d g IH]; intros buf L Ne; [congruence|]. cbn in *.
    destruct (Nat.eqb_spec (List.length buf + 1) P) as [E|E].
    - f_equal; [|destruct g; [reflexivity|cbn in L; lia]]. rewrite firstn_app. replace (P - 1 - List.length buf)%nat with 0%nat by lia.
      rewrite firstn_all2 by lia. now rewrite app_nil_r.
    - destruct g as [|e g]; [cbn in *; lia|]. rewrite IH by (rewrite ?app_length; cbn in *; try lia; congruence). now rewrite <- app_assoc. }
  apply (Z []); [exact L|]. destruct HC as [_ HP]. intros ->. cbn in L. lia.
Qed.
Lemma tick_group (g x : list D) : List.length g = P ->
  tick_packets c (map Some (g ++ x)) = flush_packets c (map Some (firstn (P - 1) g)) ++ tick_packets c (map Some x).
Proof.
  intros L. unfold tick_packets. rewrite map_app, fill_group by (now rewrite map_length). cbn. now rewrite firstn_map.
Qed.
Lemma tick_small (x : list D) : (List.length x < P)%nat -> tick_packets c (map Some x) = flush_packets c (map Some x).
Proof.
  intros L. unfold tick_packets.
  assert (Z : forall (l buf : list (option D)), (List.length buf + List.length l < P)%nat -> fill P buf l = [buf ++ l]).
  { clear. induction l as [|d l IH]; intros buf L; cbn in *; [now rewrite app_nil_r|].
    destruct (Nat.eqb_spec (List.length buf + 1) P); [lia|]. rewrite IH by (rewrite app_length; cbn; lia). now rewrite <- app_assoc. }
  rewrite Z by (cbn; rewrite map_length; lia). cbn. now rewrite app_nil_r.
Qed.
Lemma group_length (l : list D) k : (k + P <= List.length l)%nat -> List.length (firstn P (skipn k l)) = P.
Proof. intros H. rewrite firstn_length_le; [reflexivity|]. rewrite skipn_length. lia. Qed.
Lemma fulls_reads k0 k Ls acc : fulls k0 k Ls acc -> forall Ls2 r, reads P k Ls2 r ->
  exists cs, reads P k0 (Ls ++ Ls2) cs /\ tick_packets c (map Some cs) = acc ++ tick_packets c (map Some r).
Proof.
  induction 1 as [|k Ls acc l F IH B]; intros Ls2 r R; [exists r; auto|].
  destruct (IH (l :: Ls2) (firstn P (skipn k l) ++ r)) as (cs & R' & E); [now constructor|].
  exists cs. split; [now rewrite <- app_assoc|]. rewrite E, tick_group by now apply group_length.
  rewrite firstn_firstn, Nat.min_l by lia. now rewrite app_assoc.
Qed.

Lemma sub_snoc {A} (l l' : list A) x : subsequence l l' -> subsequence (l ++ [x]) (l' ++ [x]).
Proof. induction 1; cbn; [apply sq_keep, sq_nil|now apply sq_skip|now apply sq_keep]. Qed.
Lemma sub_more {A} (l l' : list A) x : subsequence l l' -> subsequence l (l' ++ [x]).
Proof. induction 1; cbn; [apply sq_skip, sq_nil|now apply sq_skip|now apply sq_keep]. Qed.

(** where the tick is: it reads from position [k0] on, [out0] what was sent before it, [V] the lists of devices so far, the present one left out *)
Definition now (k0 : nat) (out0 : list (list (option D))) (V : list (list D)) s : Prop :=
  match s_run s with
  | RChk => k0 = 0%nat /\ Permutation (s_out s ++ in_flight c s) out0
  | RFill i => exists k Ls acc, fulls k0 k Ls acc /\ subsequence Ls V /\ Permutation (s_out s ++ in_flight c s) (out0 ++ acc) /\
      (k <= i)%nat /\ (k < i -> i <= List.length (s_devs s))%nat /\ (i - k < P)%nat /\ s_index s = (i - k)%nat /\
      filled s = map Some (firstn (i - k) (skipn k (s_devs s)))
  | RSelect | RReset | RNotify =>
      exists Ls cs, reads P k0 Ls cs /\ subsequence Ls (V ++ [s_devs s]) /\ Permutation (s_out s ++ in_flight c s) (out0 ++ tick_packets c (map Some cs))
  | RExit | RGone => False
  | r => match caller_of r with
      | Some (Mid i) => exists Ls acc, fulls k0 (S i) Ls acc /\ subsequence Ls (V ++ [s_devs s]) /\ Permutation (s_out s ++ in_flight c s) (out0 ++ acc)
      | _ => exists Ls cs, reads P k0 Ls cs /\ subsequence Ls (V ++ [s_devs s]) /\ Permutation (s_out s ++ in_flight c s) (out0 ++ tick_packets c (map Some cs))
      end
  end.

Lemma now_same k0 out0 V s s' : s_run s' = s_run s -> s_devs s' = s_devs s -> s_index s' = s_index s -> s_packet s' = s_packet s ->
  Permutation (s_out s' ++ in_flight c s') (s_out s ++ in_flight c s) -> now k0 out0 V s -> now k0 out0 (V ++ [s_devs s]) s'.
Proof.
  intros E1 E2 E3 E4 Q H. unfold now, filled in *. rewrite E1, E2, E3, E4.
  destruct (s_run s) as [| |i|k|k|k|k|k j|k j|k j|k j| | | |]; try contradiction; try (now rewrite Q);
  cbn [caller_of] in *; try destruct k as [i|];
  try (destruct H as (Ls & acc & H1 & H2 & H3); exists Ls, acc; rewrite Q; repeat split; auto; now apply sub_more).
  destruct H as (k & Ls & acc & H1 & H2 & H3 & H4). exists k, Ls, acc. rewrite Q. repeat split; try tauto; now apply sub_more.
Qed.

Lemma firstn_snoc {A} (l : list A) n x : nth_error l n = Some x -> firstn (S n) l = firstn n l ++ [x].
Proof. revert n; induction l as [|a l IH]; intros [|n] H; try discriminate; [injection H as ->; reflexivity|]. cbn in H. specialize (IH n H). cbn [firstn app] in *. now rewrite IH. Qed.
Lemma nth_error_skipn' {A} (l : list A) k n : nth_error (skipn k l) n = nth_error l (k + n).
Proof. revert k; induction l as [|a l IH]; intros [|k]; cbn; auto. now destruct n. Qed.

Lemma now_run k0 out0 V s s' : open_inv c s -> run c s (s_run s) s' -> now k0 out0 V s -> now k0 out0 (V ++ [s_devs s]) s'.
Proof.
  intros I Hr H. pose proof (oi_open c s I) as Hc. pose proof (oi_packet c s I) as Lp. pose proof (oi_index c s I) as Li.
  assert (I' : open_inv c s') by (eapply (open_inv_int c on HC); [exact I|apply st_run; exact Hr]).
  assert (N' : owes c (s_run s') = 0%nat -> sends c s' = [] -> in_flight c s' = []) by (intros; now apply in_flight_idle).
  destruct (in_flush (s_run s)) eqn:Hf.
  - destruct (run_flush_perm c s s' I Hf Hr) as (A1 & A2 & _).
    remember (s_run s) as r eqn:Er in Hr. unfold now in H. rewrite <- Er in H, Hf.
    destruct Hr; try discriminate Hf; try congruence; cbn [caller_of] in H; destruct k as [i|]; unfold now; cbn -[in_flight tick_packets] in *; rewrite ?A1, ?A2.
    all: destruct H as (Ls & acc & F1 & F2 & F3).
    all: try (exists Ls, acc; rewrite A2; repeat split; auto; now apply sub_more).
    all: exists (S i), Ls, acc; rewrite A2, Nat.sub_diag; repeat split; auto; destruct HC; try lia.
  - remember (s_run s) as r eqn:Er in Hr. unfold now in H. rewrite <- Er in H, Hf.
    assert (N : in_flight c s = []) by (apply in_flight_idle; auto; unfold sends; rewrite <- Er; destruct Hr; try discriminate Hf; reflexivity).
    destruct Hr; try discriminate Hf; try congruence; try contradiction; unfold now; cbn -[in_flight tick_packets firstn sends] in *.
    + destruct H as (-> & H). exists 0%nat, [], []. rewrite N' by reflexivity. rewrite N in H. rewrite !app_nil_r in *. repeat split; auto; try lia.
      * constructor.
      * clear. generalize (V ++ [s_devs s]) as l. induction l; constructor; auto.
    + destruct H as (k & Ls & acc & F1 & F2 & F3 & F4 & F5 & F6 & F7 & F8). exists k, Ls, acc. rewrite N' by reflexivity. rewrite N in F3.
      apply Nat.eqb_neq in H1. assert (nth_error (s_devs s) i <> None) as Hi by congruence. apply nth_error_Some in Hi.
      replace (S i - k)%nat with (S (i - k)) by lia. repeat split; auto; try lia; [now apply sub_more|].
      unfold filled. cbn -[firstn]. rewrite firstn_set by lia. unfold filled in F8. rewrite F8. rewrite (firstn_snoc _ _ d), map_app; [reflexivity|].
      rewrite nth_error_skipn'. now replace (k + (i - k))%nat with i by lia.
    + destruct H as (k & Ls & acc & F1 & F2 & F3 & F4 & F5 & F6 & F7 & F8). rewrite N, app_nil_r in F3.
      apply Nat.eqb_eq in H1. assert (nth_error (s_devs s) i <> None) as Hi by congruence. apply nth_error_Some in Hi.
      assert (Ei : in_flight c (at_fill s (set_nth (s_index s) (Some d) (s_packet s)) (s_index s) (RFlush (Mid i))) = flush_packets c (filled s)).
      { unfold in_flight. cbn. rewrite flush_pk by (auto; rewrite set_nth_length; lia). rewrite firstn_set_same.
        destruct (idle c s I) as (J1 & _ & J2); [rewrite <- Er; reflexivity|]. rewrite J1. cbn.
        assert (forall (l : list (wpc D)) p, (forall w, In w l -> w = WSelect) -> flat_map (pend p) l = []) as F.
        { induction l as [|w l IH]; intros p Hl; [reflexivity|]. cbn. rewrite (Hl w (or_introl eq_refl)). cbn. apply IH. intros v Hv. apply Hl. now right. }
        rewrite F by exact J2. now rewrite !app_nil_r. }
      rewrite Ei, F8. exists (Ls ++ [s_devs s]), (acc ++ flush_packets c (map Some (firstn (P - 1) (skipn k (s_devs s))))).
      replace (S i) with (k + P)%nat by lia. repeat split.
      * constructor; [exact F1|lia].
      * now apply sub_more, sub_snoc.
      * replace (i - k)%nat with (P - 1)%nat by lia. rewrite F3. now rewrite app_assoc.
    + destruct H as (k & Ls & acc & F1 & F2 & F3 & F4 & F5 & F6 & F7 & F8). rewrite N, app_nil_r in F3. apply nth_error_None in H0.
      assert (Ei : in_flight c (at_run s (RFlush Final)) = flush_packets c (filled s)).
      { unfold in_flight. cbn. rewrite flush_pk by (auto; lia).
        destruct (idle c s I) as (J1 & _ & J2); [rewrite <- Er; reflexivity|]. rewrite J1. cbn.
        assert (forall (l : list (wpc D)) p, (forall w, In w l -> w = WSelect) -> flat_map (pend p) l = []) as F.
        { induction l as [|w l IH]; intros p Hl; [reflexivity|]. cbn. rewrite (Hl w (or_introl eq_refl)). cbn. apply IH. intros v Hv. apply Hl. now right. }
        rewrite F by exact J2. now rewrite !app_nil_r. }
      assert (L : (List.length (s_devs s) < k + P)%nat) by lia.
      destruct (fulls_reads _ _ _ _ F1 [s_devs s] _ (re_last _ _ _ L)) as (cs & R & E).
      exists (Ls ++ [s_devs s]), cs. repeat split; [exact R|now apply sub_more, sub_snoc|]. rewrite E, Ei, F8, F3, tick_small by (rewrite skipn_length; lia).
      rewrite firstn_all2 by (rewrite skipn_length; lia). now rewrite app_assoc.
    + destruct H as (Ls & cs & F1 & F2 & F3). exists Ls, cs. rewrite N' by reflexivity. rewrite N in F3. repeat split; auto. now apply sub_more.
    + destruct H as (Ls & cs & F1 & F2 & F3). exists Ls, cs. rewrite N' by reflexivity. rewrite N in F3. repeat split; auto. now apply sub_more.
Qed.

Lemma now_step k0 out0 V l s s' : open_inv c s -> l = LInt \/ l = LDevs -> step c on l s s' -> now k0 out0 V s -> now k0 out0 (V ++ [s_devs s]) s'.
Proof.
  intros I Hl H X. inversion H as [i w w' s0 s1 Hi Hw|s0 s1 Hr|s0 s1 Hn|s0 Hr|s0|s0 l0 Hm]; subst.
  - apply now_same; try (destruct Hw; reflexivity); [|exact X]. exact (work_perm c w w' s s1 i (oi_open c s I) Hi Hw).
  - now apply now_run.
  - destruct (next_perm c on s s' Hn) as (A1 & A2 & _). apply now_same; [destruct Hn; reflexivity|destruct Hn; reflexivity|destruct Hn; reflexivity|destruct Hn; reflexivity|now rewrite A1, A2|exact X].
  - destruct Hl; discriminate.
  - destruct Hl; discriminate.
  - unfold now in *. cbn -[in_flight tick_packets] in *. change (in_flight c (set_devs s l0)) with (in_flight c s).
    destruct (s_run s) as [| |i|k|k|k|k|k j|k j|k j|k j| | | |]; try discriminate Hm; try contradiction; auto;
    cbn [caller_of] in *; try destruct k as [i|];
    destruct X as (Ls & acc & F1 & F2 & F3); exists Ls, acc; repeat split; auto; now apply sub_more.
Qed.
Lemma now_visits k0 out0 s vs s' : visits c on s vs s' -> forall V, open_inv c s -> now k0 out0 V s ->
  exists V', now k0 out0 V' s' /\ V' ++ [s_devs s'] = V ++ vs /\ open_inv c s'.
Proof.
  induction 1 as [s|l s s1 vs s' Hl H _ IH]; intros V I X; [eauto|].
  destruct (IH (V ++ [s_devs s])) as (V' & X' & E & I').
  - eapply (open_inv_step c on HC); [exact I|exact H|]. eapply not_close_open; [|exact H|apply (oi_open c s I)]. destruct Hl as [-> | ->]; discriminate.
  - eapply now_step; eauto.
  - exists V'. split; [exact X'|]. split; [|exact I']. rewrite E, <- app_assoc. reflexivity.
Qed.

Lemma C74_tick_proof s vs s' : reachable c on s -> s_closed s = false -> s_run s = RChk -> visits c on s vs s' -> s_run s' = RSelect ->
  exists Ls cs, subsequence Ls vs /\ reads P 0 Ls cs /\ Permutation (s_out s') (s_out s ++ tick_packets c (map Some cs)).
Proof.
  intros Hr Hc Er Hv Er'. pose proof (reachable_inv c on HC s Hr Hc) as I.
  destruct (now_visits 0 (s_out s) s vs s' Hv [] I) as (V' & X & E & I').
  - unfold now. rewrite Er. split; [reflexivity|]. rewrite in_flight_idle; auto; [now rewrite app_nil_r|now rewrite Er|unfold sends; now rewrite Er].
  - unfold now in X. rewrite Er' in X. destruct X as (Ls & cs & R & Sq & Q). exists Ls, cs. rewrite E in Sq. repeat split; auto.
    rewrite (in_flight_idle c s') in Q; auto; [now rewrite app_nil_r in Q|now rewrite Er'|unfold sends; now rewrite Er'].
Qed.

(** ** What follows from it *)
Lemma sub_in {A} (l l' : list A) x : subsequence l l' -> In x l -> In x l'.
Proof. induction 1; cbn; intuition. Qed.
Lemma only_prefix (l : list D) vs : only_attached (l :: vs) -> forall l', In l' vs -> exists x, l' = l ++ x.
Proof.
  revert l. induction vs as [|l1 vs IH]; intros l H l' Hl; [destruct Hl|]. inversion H as [|l0 x ls H1]; subst.
  destruct Hl as [<-|Hl]; [eauto|]. destruct (IH _ H1 _ Hl) as (y & ->). exists (x ++ y). now rewrite app_assoc.
Qed.
Lemma only_tail (l l1 : list D) vs : only_attached (l :: l1 :: vs) -> only_attached (l1 :: vs).
Proof. now inversion 1; subst. Qed.
Lemma sub_only (vs Ls : list (list D)) : subsequence Ls vs -> only_attached vs -> Ls <> [] -> only_attached Ls.
Proof.
  induction 1 as [|x l l' H IH|x l l' H IH]; intros O N; [congruence| |].
  - destruct l' as [|y l']; [inversion H; congruence|]. apply only_tail in O. auto.
  - destruct l as [|y l]; [constructor|].
    assert (In y l') as Hy by (eapply sub_in; [exact H|now left]).
    destruct (only_prefix _ _ O _ Hy) as (z & ->). constructor. apply IH; [|discriminate].
    destruct l' as [|w l']; [destruct Hy|]. now apply only_tail in O.
Qed.
Lemma skipn_skipn' {A} (l : list A) k n : skipn n (skipn k l) = skipn (k + n) l.
Proof. revert k; induction l as [|a l IH]; intros [|k]; cbn; auto; now destruct n. Qed.
Lemma reads_only size i Ls cs : @reads D size i Ls cs -> only_attached Ls -> exists L, In L Ls /\ cs = skipn i L.
Proof.
  induction 1 as [i l H|i l ls r H R IH]; intros O; [exists l; split; [now left|reflexivity]|].
  destruct ls as [|l1 ls]; [inversion R|]. destruct (IH (only_tail _ _ _ O)) as (L & HL & ->).
  exists L. split; [now right|]. destruct (only_prefix _ _ O L HL) as (x & ->).
  rewrite !skipn_app. replace (i - List.length l)%nat with 0%nat by lia. replace (i + size - List.length l)%nat with 0%nat by lia. cbn.
  rewrite app_assoc. f_equal. rewrite <- (firstn_skipn size (skipn i l)) at 2. f_equal. now rewrite skipn_skipn'.
Qed.

Lemma C74_attach_proof s vs s' : reachable c on s -> s_closed s = false -> s_run s = RChk -> visits c on s vs s' -> s_run s' = RSelect ->
  only_attached vs -> exists L, In L vs /\ Permutation (s_out s') (s_out s ++ tick_packets c (map Some L)).
Proof.
  intros Hr Hc Er Hv Er' O. destruct (C74_tick_proof s vs s' Hr Hc Er Hv Er') as (Ls & cs & Sq & R & Q).
  destruct (reads_only _ _ _ _ R) as (L & HL & ->). { apply (sub_only vs); auto. intros ->. inversion R. }
  exists L. split; [now apply (sub_in Ls)|exact Q].
Qed.
Lemma C74_few_proof s vs s' : reachable c on s -> s_closed s = false -> s_run s = RChk -> visits c on s vs s' -> s_run s' = RSelect ->
  (forall l, In l vs -> List.length l < P)%nat -> exists L, In L vs /\ Permutation (s_out s') (s_out s ++ tick_packets c (map Some L)).
Proof.
  intros Hr Hc Er Hv Er' O. destruct (C74_tick_proof s vs s' Hr Hc Er Hv Er') as (Ls & cs & Sq & R & Q).
  assert (F : forall l, In l Ls -> (List.length l < P)%nat) by (intros l Hl; apply O; eapply sub_in; eauto).
  inversion R as [i l H|i l ls r H R']; subst; [|specialize (F l (or_introl eq_refl)); lia].
  exists l. split; [apply (sub_in [l]); [exact Sq|now left]|exact Q].
Qed.

(** ** A device that is skipped *)
Lemma devs_int s s' : step c on LInt s s' -> s_devs s' = s_devs s.
Proof.
  intros H. inversion H as [i w w' s0 s1 Hi Hw|s0 s1 Hk|s0 s1 Hn| | |]; subst.
  - destruct Hw; reflexivity.
  - inversion Hk; subst; try reflexivity; destruct k; reflexivity.
  - destruct Hn; reflexivity.
Qed.
Lemma visits_int n s s' : steps c on (repeat LInt n) s s' -> visits c on s (repeat (s_devs s) (S n)) s' /\ s_devs s' = s_devs s.
Proof.
  revert s. induction n as [|n IH]; cbn [repeat]; intros s H; inversion H as [|l ls s1 s2 s3 H1 H2]; subst.
  - split; [constructor|reflexivity].
  - pose proof (devs_int _ _ H1) as E. destruct (IH _ H2) as (V & E2). rewrite E in *. split; [|exact E2]. eapply vi_step; [left; reflexivity|exact H1|exact V].
Qed.
Lemma visits_app s vs s1 vs' s' : visits c on s vs s1 -> visits c on s1 vs' s' -> exists vs0, visits c on s (vs0 ++ vs') s' /\ vs = vs0 ++ [s_devs s1].
Proof.
  induction 1 as [s|l s s0 vs s1 Hl H _ IH]; intros V; [exists []; auto|].
  destruct (IH V) as (vs0 & V1 & E). exists (s_devs s :: vs0). split; [|now rewrite E]. cbn. eapply vi_step; eauto.
Qed.
Lemma steps_snoc n s s1 s' : steps c on (repeat LInt n) s s1 -> step c on LInt s1 s' -> steps c on (repeat LInt (S n)) s s'.
Proof.
  revert s. induction n as [|n IH]; cbn [repeat]; intros s H1 H2; inversion H1; subst; [econstructor; [exact H2|constructor]|].
  econstructor; [eassumption|]. now apply IH.
Qed.
Lemma fill_steps k : forall s i, s_run s = RFill i -> (i + k <= List.length (s_devs s))%nat -> (s_index s + k < P)%nat ->
  exists s', steps c on (repeat LInt k) s s' /\ s_run s' = RFill (i + k) /\ s_index s' = (s_index s + k)%nat /\ s_out s' = s_out s.
Proof.
  induction k as [|k IH]; intros s i Er H1 H2; [exists s; rewrite !Nat.add_0_r; repeat split; auto; constructor|].
  destruct (nth_error (s_devs s) i) as [d|] eqn:Ed; [|apply nth_error_None in Ed; lia].
  pose (s1 := at_fill s (set_nth (s_index s) (Some d) (s_packet s)) (S (s_index s)) (RFill (S i))).
  assert (S1 : step c on LInt s s1) by (apply st_run; rewrite Er; apply rn_store; [exact Ed|apply Nat.eqb_neq; lia]).
  destruct (IH s1 (S i)) as (s' & A1 & A2 & A3 & A4); cbn; [reflexivity|lia|lia|].
  exists s'. cbn in *. repeat split; [econstructor; eassumption|rewrite A2; f_equal; lia|rewrite A3; lia|exact A4].
Qed.
Lemma to_select s : reachable c on s -> s_closed s = false -> exists n s', steps c on (repeat LInt n) s s' /\ s_run s' = RSelect.
Proof.
  intros Hr Hc. assert (I := reachable_inv c on HC s Hr Hc). clear Hr Hc.
  assert (G : forall m s, (meas c s < m)%nat -> open_inv c s -> exists n s', steps c on (repeat LInt n) s s' /\ s_run s' = RSelect).
  { clear s I. induction m as [|m IH]; intros s Hm I; [lia|].
    assert (Dec : s_run s = RSelect \/ s_run s <> RSelect) by (destruct (s_run s); auto; right; discriminate).
    destruct Dec as [E|E]; [exists 0%nat, s; split; [constructor|exact E]|].
    destruct (open_progress c on HC s I E) as (s1 & H1).
    assert (I1 : open_inv c s1) by (eapply (open_inv_int c on HC); eauto).
    destruct (IH s1) as (n & s' & A1 & A2); [pose proof (open_meas c on s s1 I H1); lia|exact I1|].
    exists (S n), s'. split; [econstructor; eassumption|exact A2]. }
  exact (G _ s (Nat.lt_succ_diag_r _) I).
Qed.

Lemma sub_all {A} (x : A) n Ls : subsequence Ls (repeat x n) -> Forall (eq x) Ls.
Proof.
  revert Ls. induction n as [|n IH]; cbn; intros Ls H; inversion H; subst; auto.
Qed.
Lemma fulls_first Ls acc l : fulls 0 P Ls acc -> Forall (eq l) Ls -> acc = flush_packets c (map Some (firstn (P - 1) l)).
Proof.
  intros H F. destruct HC as [_ HP]. inversion H as [A1|k Ls0 acc0 l0 H0 B A1]; subst; [lia|].
  assert (k = 0)%nat by lia. subst. apply Forall_app in F as [F1 F2]. inversion F2; subst.
  destruct Ls0 as [|x Ls0]; inversion H0 as [A3 A4 A5|k Ls1 acc1 l1 H1 B1 A3 A4 A5]; subst; try reflexivity; try lia; try (destruct Ls1; discriminate).
Qed.
Lemma reads_same size i Ls cs (l : list D) : reads size i Ls cs -> Forall (eq l) Ls -> cs = skipn i l.
Proof.
  intros R F. assert (O : only_attached Ls).
  { assert (Ne : Ls <> []) by (intros ->; inversion R). clear R. induction F as [|x Ls -> F IH]; [congruence|].
    destruct Ls as [|y Ls]; [constructor|]. inversion F; subst. pose proof (oa_more y [] Ls) as G. rewrite app_nil_r in G. apply G, IH. discriminate. }
  destruct (reads_only _ _ _ _ R O) as (L & HL & ->). rewrite Forall_forall in F. now rewrite (F _ HL).
Qed.
Lemma tick_concat_group (g x : list D) : List.length g = P ->
  List.concat (tick_packets c (map Some (g ++ x))) = map Some (firstn (P - 1) g) ++ List.concat (tick_packets c (map Some x)).
Proof. intros L. destruct HC. rewrite tick_group, concat_app, flush_concat by auto. reflexivity. Qed.
Lemma tick_concat_small (x : list D) : (List.length x < P)%nat -> List.concat (tick_packets c (map Some x)) = map Some x.
Proof. intros L. destruct HC. rewrite tick_small, flush_concat by auto. reflexivity. Qed.
Lemma concat_perm {A} (l l' : list (list A)) : Permutation l l' -> Permutation (List.concat l) (List.concat l').
Proof.
  induction 1 as [|x l l' H IH|x y l|l l1 l2 H1 IH1 H2 IH2]; cbn; auto.
  - now rewrite IH.
  - rewrite !app_assoc. apply Permutation_app_tail, Permutation_app_comm.
  - now rewrite IH1.
Qed.
Lemma reachable_steps s ls s' : reachable c on s -> steps c on ls s s' -> reachable c on s'.
Proof.
  intros (devs & l0 & H) H'. exists devs, (l0 ++ ls). revert H. generalize (start c devs) as s0.
  induction l0 as [|l l0 IH]; cbn; intros s0 H; inversion H; subst; [exact H'|]. econstructor; eauto.
Qed.

Lemma C74_refuted_proof (devs : list D) : (4 <= P)%nat -> NoDup devs -> List.length devs = (P + 3)%nat ->
  exists s vs s' d, reachable c on s /\ s_closed s = false /\ s_run s = RChk /\ s_devs s = devs /\ s_out s = [] /\
    visits c on s vs s' /\ s_run s' = RSelect /\ s_devs s' = skipn 2 devs /\
    (forall l, In l vs -> In d l) /\
    In (Some d) (List.concat (tick_packets c (map Some devs))) /\
    In (Some d) (List.concat (tick_packets c (map Some (skipn 2 devs)))) /\
    ~ In (Some d) (List.concat (s_out s')).
Proof.
  intros HP ND HL.
  destruct devs as [|a [|b r]]; cbn in HL; try lia.
  assert (Hs : exists h t, r = h ++ t /\ List.length h = (P - 2)%nat /\ List.length t = 3%nat).
  { exists (firstn (P - 2) r), (skipn (P - 2) r). rewrite firstn_skipn, firstn_length_le, skipn_length by lia. repeat split. lia. }
  destruct Hs as (h & t & -> & Lh & Lt). destruct t as [|d [|e [|f [|]]]]; try discriminate Lt. clear HL Lt.
  set (L := a :: b :: h ++ [d; e; f]) in *. set (L1 := b :: h ++ [d; e; f]). set (L2 := h ++ [d; e; f]).
  pose (s0 := at_run (start c L) RChk).
  assert (R0 : reachable c on s0) by (exists L, [LClock]; econstructor; [apply st_clock; reflexivity|constructor]).
  pose (s1 := at_fill s0 (s_packet s0) 0 (RFill 0)).
  assert (T1 : step c on LInt s0 s1) by (apply st_run; apply rn_chk_open; reflexivity).
  destruct (fill_steps (P - 1) s1 0 eq_refl) as (s2 & T2 & E2 & X2 & O2); [cbn; rewrite app_length; cbn; lia|cbn; lia|].
  assert (T02 : steps c on (repeat LInt (S (P - 1))) s0 s2) by (cbn [repeat]; econstructor; eassumption).
  destruct (visits_int _ _ _ T02) as (_ & D2). cbn in D2. change (s_devs s2 = L) in D2. cbn in X2, E2.
  destruct (nth_error L (P - 1)) as [z|] eqn:Ez; [|apply nth_error_None in Ez; cbn in Ez; rewrite app_length in Ez; cbn in Ez; lia].
  pose (s3 := at_fill s2 (set_nth (s_index s2) (Some z) (s_packet s2)) (s_index s2) (RFlush (Mid (P - 1)))).
  assert (T3 : step c on LInt s2 s3) by (apply st_run; rewrite E2; apply rn_store_full; [rewrite D2; exact Ez|apply Nat.eqb_eq; lia]).
  pose proof (steps_snoc _ _ _ _ T02 T3) as T03. destruct (visits_int _ _ _ T03) as (V03 & D3).
  assert (R3 : reachable c on s3) by (eapply reachable_steps; [exact R0|exact T03]).
  assert (C3 : s_closed s3 = false).
  { assert (G : forall n (x y : state D), steps c on (repeat LInt n) x y -> s_closed x = false -> s_closed y = false).
    { clear. induction n as [|n IH]; cbn; intros x y H Hc; inversion H as [|? ? ? x1 ? H1 H2]; subst; auto.
      apply (IH _ _ H2). eapply not_close_open; [|exact H1|exact Hc]. discriminate. }
    exact (G _ _ _ T03 eq_refl). }
  pose proof (reachable_inv c on HC s0 R0 eq_refl) as I0. pose proof (reachable_inv c on HC s3 R3 C3) as I3.
  destruct (now_visits 0 [] s0 _ s3 V03 [] I0) as (V' & X3 & EV & _).
  { unfold now. cbn [s_run s0 at_run]. split; [reflexivity|]. rewrite in_flight_idle by auto. cbn. constructor. }
  unfold now in X3. cbn [s_run s3 at_fill caller_of] in X3. rewrite EV in X3. destruct X3 as (Ls & acc & F1 & F2 & F3).
  replace (S (P - 1)) with P in F1 by lia. cbn [app] in F2. apply sub_all in F2.
  rewrite (fulls_first Ls acc L F1 F2) in F3. cbn [app] in F3. clear Ls acc F1 F2 V' EV.
  pose (s4 := set_devs s3 L1). pose (s5 := set_devs s4 L2).
  assert (T4 : step c on LDevs s3 s4) by (apply st_devs; reflexivity).
  assert (T5 : step c on LDevs s4 s5) by (apply st_devs; reflexivity).
  assert (R5 : reachable c on s5) by (eapply reachable_steps; [exact R3|]; econstructor; [exact T4|]; econstructor; [exact T5|constructor]).
  pose proof (reachable_inv c on HC s5 R5 C3) as I5.
  destruct (to_select s5 R5 C3) as (n & s6 & T6 & E6). destruct (visits_int _ _ _ T6) as (V56 & D6). cbn [s_devs s5 set_devs] in V56, D6.
  destruct (now_visits P (map (fun x => x) (flush_packets c (map Some (firstn (P - 1) L)))) s5 _ s6 V56 [] I5) as (V' & X6 & EV & I6).
  { unfold now. cbn [s_run s5 s4 s3 set_devs at_fill caller_of]. exists [], []. replace (S (P - 1)) with P by lia. split; [constructor|]. split.
    - apply sq_skip, sq_nil.
    - rewrite app_nil_r, map_id. exact F3. }
  rewrite map_id in X6. unfold now in X6. rewrite E6 in X6. rewrite EV in X6. destruct X6 as (Ls & cs & B1 & B2 & B3). cbn [app] in B2. apply sub_all in B2.
  rewrite (reads_same _ _ _ _ _ B1 B2) in B3. rewrite (in_flight_idle c s6), app_nil_r in B3 by (auto; try (now rewrite E6); unfold sends; now rewrite E6).
  assert (Ef : skipn P L2 = [f]).
  { unfold L2. replace (h ++ [d; e; f]) with ((h ++ [d; e]) ++ [f]) by (now rewrite <- app_assoc). rewrite skipn_app, skipn_all2 by (rewrite app_length; cbn; lia).
    replace (P - List.length (h ++ [d; e]))%nat with 0%nat by (rewrite app_length; cbn; lia). reflexivity. }
  rewrite Ef in B3.
  destruct (visits_app _ _ _ _ _ V03 (vi_step c on LDevs s3 s4 _ s6 (or_intror eq_refl) T4 (vi_step c on LDevs s4 s5 _ s6 (or_intror eq_refl) T5 V56))) as (vs0 & V & Ev).
  exists s0. eexists. exists s6, d. split; [exact R0|]. do 4 (split; [reflexivity|]). split; [exact V|]. split; [exact E6|]. split; [exact D6|].
  split; [|split; [|split]].
  - assert (A0 : In d L2) by (unfold L2; apply in_or_app; right; now left).
    intros l Hl. apply in_app_or in Hl as [Hl|Hl].
    + assert (Hr : In l (repeat (s_devs s0) (S (S (S (P - 1)))))) by (rewrite Ev; apply in_or_app; now left).
      apply repeat_spec in Hr. rewrite Hr. right; right. exact A0.
    + destruct Hl as [<-|[<-|Hl]]; [rewrite D3; right; right; exact A0|right; exact A0|]. apply repeat_spec in Hl. now subst l.
  - change L with ((a :: b :: h) ++ [d; e; f]). rewrite tick_concat_group by (cbn; lia). rewrite tick_concat_small by (cbn; lia). apply in_or_app. right. now left.
  - change (skipn 2 L) with L2. unfold L2. replace (h ++ [d; e; f]) with ((h ++ [d; e]) ++ [f]) by (now rewrite <- app_assoc).
    rewrite tick_concat_group by (rewrite app_length; cbn; lia). apply in_or_app. left. apply in_map. rewrite firstn_app. apply in_or_app. right.
    replace (P - 1 - List.length h)%nat with 1%nat by lia. now left.
  - intros Hin. apply (Permutation_in _ (concat_perm _ _ B3)) in Hin. destruct HC as [HW _].
    rewrite concat_app, flush_concat, tick_concat_small, <- map_app in Hin by (auto; cbn; lia).
    apply in_map_iff in Hin as (y & [= ->] & Hin).
    replace L with ((a :: b :: h) ++ [d; e; f]) in Hin by reflexivity.
    rewrite firstn_app in Hin. replace (P - 1 - List.length (a :: b :: h))%nat with 0%nat in Hin by (cbn; lia). cbn [firstn app] in Hin. rewrite app_nil_r in Hin.
    change L with ((a :: b :: h) ++ [d; e; f]) in ND. apply in_app_or in Hin as [Hin|[->|[]]].
    + assert (In d (a :: b :: h)) by (rewrite <- (firstn_skipn (P - 1) (a :: b :: h)); apply in_or_app; now left).
      clear - ND H. induction (a :: b :: h) as [|x l IH]; [destruct H|]. cbn in ND. inversion ND; subst. destruct H as [->|H]; [|auto]. apply H2, in_or_app. right. now left.
    + apply NoDup_remove_2 in ND. apply ND, in_or_app. right. cbn. auto.
Qed.
End C.

Lemma New_packet_4 cpus opts : (1 <= cpus)%Z -> (4 <= c_packet (New cpus opts))%nat.
Proof. intros H. pose proof (New_packet cpus opts H). lia. Qed.
