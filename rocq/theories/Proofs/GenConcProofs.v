(** C52, C53, C55: the open generator. *)
From Coq Require Import Lia Permutation.
From Verif.Model Require Import Base Generator GenConc.
From Verif.Spec Require Import GenSpec GenConcSpec.
From Verif.Proofs Require Import BaseLemmas GenProofs.

(** ** lists *)

Fixpoint cnt {A} (f : A -> nat) (l : list A) : nat := match l with [] => 0 | x :: r => f x + cnt f r end%nat.

Lemma cnt_set {A} (f : A -> nat) (l : list A) w w' : forall i, nth_error l i = Some w ->
  (cnt f (set_nth i w' l) + f w = cnt f l + f w')%nat.
Proof.
  induction l as [|x l IH]; intros [|i] H; try discriminate; cbn in *.
  - injection H as ->. lia.
  - specialize (IH i H). lia.
Qed.

Lemma cnt_In {A} (f : A -> nat) (l : list A) w : In w l -> (f w <= cnt f l)%nat.
Proof.
  induction l as [|x l IH]; [contradiction|]. intros [->|H]; cbn; [lia|]. specialize (IH H). lia.
Qed.

Lemma cnt_zero {A} (f : A -> nat) (l : list A) : cnt f l = 0%nat -> forall w, In w l -> f w = 0%nat.
Proof. intros H w Hw. pose proof (cnt_In f l w Hw). lia. Qed.

Lemma cnt_repeat {A} (f : A -> nat) x n : cnt f (repeat x n) = (n * f x)%nat.
Proof. induction n as [|n IH]; cbn; [reflexivity|]. rewrite IH. lia. Qed.

Lemma cnt_pos {A} (f : A -> nat) (l : list A) : (0 < cnt f l)%nat -> exists w, In w l /\ (0 < f w)%nat.
Proof.
  induction l as [|x l IH]; cbn; [lia|]. intros H. destruct (f x) as [|n] eqn:E.
  - destruct (IH H) as (w & H1 & H2). eauto.
  - exists x. split; [now left|lia].
Qed.

Lemma cnt_le {A} (f g : A -> nat) (l : list A) : (forall w, In w l -> f w <= g w)%nat -> (cnt f l <= cnt g l)%nat.
Proof.
  induction l as [|x l IH]; intros H; cbn; [lia|]. pose proof (H x (or_introl eq_refl)).
  specialize (IH (fun w Hw => H w (or_intror Hw))). lia.
Qed.

Lemma cnt_length {A} (f : A -> nat) (l : list A) : (forall w, In w l -> f w <= 1)%nat -> (cnt f l <= List.length l)%nat.
Proof.
  induction l as [|x l IH]; intros H; cbn; [lia|]. pose proof (H x (or_introl eq_refl)).
  specialize (IH (fun w Hw => H w (or_intror Hw))). lia.
Qed.

Lemma flat_set {A B} (g : A -> list B) (l : list A) w w' : forall i, nth_error l i = Some w ->
  Permutation (g w ++ flat_map g (set_nth i w' l)) (g w' ++ flat_map g l).
Proof.
  induction l as [|x l IH]; intros [|i] H; try discriminate; cbn in *.
  - injection H as ->. apply Permutation_app_swap_app.
  - specialize (IH i H). rewrite Permutation_app_swap_app, IH. apply Permutation_app_swap_app.
Qed.

Lemma In_set {A} (l : list A) x y : forall i, In x (set_nth i y l) -> x = y \/ In x l.
Proof.
  induction l as [|z l IH]; intros [|i]; cbn; try tauto.
  - intros [->|H]; auto.
  - intros [->|H]; auto. destruct (IH i H); auto.
Qed.

Lemma nth_set_self {A} (l : list A) y : forall i x, nth_error l i = Some x -> nth_error (set_nth i y l) i = Some y.
Proof. induction l as [|z l IH]; intros [|i] x H; try discriminate; cbn in *; eauto. Qed.

Lemma firstn_set {A} (l : list A) x : forall i, (i < List.length l)%nat ->
  firstn (S i) (set_nth i x l) = firstn i l ++ [x].
Proof.
  induction l as [|y l IH]; intros [|i] H; cbn in *; try lia; auto.
  f_equal. apply IH. lia.
Qed.
Lemma firstn_set_same {A} (l : list A) x : forall i, firstn i (set_nth i x l) = firstn i l.
Proof. induction l as [|y l IH]; intros [|i]; cbn; auto. f_equal. apply IH. Qed.

Lemma nth_skipn {A} (l : list A) d : forall i, nth_error l i = Some d -> skipn i l = d :: skipn (S i) l.
Proof. induction l as [|y l IH]; intros [|i] H; try discriminate; cbn in *; [now injection H as ->|auto]. Qed.
Lemma nth_skipn_none {A} (l : list A) i : nth_error l i = None -> skipn i l = [].
Proof. intros H. apply nth_error_None in H. now apply skipn_all2. Qed.

Section C.
Context {D : Type} (c : genConf) (on : bool) (HC : conf_ok c).
Implicit Types s : state D.
Notation W := (c_workers c).

(** ** what is under way *)

Definition busyw (w : wpc D) : nat := match w with WGot _ | WMarshal _ | WCall _ | WChk | WAck => 1 | _ => 0 end.
Definition alive (w : wpc D) : Prop := match w with WExit | WExitSend | WGone => False | _ => True end.
Definition owes (r : rpc) : nat :=
  match r with
  | RChk1 _ | RRecv1 _ => 1
  | RLoopS _ j | RSendN _ j => j
  | RLoopR _ j | RRecvN _ j => W - j
  | _ => 0
  end.
Definition bounds (r : rpc) : Prop :=
  match r with
  | RLoopS _ j | RLoopR _ j => j <= W
  | RSendN _ j | RRecvN _ j => j < W
  | RExit | RGone => False
  | _ => True
  end%nat.

Record open_inv s : Prop := {
  oi_open : s_closed s = false;
  oi_len : List.length (s_workers s) = W;
  oi_packet : List.length (s_packet s) = c_packet c;
  oi_index : (s_index s < c_packet c)%nat;
  oi_live : forall w, In w (s_workers s) -> alive w;
  oi_next : match s_next s with NExit | NGone => False | _ => True end;
  oi_bounds : bounds (s_run s);
  oi_count : (List.length (s_sliceCh s) + cnt busyw (s_workers s) + s_waitCh s = owes (s_run s))%nat }.

Lemma start_inv devs : open_inv (start c devs).
Proof.
  destruct HC as (H1 & H2). constructor; cbn; auto.
  - apply repeat_length.
  - apply repeat_length.
  - intros w Hw. apply repeat_spec in Hw as ->. exact I.
  - rewrite cnt_repeat. cbn. lia.
Qed.

Lemma closed_stays l s s' : step c on l s s' -> s_closed s = true -> s_closed s' = true.
Proof.
  destruct 1 as [i w w' s s' Hi Hw|s s' Hr|s s' Hn|s Hr|s|s l Hm]; intros Hc; cbn; auto.
  - destruct Hw; cbn; auto.
  - destruct Hr; cbn; auto; unfold flushed; destruct k; auto.
  - destruct Hn; cbn; auto.
Qed.

Lemma open_inv_int s s' : open_inv s -> step c on LInt s s' -> open_inv s'.
Proof.
  destruct HC as (HW & HP).
  intros [I1 I2 I3 I4 I5 I6 I7 I8] H. inversion H as [i w w' s0 s1 Hi Hw|s0 s1 Hr|s0 s1 Hn| | |]; subst.
  - (* a worker *)
    pose proof (cnt_set busyw (s_workers s) w w' i Hi) as Q. pose proof (I5 w (nth_error_In _ _ Hi)) as Aw.
    assert (Al : alive w' -> forall v, In v (set_nth i w' (s_workers s)) -> alive v).
    { intros A' v Hv. apply In_set in Hv as [->|Hv]; auto. }
    destruct Hw; try congruence; try contradiction; cbn in *; constructor; cbn; rewrite ?set_nth_length; auto; try (apply Al; exact I); try lia.
    rewrite H0 in I8. cbn in *. lia.
  - (* the run loop *)
    remember (s_run s) as r eqn:Er in Hr. rewrite <- Er in I7, I8.
    destruct Hr; try congruence; cbn in I7, I8; try contradiction;
      try (constructor; cbn; rewrite ?set_nth_length, ?map_length, ?app_length; auto; cbn; try lia; fail).
    + (* the packet has room *)
      apply Nat.eqb_neq in H1. constructor; cbn; rewrite ?set_nth_length; auto; lia.
    + (* recv1 *) destruct k; constructor; cbn; auto; lia.
    + apply Nat.ltb_ge in H0. constructor; cbn; auto; lia.
    + apply Nat.ltb_lt in H0. constructor; cbn; auto; lia.
    + apply Nat.ltb_ge in H0. destruct k; constructor; cbn; auto; lia.
    + apply Nat.ltb_lt in H0. constructor; cbn; auto; lia.
  - (* the OnNext loop *)
    remember (s_next s) as n eqn:En in Hn. rewrite <- En in I6.
    destruct Hn; try congruence; try contradiction; constructor; cbn; auto.
Qed.

Lemma open_inv_step l s s' : open_inv s -> step c on l s s' -> s_closed s' = false -> open_inv s'.
Proof.
  intros I H Hc. destruct l.
  - eapply open_inv_int; eassumption.
  - inversion H; subst. destruct I as [I1 I2 I3 I4 I5 I6 I7 I8]. constructor; cbn; auto. rewrite H0 in I8. exact I8.
  - inversion H; subst. discriminate.
  - inversion H; subst. destruct I as [I1 I2 I3 I4 I5 I6 I7 I8]. constructor; cbn; auto.
Qed.

Lemma steps_inv ls s s' : steps c on ls s s' -> open_inv s -> s_closed s' = false -> open_inv s'.
Proof.
  induction 1 as [s|l ls s1 s2 s3 H1 H2 IH]; intros I Hc; auto.
  apply IH; auto. eapply open_inv_step; eauto.
  destruct (s_closed s2) eqn:E; auto. exfalso.
  assert (s_closed s3 = true); [|congruence]. clear - H2 E. induction H2 as [|l ls s1 s2 s3 H1 H2 IH]; auto.
  apply IH. eapply closed_stays; eauto.
Qed.

Lemma reachable_inv s : reachable c on s -> s_closed s = false -> open_inv s.
Proof. intros (devs & ls & H) Hc. eapply steps_inv; eauto. apply start_inv. Qed.

Lemma reachable_step l s s' : reachable c on s -> step c on l s s' -> reachable c on s'.
Proof.
  intros (devs & ls & H) Hs. exists devs, (ls ++ [l]). revert H. generalize (start c devs) as s0.
  induction ls as [|l0 ls IH]; intros s0 H; inversion H; subst; cbn.
  - econstructor; [exact Hs|constructor].
  - econstructor; [eassumption|]. now apply IH.
Qed.

Lemma idle s : open_inv s -> owes (s_run s) = 0%nat ->
  s_sliceCh s = [] /\ s_waitCh s = 0%nat /\ forall w, In w (s_workers s) -> w = WSelect.
Proof.
  intros I H. pose proof (oi_count s I) as Q. rewrite H in Q. repeat split.
  - destruct (s_sliceCh s); [reflexivity|]. cbn in Q. lia.
  - lia.
  - intros w Hw. pose proof (cnt_In busyw _ w Hw). pose proof (oi_live s I w Hw) as A.
    destruct w; cbn in *; try lia; try contradiction. reflexivity.
Qed.

(** ** C52: no torn packets *)

Lemma C52_untouched_proof l s s' x e : reachable c on s -> s_closed s = false -> step c on l s s' -> to_serialise s x ->
  (fst x <= e < snd x)%nat -> nth_error (s_packet s') e = nth_error (s_packet s) e.
Proof.
  intros Hr Hc Hs Hx _. pose proof (reachable_inv s Hr Hc) as I.
  assert (K : owes (s_run s) <> 0%nat).
  { intros E. destruct (idle s I E) as (E1 & E2 & E3). destruct Hx as [Hx|[Hx|Hx]].
    - rewrite E1 in Hx. destruct Hx.
    - apply E3 in Hx. discriminate.
    - apply E3 in Hx. discriminate. }
  inversion Hs as [i w w' s0 s1 Hi Hw|s0 s1 Hrun|s0 s1 Hn| | |]; subst; auto.
  - destruct Hw; auto.
  - remember (s_run s) as r eqn:Er in Hrun. rewrite <- Er in K.
    destruct Hrun; cbn in K; try contradiction; auto; unfold flushed; destruct k; auto.
  - destruct Hn; auto.
Qed.

(** ** C50, C52: each slice once *)

Definition pk (p : list (option D)) (x : nat * nat) : list (list (option D)) := if is_zero x then [] else [sub_list p x].
Definition pend (p : list (option D)) (w : wpc D) : list (list (option D)) :=
  match w with WGot x => pk p x | WMarshal x => [sub_list p x] | WCall q => [q] | _ => [] end.
Definition sends s : list (nat * nat) :=
  match s_run s with
  | RFlush _ => flush_slices c (s_index s)
  | RSend1 _ => [(0, s_index s)%nat]
  | RLoopS _ j | RSendN _ j => map (slice_no c (s_index s)) (seq j (W - j))
  | _ => []
  end.
Definition in_flight s : list (list (option D)) :=
  flat_map (pk (s_packet s)) (sends s) ++ flat_map (pk (s_packet s)) (s_sliceCh s) ++ flat_map (pend (s_packet s)) (s_workers s).
Definition caller_of (r : rpc) : option caller :=
  match r with
  | RFlush k | RSend1 k | RChk1 k | RRecv1 k | RLoopS k _ | RSendN k _ | RLoopR k _ | RRecvN k _ => Some k
  | _ => None
  end.
Definition rest (buf : list (option D)) (devs : list D) : list (list (option D)) :=
  List.concat (map (flush_packets c) (fill (c_packet c) buf (map Some devs))).
Definition to_come s : list (list (option D)) :=
  match s_run s with
  | RChk => rest [] (s_devs s)
  | RFill i => rest (filled s) (skipn i (s_devs s))
  | r => match caller_of r with Some (Mid i) => rest [] (skipn (S i) (s_devs s)) | _ => [] end
  end.

Lemma work_perm w w' s s' i : s_closed s = false -> nth_error (s_workers s) i = Some w -> work c s w w' s' ->
  let s1 := set_workers s' (set_nth i w' (s_workers s')) in
  Permutation (s_out s1 ++ in_flight s1) (s_out s ++ in_flight s).
Proof.
  intros Hc Hi Hw. cbn zeta. unfold in_flight.
  pose proof (flat_set (pend (s_packet s)) (s_workers s) w w' i Hi) as Q.
  assert (K : s_packet s' = s_packet s /\ s_workers s' = s_workers s /\ s_run s' = s_run s /\ s_index s' = s_index s) by (destruct Hw; cbn; auto).
  destruct K as (K1 & K2 & K3 & K4).
  assert (Ks : sends (set_workers s' (set_nth i w' (s_workers s'))) = sends s) by (unfold sends; cbn; rewrite K3, K4; reflexivity).
  rewrite Ks. cbn. rewrite K1, K2. set (a := flat_map (pk (s_packet s)) (sends s)).
  set (f := flat_map (pend (s_packet s)) (set_nth i w' (s_workers s))) in *.
  set (g := flat_map (pend (s_packet s)) (s_workers s)) in *.
  destruct Hw; try congruence; cbn in *; try (rewrite Q; reflexivity).
  - rewrite H. cbn. rewrite Q. do 2 apply Permutation_app_head. rewrite <- app_assoc. apply Permutation_app_swap_app.
  - rewrite <- Q. unfold pk. rewrite H0. reflexivity.
  - unfold pk in Q. rewrite H0 in Q. cbn in Q. apply Permutation_cons_inv in Q. now rewrite Q.
  - apply Permutation_cons_inv in Q. now rewrite Q.
  - rewrite <- app_assoc. apply Permutation_app_head. rewrite <- Q. cbn.
    rewrite Permutation_middle. apply Permutation_app_head. apply Permutation_middle.
Qed.

Lemma next_perm s s' : next on s (s_next s) s' -> s_out s' = s_out s /\ in_flight s' = in_flight s /\ to_come s' = to_come s.
Proof. intros H. destruct H; repeat split. Qed.

Lemma run_flush_perm s s' : open_inv s -> in_flush (s_run s) = true -> run c s (s_run s) s' ->
  s_out s' = s_out s /\ Permutation (in_flight s') (in_flight s) /\ to_come s' = to_come s.
Proof.
  intros I Hf Hr. pose proof (oi_open s I) as Hc. pose proof (oi_bounds s I) as Hb.
  unfold in_flight, sends, to_come. remember (s_run s) as r eqn:Er in Hr. rewrite <- Er. rewrite <- Er in Hf, Hb.
  destruct Hr; try discriminate; try congruence.
  - cbn. unfold flush_slices. rewrite H. auto.
  - cbn. unfold flush_slices. rewrite H, Nat.sub_0_r. auto.
  - cbn. split; [reflexivity|]. split; [|reflexivity]. rewrite flat_map_app. cbn. rewrite !app_nil_r.
    rewrite <- app_assoc. apply Permutation_app_swap_app.
  - cbn. auto.
  - destruct k; cbn; auto.
  - apply Nat.ltb_ge in H. cbn in *. replace (W - j)%nat with 0%nat by lia. cbn. auto.
  - cbn. auto.
  - cbn. split; [reflexivity|]. split; [|reflexivity]. cbn in Hb.
    replace (W - j)%nat with (S (W - S j))%nat by lia. cbn. rewrite flat_map_app. cbn. rewrite !app_nil_r.
    rewrite <- !app_assoc. symmetry. etransitivity; [apply Permutation_app_swap_app|].
    apply Permutation_app_head. apply Permutation_app_swap_app.
  - destruct k; cbn; auto.
  - cbn. auto.
  - cbn. auto.
Qed.

Lemma in_flight_idle s : open_inv s -> owes (s_run s) = 0%nat -> sends s = [] -> in_flight s = [].
Proof.
  intros I H E. destruct (idle s I H) as (E1 & _ & E2). unfold in_flight. rewrite E, E1. cbn.
  assert (forall l, (forall w, In w l -> w = WSelect) -> flat_map (pend (s_packet s)) l = []) as F; [|now apply F].
  induction l as [|w l IH]; intros Hl; [reflexivity|]. cbn. rewrite (Hl w (or_introl eq_refl)). cbn. apply IH. intros v Hv. apply Hl. now right.
Qed.

Lemma sub_firstn {A} (l : list A) n x : (snd x <= n)%nat -> sub_list (firstn n l) x = sub_list l x.
Proof.
  unfold sub_list. intros H. destruct x as [a b]. cbn in *. rewrite skipn_firstn_comm, firstn_firstn.
  f_equal. lia.
Qed.

Lemma tiles_below a l b : tiles a l b -> forall x, In x l -> (snd x <= b)%nat.
Proof.
  induction 1 as [a|a b d l H1 H2 IH]; intros x Hx; [destruct Hx|]. destruct Hx as [<-|Hx]; [|auto].
  cbn. eapply tiles_le; eassumption.
Qed.

Lemma flush_pk (p : list (option D)) n : (n <= List.length p)%nat ->
  flat_map (pk p) (flush_slices c n) = flush_packets c (firstn n p).
Proof.
  intros H. unfold flush_packets. rewrite firstn_length_le by exact H.
  pose proof (tiles_below _ _ _ (C49_tiles c n (proj1 HC))) as B.
  induction (flush_slices c n) as [|x l IH]; [reflexivity|]. cbn. unfold pk at 1. destruct (is_zero x); cbn.
  - apply IH. intros y Hy. apply B. now right.
  - f_equal; [|apply IH; intros y Hy; apply B; now right]. symmetry. apply sub_firstn. apply B. now left.
Qed.

Lemma run_perm s s' : open_inv s -> run c s (s_run s) s' ->
  s_out s' = s_out s /\ Permutation (in_flight s' ++ to_come s') (in_flight s ++ to_come s).
Proof.
  intros I Hr. destruct (in_flush (s_run s)) eqn:Hf.
  { destruct (run_flush_perm s s' I Hf Hr) as (A1 & A2 & A3). split; [exact A1|]. now rewrite A2, A3. }
  pose proof (oi_open s I) as Hc. pose proof (oi_packet s I) as Lp. pose proof (oi_index s I) as Li.
  assert (N : s_run s <> RNotify -> in_flight s = []).
  { intros _. apply in_flight_idle; auto; unfold sends; destruct (s_run s); try discriminate; reflexivity. }
  assert (I' : open_inv s') by (eapply open_inv_int; [exact I|apply st_run; exact Hr]).
  assert (N' : owes (s_run s') = 0%nat -> sends s' = [] -> in_flight s' = []) by (intros; now apply in_flight_idle).
  split; [destruct Hr; auto; try discriminate; unfold flushed; destruct k; reflexivity|].
  remember (s_run s) as r eqn:Er in Hr.
  destruct Hr; try congruence; try (rewrite <- Er in Hf; discriminate).
  - rewrite N, N' by (cbn; congruence). unfold to_come. rewrite <- Er. cbn. reflexivity.
  - rewrite N, N' by (cbn; congruence). unfold to_come, filled. rewrite <- Er. cbn -[firstn].
    rewrite firstn_set by lia. rewrite (nth_skipn _ _ _ H). unfold rest. cbn [map fill].
    rewrite firstn_length_le by lia. rewrite H0. reflexivity.
  - assert (Ei : in_flight (at_fill s (set_nth (s_index s) (Some d) (s_packet s)) (s_index s) (RFlush (Mid i))) =
                 flush_packets c (filled s)).
    { unfold in_flight. cbn. rewrite flush_pk by (rewrite set_nth_length; lia). rewrite firstn_set_same.
      destruct (idle s I) as (J1 & _ & J2); [rewrite <- Er; reflexivity|]. rewrite J1. cbn.
      assert (forall l p, (forall w, In w l -> w = WSelect) -> flat_map (pend p) l = []) as F.
      { induction l as [|w l IH]; intros p Hl; [reflexivity|]. cbn. rewrite (Hl w (or_introl eq_refl)). cbn. apply IH. intros v Hv. apply Hl. now right. }
      rewrite F by exact J2. now rewrite !app_nil_r. }
    rewrite Ei, N by congruence. unfold to_come. rewrite <- Er. cbn. rewrite (nth_skipn _ _ _ H). unfold rest, filled. cbn [map fill].
    rewrite firstn_length_le by lia. rewrite H0. reflexivity.
  - assert (Ei : in_flight (at_run s (RFlush Final)) = flush_packets c (filled s)).
    { unfold in_flight. cbn. rewrite flush_pk by lia.
      destruct (idle s I) as (J1 & _ & J2); [rewrite <- Er; reflexivity|]. rewrite J1. cbn.
      assert (forall l p, (forall w, In w l -> w = WSelect) -> flat_map (pend p) l = []) as F.
      { induction l as [|w l IH]; intros p Hl; [reflexivity|]. cbn. rewrite (Hl w (or_introl eq_refl)). cbn. apply IH. intros v Hv. apply Hl. now right. }
      rewrite F by exact J2. now rewrite !app_nil_r. }
    rewrite Ei, N by congruence. unfold to_come. rewrite <- Er. cbn. rewrite (nth_skipn_none _ _ H). unfold rest. cbn.
    reflexivity.
  - rewrite N, N' by (cbn; congruence). unfold to_come. rewrite <- Er. reflexivity.
  - rewrite N' by reflexivity.
    assert (in_flight s = []) as ->. { apply in_flight_idle; auto; unfold sends; rewrite <- Er; reflexivity. }
    unfold to_come. rewrite <- Er. reflexivity.
  - pose proof (oi_bounds s I) as B. rewrite <- Er in B. destruct B.
Qed.

Lemma int_perm s s' : open_inv s -> step c on LInt s s' ->
  Permutation (s_out s' ++ in_flight s' ++ to_come s') (s_out s ++ in_flight s ++ to_come s).
Proof.
  intros I H. inversion H as [i w w' s0 s1 Hi Hw|s0 s1 Hr|s0 s1 Hn| | |]; subst.
  - pose proof (work_perm w w' s s1 i (oi_open s I) Hi Hw) as Q. cbn zeta in Q.
    assert (E : to_come (set_workers s1 (set_nth i w' (s_workers s1))) = to_come s) by (destruct Hw; reflexivity).
    rewrite E, !app_assoc, Q. reflexivity.
  - destruct (run_perm s s' I Hr) as (A1 & A2). now rewrite A1, A2.
  - destruct (next_perm s s' Hn) as (A1 & A2 & A3). now rewrite A1, A2, A3.
Qed.

Lemma ints_perm n s s' : steps c on (repeat LInt n) s s' -> open_inv s ->
  open_inv s' /\ Permutation (s_out s' ++ in_flight s' ++ to_come s') (s_out s ++ in_flight s ++ to_come s).
Proof.
  revert s. induction n as [|n IH]; intros s H I; cbn in H; inversion H; subst.
  - auto.
  - match goal with A : step _ _ _ s ?x, B : steps _ _ _ ?x s' |- _ =>
      destruct (IH x B (open_inv_int _ _ I A)) as (I' & Q); split; [exact I'|]; rewrite Q; now apply int_perm end.
Qed.

Lemma C52_tick_proof n s s' : reachable c on s -> s_closed s = false -> s_run s = RChk ->
  steps c on (repeat LInt n) s s' -> s_run s' = RSelect ->
  Permutation (s_out s') (s_out s ++ tick_packets c (map Some (s_devs s))).
Proof.
  intros Hr Hc Er H Er'. pose proof (reachable_inv s Hr Hc) as I. destruct (ints_perm n s s' H I) as (I' & Q).
  rewrite (in_flight_idle s), (in_flight_idle s') in Q; auto;
    try (unfold sends; rewrite ?Er, ?Er'; reflexivity); try (rewrite ?Er, ?Er'; reflexivity).
  unfold to_come in Q. rewrite Er, Er' in Q. cbn in Q. rewrite app_nil_r in Q. exact Q.
Qed.

Lemma flush_step_perm l s s' : open_inv s -> in_flush (s_run s) = true -> l <> LClose -> step c on l s s' ->
  Permutation (s_out s' ++ in_flight s') (s_out s ++ in_flight s).
Proof.
  intros I Hf Hl H. inversion H as [i w w' s0 s1 Hi Hw|s0 s1 Hr|s0 s1 Hn|s0 Hr|s0|s0 l0 Hm]; subst.
  - exact (work_perm w w' s s1 i (oi_open s I) Hi Hw).
  - destruct (run_flush_perm s s' I Hf Hr) as (A1 & A2 & _). now rewrite A1, A2.
  - destruct (next_perm s s' Hn) as (A1 & A2 & _). now rewrite A1, A2.
  - rewrite Hr in Hf. discriminate.
  - congruence.
  - reflexivity.
Qed.

Lemma not_close_open l s s' : l <> LClose -> step c on l s s' -> s_closed s = false -> s_closed s' = false.
Proof.
  intros Hl H Hc. destruct H as [i w w' s s' Hi Hw|s s' Hr|s s' Hn|s Hr|s|s l Hm]; cbn; auto; try congruence.
  - destruct Hw; cbn; auto.
  - destruct Hr; cbn; auto; unfold flushed; destruct k; auto.
  - destruct Hn; cbn; auto.
Qed.

Lemma flush_run_perm s s' : flush_run c on s s' -> open_inv s ->
  open_inv s' /\ in_flush (s_run s') = false /\ Permutation (s_out s' ++ in_flight s') (s_out s ++ in_flight s).
Proof.
  induction 1 as [l s s' Hf Hl H Hf'|l s s1 s' Hf Hl H Hf' Hr IH]; intros I;
    pose proof (open_inv_step l _ _ I H (not_close_open _ _ _ Hl H (oi_open _ I))) as I1.
  - split; [exact I1|]. split; [exact Hf'|]. eapply flush_step_perm; eauto.
  - destruct (IH I1) as (I2 & F & Q). split; [exact I2|]. split; [exact F|]. rewrite Q. eapply flush_step_perm; eauto.
Qed.

Lemma C52_flush_proof s s' k : reachable c on s -> s_closed s = false -> s_run s = RFlush k -> flush_run c on s s' ->
  Permutation (s_out s') (s_out s ++ flush_packets c (filled s)).
Proof.
  intros Hr Hc Er H. pose proof (reachable_inv s Hr Hc) as I. destruct (flush_run_perm s s' H I) as (I' & F & Q).
  assert (E' : in_flight s' = []).
  { apply in_flight_idle; auto; unfold sends; destruct (s_run s'); try discriminate; try reflexivity. }
  rewrite E', app_nil_r in Q. rewrite Q. apply Permutation_app_head.
  unfold in_flight, sends. rewrite Er. pose proof (oi_packet s I). pose proof (oi_index s I). rewrite flush_pk by lia.
  destruct (idle s I) as (J1 & _ & J2); [rewrite Er; reflexivity|]. rewrite J1. cbn.
  assert (forall l p, (forall w, In w l -> w = WSelect) -> flat_map (pend p) l = []) as Fl.
  { induction l as [|w l IH]; intros p Hl; [reflexivity|]. cbn. rewrite (Hl w (or_introl eq_refl)). cbn. apply IH. intros v Hv. apply Hl. now right. }
  rewrite Fl by exact J2. now rewrite app_nil_r.
Qed.
End C.
