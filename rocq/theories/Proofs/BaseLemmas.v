From Coq Require Import Lia.
From Verif.Model Require Import Base.
From Verif.Spec Require Import ListSpec.

Lemma bind_Ret {A B} (m : res A) (k : A -> res B) b :
  bind m k = Ret b <-> exists a, m = Ret a /\ k a = Ret b.
Proof.
  destruct m as [a| |]; cbn; split; intros H.
  - now exists a.
  - now destruct H as (a' & [= ->] & H).
  - discriminate.
  - now destruct H as (? & ? & _).
  - discriminate.
  - now destruct H as (? & ? & _).
Qed.

Lemma zlen_nonneg {A} (l : list A) : 0 <= zlen l.
Proof. unfold zlen; lia. Qed.

Lemma zlen_app {A} (l k : list A) : zlen (l ++ k) = zlen l + zlen k.
Proof. unfold zlen; rewrite app_length; lia. Qed.

Lemma zlen_cons {A} (x : A) l : zlen (x :: l) = 1 + zlen l.
Proof. unfold zlen; cbn [List.length]; lia. Qed.

Lemma zlen_nil {A} : zlen (@nil A) = 0.
Proof. reflexivity. Qed.

Lemma zlen_map {A B} (f : A -> B) l : zlen (map f l) = zlen l.
Proof. unfold zlen; now rewrite map_length. Qed.

Lemma zget_at_pos {A} (l : list A) i x : zget l i = Some x <-> at_pos l i x.
Proof.
  unfold zget, at_pos. destruct (i <? 0)%Z eqn:E.
  - apply Z.ltb_lt in E. split; [discriminate|]. intros [? _]; lia.
  - apply Z.ltb_ge in E. tauto.
Qed.

Lemma zget_range {A} (l : list A) i : 0 <= i < zlen l -> exists x, zget l i = Some x.
Proof.
  intros [H1 H2]. unfold zget. destruct (i <? 0)%Z eqn:E; [apply Z.ltb_lt in E; lia|].
  destruct (nth_error l (Z.to_nat i)) eqn:F; eauto.
  apply nth_error_None in F. unfold zlen in H2. lia.
Qed.

Lemma zget_Some_range {A} (l : list A) i x : zget l i = Some x -> 0 <= i < zlen l.
Proof.
  unfold zget. destruct (i <? 0)%Z eqn:E; [discriminate|]. apply Z.ltb_ge in E. intros H.
  assert (Z.to_nat i < List.length l)%nat by (apply nth_error_Some; congruence).
  unfold zlen. lia.
Qed.

Lemma zget_None {A} (l : list A) i : zget l i = None <-> ~ (0 <= i < zlen l).
Proof.
  split.
  - intros H Hr. destruct (zget_range l i Hr). congruence.
  - intros H. destruct (zget l i) eqn:E; [|reflexivity]. apply zget_Some_range in E. tauto.
Qed.

Lemma zget_map {A B} (f : A -> B) l i : zget (map f l) i = option_map f (zget l i).
Proof. unfold zget. destruct (i <? 0)%Z; [reflexivity|]. apply nth_error_map. Qed.

Lemma zget_In {A} (l : list A) i x : zget l i = Some x -> In x l.
Proof. unfold zget. destruct (i <? 0)%Z; [discriminate|]. apply nth_error_In. Qed.

Lemma find_index_from_spec {A} (p : A -> bool) l i :
  match find_index_from p l i with
  | Some j => exists pre x post, l = pre ++ x :: post /\ p x = true /\
                Forall (fun y => p y = false) pre /\ j = (i + List.length pre)%nat
  | None => Forall (fun y => p y = false) l
  end.
Proof.
  revert i. induction l as [|x l IH]; intros i; cbn.
  - constructor.
  - destruct (p x) eqn:E.
    + exists [], x, l. cbn. repeat split; auto; try lia.
    + specialize (IH (S i)). destruct (find_index_from p l (S i)) as [j|].
      * destruct IH as (pre & y & post & -> & Hy & Hp & ->).
        exists (x :: pre), y, post. cbn. repeat split; auto; try lia.
      * constructor; auto.
Qed.

Lemma find_index_spec {A} (p : A -> bool) l :
  match find_index p l with
  | Some j => exists pre x post, l = pre ++ x :: post /\ p x = true /\
                Forall (fun y => p y = false) pre /\ j = List.length pre
  | None => Forall (fun y => p y = false) l
  end.
Proof. exact (find_index_from_spec p l 0). Qed.

Lemma find_spec {A} (p : A -> bool) l :
  match find p l with
  | Some x => exists pre post, l = pre ++ x :: post /\ p x = true /\
                Forall (fun y => p y = false) pre
  | None => Forall (fun y => p y = false) l
  end.
Proof.
  induction l as [|x l IH]; cbn.
  - constructor.
  - destruct (p x) eqn:E.
    + exists [], l. auto.
    + destruct (find p l) as [y|].
      * destruct IH as (pre & post & -> & Hy & Hp). exists (x :: pre), post. cbn. auto.
      * constructor; auto.
Qed.

Lemma del_nth_app {A} (pre : list A) x post :
  del_nth (List.length pre) (pre ++ x :: post) = pre ++ post.
Proof. induction pre; cbn; [reflexivity|]. now rewrite IHpre. Qed.

Lemma set_nth_app {A} (pre : list A) x y post :
  set_nth (List.length pre) y (pre ++ x :: post) = pre ++ y :: post.
Proof. induction pre; cbn; [reflexivity|]. now rewrite IHpre. Qed.

Lemma set_nth_length {A} n (x : A) l : List.length (set_nth n x l) = List.length l.
Proof. revert n; induction l; intros [|n]; cbn; auto. Qed.

Lemma zlen_set_nth {A} n (x : A) l : zlen (set_nth n x l) = zlen l.
Proof. unfold zlen. now rewrite set_nth_length. Qed.

Lemma nth_error_split' {A} (l : list A) n x :
  nth_error l n = Some x -> exists pre post, l = pre ++ x :: post /\ n = List.length pre.
Proof. intros H. destruct (nth_error_split l n H) as (p & q & -> & <-). eauto. Qed.

Lemma nth_error_app_mid {A} (pre : list A) x post :
  nth_error (pre ++ x :: post) (List.length pre) = Some x.
Proof. rewrite nth_error_app2, Nat.sub_diag by lia. reflexivity. Qed.

Lemma mapM_Ret {A B} (f : A -> res B) (g : A -> B) l :
  (forall a, In a l -> f a = Ret (g a)) -> mapM f l = Ret (map g l).
Proof.
  induction l as [|x l IH]; intros H; cbn; [reflexivity|].
  rewrite H by now left. cbn. rewrite IH by (intros; apply H; now right). reflexivity.
Qed.

Lemma mapM_Ret_inv {A B} (f : A -> res B) l ys :
  mapM f l = Ret ys -> Forall2 (fun a b => f a = Ret b) l ys.
Proof.
  revert ys. induction l as [|x l IH]; cbn; intros ys H.
  - injection H as <-. constructor.
  - apply bind_Ret in H as (y & Hy & H). apply bind_Ret in H as (zs & Hz & H).
    injection H as <-. constructor; auto.
Qed.

Lemma slen_nonneg s : 0 <= slen s.
Proof. unfold slen; lia. Qed.

Lemma eqb_str_false s t : String.eqb s t = false <-> s <> t.
Proof. apply String.eqb_neq. Qed.
