(** An encoding of property maps that obeys [json_law]: the law is satisfiable. *)
From stdpp Require Import gmap strings countable.
From Coq Require Import Permutation Ascii.
From Verif.Model Require Import Base Num Utf8 PropMap WireMsgs.
From Verif.Spec Require Import WireSpec SnapSpec.

Fixpoint digits (p : positive) : string :=
  match p with xH => String "1"%char "" | xO q => String "0"%char (digits q) | xI q => String "1"%char (digits q) end.
Fixpoint undigits (s : string) : positive :=
  match s with
  | String c "" => xH
  | String c r => if Ascii.eqb c "0"%char then xO (undigits r) else xI (undigits r)
  | "" => xH
  end.
Lemma digits_nonempty p : exists c s, digits p = String c s.
Proof. destruct p; cbn; eauto. Qed.
Lemma undigits_digits p : undigits (digits p) = p.
Proof.
  induction p as [p IH|p IH|]; cbn [digits undigits]; [| |reflexivity];
    destruct (digits_nonempty p) as (c & s & E); rewrite E in *; cbn in *; now rewrite IH.
Qed.

Section Json.
Context {T : Type} {N : Num T} {B : Bits64 T} (HB : bits_law T).

Fixpoint enc_val (v : gval T) : gen_tree (string + (bool + Z)) :=
  match v with
  | GNil => GenNode 0 []
  | GBool b => GenLeaf (inr (inl b))
  | GInt z => GenNode 5 [GenLeaf (inr (inr z))]
  | GFloat x => GenLeaf (inr (inr (to_bits x)))
  | GStr s => GenLeaf (inl s)
  | GArr l => GenNode 1 (map enc_val l)
  | GObj l => GenNode 2 (map (fun kv => GenNode 3 [GenLeaf (inl kv.1); enc_val kv.2]) l)
  | GOther => GenNode 4 []
  end.
Fixpoint dec_val (t : gen_tree (string + (bool + Z))) : gval T :=
  match t with
  | GenNode 0 _ => GNil
  | GenLeaf (inr (inl b)) => GBool b
  | GenNode 5 [GenLeaf (inr (inr z))] => GInt z
  | GenLeaf (inr (inr z)) => GFloat (of_bits z)
  | GenLeaf (inl s) => GStr s
  | GenNode 1 l => GArr (map dec_val l)
  | GenNode 2 l => GObj (map (fun t => match t with
        | GenNode _ [GenLeaf (inl k); v] => (k, dec_val v) | _ => (""%string, GNil) end) l)
  | _ => GOther
  end.

Lemma gval_ind' (P : gval T -> Prop) : P GNil -> (forall b, P (GBool b)) -> (forall z, P (GInt z)) ->
  (forall x, P (GFloat x)) -> (forall s, P (GStr s)) -> (forall l, Forall P l -> P (GArr l)) ->
  (forall l, Forall (fun kv => P kv.2) l -> P (GObj l)) -> P GOther -> forall v, P v.
Proof.
  intros H0 H1 H2 H3 H4 H5 H6 H7. fix go 1. intros v. destruct v as [|b|z|x|s|l|l|]; [exact H0|apply H1|apply H2|apply H3|apply H4| | |exact H7].
  - apply H5. induction l as [|y l IHl]; constructor; [apply go|exact IHl].
  - apply H6. induction l as [|y l IHl]; constructor; [apply go|exact IHl].
Qed.

Lemma dec_enc_val v : dec_val (enc_val v) = v.
Proof.
  induction v as [|b|z|x|s|l IH|l IH|] using gval_ind'; cbn; try reflexivity.
  - f_equal. apply HB.
  - f_equal. rewrite map_map. induction IH; cbn; congruence.
  - f_equal. rewrite map_map. cbn. induction IH as [|[k v] l E _ IHl]; cbn in *; [reflexivity|]. rewrite E, IHl. reflexivity.
Qed.

Global Instance gval_eq_dec : EqDecision (gval T).
Proof using HB.
  intros v w. destruct (decide (enc_val v = enc_val w)) as [E|E].
  - left. rewrite <- (dec_enc_val v), <- (dec_enc_val w). now rewrite E.
  - right. now intros ->.
Defined.
Global Instance gval_countable : Countable (gval T).
Proof using HB. exact (inj_countable' enc_val dec_val dec_enc_val). Defined.

Definition is_finite (x : T) : bool := ((x - x) =? (x - x))%num.

(** what decoding the encoding of a value gives, None for values without JSON text *)
Fixpoint norm (v : gval T) : option (gval T) :=
  match v with
  | GNil => Some GNil
  | GBool b => Some (GBool b)
  | GInt z => Some (GFloat (fofZ z))
  | GFloat x => if is_finite x then Some (GFloat x) else None
  | GStr s => Some (GStr s)
  | GArr l => option_map GArr ((fix go l := match l with [] => Some [] | v :: l =>
      match norm v, go l with Some v', Some l' => Some (v' :: l') | _, _ => None end end) l)
  | GObj l => option_map GObj ((fix go l := match l with [] => Some [] | (k, v) :: l =>
      match norm v, go l with Some v', Some l' => Some ((k, v') :: l') | _, _ => None end end) l)
  | GOther => None
  end.

Lemma norm_of v : forall v', json_of v v' -> exists w, norm v = Some w /\ json_of v w.
Proof.
  induction v as [|b|z|x|s|l IH|l IH|] using gval_ind'; intros v' H; inversion H; subst; cbn.
  - eexists; split; [reflexivity|constructor].
  - eexists; split; [reflexivity|constructor].
  - eexists; split; [reflexivity|constructor].
  - match goal with K : finite_num _ |- _ => pose proof K as K'; unfold finite_num in K'; unfold is_finite; rewrite K' end.
    eexists; split; [reflexivity|now constructor].
  - eexists; split; [reflexivity|now constructor].
  - match goal with K : Forall2 json_of _ _ |- _ => rename K into HF end. clear H.
    assert (K : exists w, (fix go l := match l with [] => Some [] | v :: l =>
      match norm v, go l with Some v', Some l' => Some (v' :: l') | _, _ => None end end) l = Some w /\ Forall2 json_of l w).
    { induction HF; [eexists; split; [reflexivity|constructor]|]. inversion IH; subst.
      destruct IHHF as (w & -> & Hw); [assumption|]. destruct (H2 _ H) as (x' & -> & Hx). eexists; split; [reflexivity|now constructor]. }
    destruct K as (w & -> & Hw). eexists; split; [reflexivity|]. now constructor.
  - match goal with K : Forall2 _ _ _ |- _ => rename K into HF end. clear H.
    assert (K : exists w, (fix go (l : list (string * gval T)) := match l with [] => Some [] | (k, v) :: l =>
      match norm v, go l with Some v', Some l' => Some ((k, v') :: l') | _, _ => None end end) l = Some w /\
      Forall2 (fun a b => fst a = fst b /\ utf8_valid (fst a) = true /\ json_of (snd a) (snd b)) l w).
    { clear - HF IH. induction HF as [|[k v] [k' v'] l l' (E1 & E2 & E3) _ IHl]; [eexists; split; [reflexivity|constructor]|].
      inversion IH as [|? ? Hv Hl]; subst. cbn in Hv, E1, E2, E3.
      destruct (IHl Hl) as (w & -> & Hw). destruct (Hv _ E3) as (x' & -> & Hx). eexists; split; [reflexivity|]. constructor; [cbn; auto|exact Hw]. }
    destruct K as (w & -> & Hw). eexists; split; [reflexivity|]. econstructor; [exact Hw|reflexivity].
Qed.
Lemma norm_bad v : json_bad v -> norm v = None.
Proof.
  induction v as [|b|z|x|s|l IH|l IH|] using gval_ind'; intros H; inversion H; subst; cbn; try reflexivity.
  - match goal with K : ~ finite_num _ |- _ => unfold finite_num in K; unfold is_finite; destruct (_ =? _)%num; [contradiction K; reflexivity|reflexivity] end.
  - match goal with K : In _ _, K' : json_bad _ |- _ => rename K into Hin, K' into Hb end. clear H.
    match goal with |- option_map _ ?e = None => assert (E : e = None); [|now rewrite E] end.
    induction IH as [|y l Hy _ IHl]; [destruct Hin|]. destruct Hin as [->|Hin]; [now rewrite Hy|]. rewrite IHl by exact Hin. now destruct (norm y).
  - match goal with K : In _ _, K' : json_bad _ |- _ => rename K into Hin, K' into Hb end. clear H.
    match goal with |- option_map _ ?e = None => assert (E : e = None); [|now rewrite E] end.
    induction IH as [|[k' y] l Hy _ IHl]; [destruct Hin|]. destruct Hin as [E|Hin].
    + injection E as -> ->. cbn in Hy. now rewrite Hy.
    + rewrite IHl by exact Hin. now destruct (norm y).
Qed.

Definition norm_props (p : props T) : option (props T) :=
  if decide (map_Forall (fun _ v => is_Some (norm v)) (p : gmap string (gval T)))
  then Some (omap norm (p : gmap string (gval T))) else None.

Definition ExampleJson : JsonLib T := {|
  json_marshal p := option_map (fun q : props T => digits (encode (q : gmap string (gval T)))) (norm_props p);
  json_unmarshal b := option_map Some (decode (A := gmap string (gval T)) (undigits b)) |}.

Lemma ExampleJson_law : @json_law T N ExampleJson.
Proof.
  assert (HU : forall q : gmap string (gval T), decode (A := gmap string (gval T)) (undigits (digits (encode q))) = Some q).
  { intros q. rewrite undigits_digits. apply decode_encode. }
  constructor.
  - intros p (p' & H). cbn. unfold norm_props. destruct (decide _) as [D|D].
    + eexists. exists (omap norm (p : gmap string (gval T))). split; [reflexivity|]. rewrite HU. split; [reflexivity|].
      intros k. specialize (H k). unfold props_lookup in *. rewrite lookup_omap.
      destruct ((p : gmap string (gval T)) !! k) as [v|] eqn:E; [|reflexivity].
      destruct H as (Hu & v' & _ & Hv). split; [exact Hu|]. destruct (norm_of v v' Hv) as (w & Ew & Hw). exists w. split; [exact Ew|exact Hw].
    + exfalso. apply D. intros k v E. specialize (H k). unfold props_lookup in H. rewrite E in H.
      destruct H as (_ & v' & _ & Hv). destruct (norm_of v v' Hv) as (w & Ew & _). now exists w.
  - intros p (k & v & E & Hb). cbn. unfold norm_props. destruct (decide _) as [D|D]; [|reflexivity].
    exfalso. destruct (D k v E) as [w Ew]. rewrite (norm_bad v Hb) in Ew. discriminate.
  - intros p b. cbn. destruct (norm_props p) as [q|]; [|discriminate]. intros [= <-]. split.
    + destruct (digits_nonempty (encode (q : gmap string (gval T)))) as (c & s & E). cbn in E. rewrite E. unfold slen. cbn. lia.
    + rewrite HU. cbn. eauto.
Qed.
End Json.
