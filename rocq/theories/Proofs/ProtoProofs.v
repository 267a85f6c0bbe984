(** The codec of Model/Wire.v, driven by descriptors made from the declarations, reads and writes the documents of
    Spec/ProtoSpec.v. *)
From Coq Require Import Lia.
From Verif.Model Require Import Base Utf8 Wire.
From Verif.Spec Require Import WireSpec Utf8Spec ProtoSpec.
From Verif.Proofs Require Import BaseLemmas WireProofs Utf8Proofs.
Open Scope Z_scope.

Notation bytes := (Forall is_byte).

(** ** primitives *)
Lemma varint_nonneg n l : varint n l -> 0 <= n.
Proof. induction 1; lia. Qed.
Lemma varint_nonempty n l : varint n l -> l <> [].
Proof. destruct 1; discriminate. Qed.
Lemma bytes_app l r : bytes (l ++ r) <-> bytes l /\ bytes r.
Proof. apply Forall_app. Qed.

Lemma varint_sound k : forall l n r, bytes l -> varint_dec (S k) l = Some (n, r) ->
  exists p, l = p ++ r /\ varint n p /\ (List.length p <= S k)%nat /\ n < 2 * 128 ^ Z.of_nat k.
Proof.
  induction k as [|k IH]; intros [|b l] n r Hb E; try discriminate; apply Forall_cons_iff in Hb as [Hb Hl]; unfold is_byte in Hb.
  - cbn in E. destruct (Z.ltb_spec b 128); [|discriminate]. cbn in E. destruct (Z.ltb_spec 1 b); [discriminate|]. injection E as <- <-.
    exists [b]. split; [reflexivity|]. split; [constructor; lia|]. cbn. lia.
  - remember (S k) as k1 eqn:Ek. cbn [varint_dec] in E. destruct (Z.ltb_spec b 128).
    + subst k1. cbn in E. injection E as <- <-. exists [b]. split; [reflexivity|]. split; [constructor; lia|].
      split; [cbn; lia|]. pose proof (Z.pow_pos_nonneg 128 (Z.of_nat k) ltac:(lia) ltac:(lia)). rewrite Nat2Z.inj_succ, Z.pow_succ_r by lia. lia.
    + destruct (varint_dec k1 l) as [[n' r']|] eqn:E'; [|discriminate].
      assert (En : n = b - 128 + 128 * n') by congruence. assert (Er : r = r') by congruence. subst n r.
      destruct (IH _ _ _ Hl E') as (p & -> & V & L & B). exists (b :: p). split; [reflexivity|]. split; [constructor; [lia|exact V]|].
      subst k1. split; [cbn; lia|]. rewrite Nat2Z.inj_succ, Z.pow_succ_r by lia. lia.
Qed.
Lemma varint_complete k : forall n p r, varint n p -> (List.length p <= S k)%nat -> n < 2 * 128 ^ Z.of_nat k ->
  varint_dec (S k) (p ++ r) = Some (n, r).
Proof.
  induction k as [|k IH]; intros n p r V L B.
  - destruct V as [b Hb|b n l Hb V]; [|apply varint_nonempty in V; destruct l; [congruence|cbn in L; lia]].
    cbn in *. destruct (Z.ltb_spec b 128); [|lia]. destruct (Z.ltb_spec 1 b); [lia|]. reflexivity.
  - destruct V as [b Hb|b n l Hb V].
    + remember (S k) as k1 eqn:Ek. cbn [varint_dec app]. destruct (Z.ltb_spec b 128); [|lia]. subst k1. reflexivity.
    + rewrite Nat2Z.inj_succ, Z.pow_succ_r in B by lia. remember (S k) as k1 eqn:Ek. cbn [varint_dec app]. destruct (Z.ltb_spec b 128); [lia|].
      cbn in L. rewrite (IH n l r V) by lia. reflexivity.
Qed.
Lemma dec_varint_sound l n r : bytes l -> dec_varint l = Some (n, r) -> exists p, l = p ++ r /\ uint64 n p.
Proof.
  intros Hb E. destruct (varint_sound 9 _ _ _ Hb E) as (p & -> & V & L & B). exists p. split; [reflexivity|].
  split; [exact V|]. split; [exact L|]. change (2 * 128 ^ Z.of_nat 9) with (2 ^ 64) in B. exact B.
Qed.
Lemma dec_varint_complete n p r : uint64 n p -> dec_varint (p ++ r) = Some (n, r).
Proof. intros (V & L & B). apply (varint_complete 9); [exact V|exact L|]. change (2 * 128 ^ Z.of_nat 9) with (2 ^ 64). exact B. Qed.

Lemma le_sound k : forall l n r, le_dec k l = Some (n, r) -> exists p, l = p ++ r /\ List.length p = k /\ n = fixed p.
Proof.
  induction k as [|k IH]; intros l n r E; cbn [le_dec] in E.
  - injection E as <- <-. exists []. repeat split.
  - destruct l as [|b l]; [discriminate|]. destruct (le_dec k l) as [[n' r']|] eqn:E'; [|discriminate]. injection E as <- <-.
    destruct (IH _ _ _ E') as (p & -> & <- & ->). exists (b :: p). repeat split.
Qed.
Lemma le_complete p : forall r, le_dec (List.length p) (p ++ r) = Some (fixed p, r).
Proof. induction p as [|b p IH]; intros r; cbn; [reflexivity|]. now rewrite IH. Qed.

Lemma dec_bytes_sound l b r : bytes l -> dec_bytes l = Some (b, r) -> exists len, l = len ++ b ++ r /\ uint64 (size b) len.
Proof.
  unfold dec_bytes. intros Hb. destruct (dec_varint l) as [[n q]|] eqn:E; [|discriminate].
  destruct (dec_varint_sound _ _ _ Hb E) as (p & -> & U). destruct (Z.ltb_spec (zlen q) n) as [|H]; [discriminate|]. intros [= <- <-].
  exists p. rewrite firstn_skipn. split; [reflexivity|]. replace (size (firstn (Z.to_nat n) q)) with n; [exact U|].
  unfold size. pose proof (varint_nonneg _ _ (proj1 U)). unfold zlen in H. rewrite firstn_length. lia.
Qed.
Lemma dec_bytes_complete len b r : uint64 (size b) len -> dec_bytes (len ++ b ++ r) = Some (b, r).
Proof.
  intros U. unfold dec_bytes. rewrite (dec_varint_complete _ _ _ U). rewrite zlen_app. pose proof (zlen_nonneg r).
  unfold size, zlen, byte in *. match goal with |- context [?x <? ?y] => destruct (Z.ltb_spec x y); [lia|] end.
  rewrite Nat2Z.id, firstn_app, skipn_app, Nat.sub_diag, firstn_all, skipn_all. cbn. now rewrite app_nil_r.
Qed.

Lemma dec_tag_sound max l num wt r : bytes l -> dec_tag_max max l = Some (num, wt, r) -> exists tg, l = tg ++ r /\ tag max num wt tg.
Proof.
  unfold dec_tag_max. intros Hb. destruct (dec_varint l) as [[n q]|] eqn:E; [|discriminate].
  destruct (dec_varint_sound _ _ _ Hb E) as (p & -> & U). destruct (Z.ltb_spec (n / 8) 1), (Z.ltb_spec max (n / 8)); try discriminate. intros [= <- <- <-].
  exists p. split; [reflexivity|]. unfold tag. split; [lia|]. split; [apply Z.mod_pos_bound; lia|]. replace (8 * (n / 8) + n mod 8) with n; [exact U|apply Z.div_mod; lia].
Qed.
Lemma dec_tag_complete max num wt tg r : tag max num wt tg -> dec_tag_max max (tg ++ r) = Some (num, wt, r).
Proof.
  intros (Hn & Hw & U). unfold dec_tag_max. rewrite (dec_varint_complete _ _ _ U).
  replace ((8 * num + wt) / 8) with num by euclid. replace ((8 * num + wt) mod 8) with wt by euclid.
  destruct (Z.ltb_spec num 1), (Z.ltb_spec max num); try lia. reflexivity.
Qed.
Lemma tag_nonempty max num wt tg : tag max num wt tg -> exists b l, tg = b :: l.
Proof. intros (_ & _ & V & _). apply varint_nonempty in V. destruct tg; [congruence|eauto]. Qed.

(** ** unknown fields *)
Lemma skip_sound d : forall num wt l r, bytes l -> skip_value d num wt l = Some r -> exists v, l = v ++ r /\ skipped d num wt v.
Proof.
  induction d as [|d IH]; intros num wt l r Hb E; rewrite skip_value_eq in E;
    (destruct (Z.eqb_spec wt 0) as [->|]; [destruct (dec_varint l) as [[n q]|] eqn:E'; [|discriminate]; injection E as <-;
       destruct (dec_varint_sound _ _ _ Hb E') as (p & -> & U); exists p; split; [reflexivity|econstructor; exact U]|]);
    (destruct (Z.eqb_spec wt 1) as [->|]; [destruct (le_dec 8 l) as [[n' q]|] eqn:E'; [|discriminate]; injection E as <-;
       destruct (le_sound _ _ _ _ E') as (p & -> & L & _); exists p; split; [reflexivity|constructor; exact L]|]);
    (destruct (Z.eqb_spec wt 5) as [->|]; [destruct (le_dec 4 l) as [[n' q]|] eqn:E'; [|discriminate]; injection E as <-;
       destruct (le_sound _ _ _ _ E') as (p & -> & L & _); exists p; split; [reflexivity|constructor; exact L]|]);
    (destruct (Z.eqb_spec wt 2) as [->|]; [destruct (dec_bytes l) as [[b q]|] eqn:E'; [|discriminate]; injection E as <-;
       destruct (dec_bytes_sound _ _ _ Hb E') as (p & -> & U); exists (p ++ b); split; [now rewrite app_assoc|constructor; exact U]|]);
    (destruct (Z.eqb_spec wt 3) as [->|]; [|discriminate]); [discriminate|].
  assert (G : forall g l r, bytes l -> group_of d num g l = Some r -> exists v, l = v ++ r /\ group d num v).
  { clear l r Hb E. induction g as [|g IHg]; intros l r Hb E; [discriminate|]. cbn [group_of] in E.
    destruct (dec_tag_max 2147483647 l) as [[[num' wt'] q]|] eqn:Et; [|discriminate].
    destruct (dec_tag_sound _ _ _ _ _ Hb Et) as (tg & -> & Ht). apply bytes_app in Hb as [_ Hb].
    destruct (Z.eqb_spec wt' 4) as [->|Hw].
    - destruct (Z.eqb_spec num' num) as [->|]; [|discriminate]. injection E as <-. exists tg. split; [reflexivity|constructor; exact Ht].
    - destruct (skip_value d num' wt' q) as [q'|] eqn:Es; [|discriminate]. destruct (IH _ _ _ _ Hb Es) as (v & -> & Hv).
      apply bytes_app in Hb as [_ Hb]. destruct (IHg _ _ Hb E) as (w & -> & Hg). exists (tg ++ v ++ w). split; [now rewrite <- !app_assoc|].
      econstructor; eassumption. }
  destruct (G _ _ _ Hb E) as (v & -> & Hg). exists v. split; [reflexivity|constructor; exact Hg].
Qed.

Scheme skipped_ind2 := Induction for skipped Sort Prop
with group_ind2 := Induction for group Sort Prop.
Combined Scheme skipped_group from skipped_ind2, group_ind2.
Lemma skip_complete_both :
  (forall d num wt v, skipped d num wt v -> forall r, skip_value d num wt (v ++ r) = Some r) /\
  (forall d num v, group d num v -> forall g r, (List.length v <= g)%nat -> group_of d num g (v ++ r) = Some r).
Proof.
  apply skipped_group.
  - intros d num n l U r. rewrite skip_value_eq. cbn [Z.eqb Pos.eqb]. now rewrite (dec_varint_complete _ _ _ U).
  - intros d num l L r. rewrite skip_value_eq. cbn [Z.eqb Pos.eqb]. now rewrite <- L, le_complete.
  - intros d num l L r. rewrite skip_value_eq. cbn [Z.eqb Pos.eqb]. now rewrite <- L, le_complete.
  - intros d num len l U r. rewrite skip_value_eq. cbn [Z.eqb Pos.eqb]. now rewrite <- app_assoc, (dec_bytes_complete _ _ _ U).
  - intros d num l G IH r. rewrite skip_value_eq. cbn [Z.eqb Pos.eqb]. apply IH. rewrite app_length. lia.
  - intros d num t Ht g r L. destruct (tag_nonempty _ _ _ _ Ht) as (b & l & Et). destruct g as [|g]; [subst; cbn in L; lia|].
    cbn [group_of]. rewrite (dec_tag_complete _ _ _ _ _ Ht). cbn. now rewrite Z.eqb_refl.
  - intros d num num' wt t v l Hw Ht Hv IHv Hg IHg g r L. destruct (tag_nonempty _ _ _ _ Ht) as (b & l' & Et). rewrite !app_length in L.
    destruct g as [|g]; [subst; cbn in L; lia|]. cbn [group_of]. rewrite <- !app_assoc, (dec_tag_complete _ _ _ _ _ Ht).
    destruct (Z.eqb_spec wt 4); [contradiction|]. rewrite IHv. apply IHg. subst. cbn in L. lia.
Qed.
Lemma skip_complete d num wt v r : skipped d num wt v -> skip_value d num wt (v ++ r) = Some r.
Proof. intros H. now apply skip_complete_both. Qed.

(** ** text *)
Lemma bytes_of_text l : bytes l -> bytes_of (string_of_bytes l) = l.
Proof.
  unfold bytes_of, string_of_bytes. rewrite list_ascii_of_string_of_list_ascii, map_map. intros H.
  induction H as [|b l Hb H IH]; cbn; [reflexivity|]. unfold byte_of at 1. rewrite Ascii.nat_ascii_embedding by (unfold is_byte in Hb; lia).
  unfold is_byte in Hb. rewrite Z2Nat.id by lia. now f_equal.
Qed.
Lemma valid_bytes l : bytes l -> (utf8_valid (string_of_bytes l) = true <-> utf8_text l).
Proof. intros H. now rewrite C75_utf8_proof, bytes_of_text. Qed.

(** ** descriptors made from the declarations *)
Fixpoint kind_of (n : nat) (ty : ptype) : kind :=
  match ty with
  | PDouble => KDouble | PInt64 => KInt | PBool => KBool | PString => KStr | PBytes => KBytes
  | PMessage m => KMsg (match n with O => [] | S n' => map (fun x : string * Z * ptype => (snd (fst x), kind_of n' (snd x))) (fields m) end)
  | PRepeated m => KRep (match n with O => [] | S n' => map (fun x : string * Z * ptype => (snd (fst x), kind_of n' (snd x))) (fields m) end)
  end.
Definition desc_of (n : nat) (m : string) : desc := map (fun x : string * Z * ptype => (snd (fst x), kind_of n (snd x))) (fields m).
(** [n] levels of messages are enough *)
Fixpoint deep_ty (n : nat) (ty : ptype) : bool :=
  match ty with
  | PMessage m | PRepeated m => match n with O => false | S n' => forallb (fun x => deep_ty n' (snd x)) (fields m) end
  | _ => true
  end.
Definition deep (n : nat) (m : string) : bool := forallb (fun x => deep_ty n (snd x)) (fields m).

Definition wf_fields (l : list (string * Z * ptype)) : Prop := NoDup (map (fun x : string * Z * ptype => fst (fst x)) l) /\ NoDup (map (fun x : string * Z * ptype => snd (fst x)) l).
Fixpoint nodupb {A} (eqb : A -> A -> bool) (l : list A) : bool :=
  match l with [] => true | x :: r => negb (existsb (eqb x) r) && nodupb eqb r end.
Lemma nodupb_ok {A} (eqb : A -> A -> bool) l : (forall x y, eqb x y = true <-> x = y) -> nodupb eqb l = true -> NoDup l.
Proof.
  intros He. induction l as [|x l IH]; cbn; intros H; [constructor|]. apply andb_true_iff in H as [H1 H2]. constructor; [|auto].
  intros Hin. apply negb_true_iff in H1. apply not_true_iff_false in H1. apply H1. apply existsb_exists. exists x. split; [exact Hin|now apply He].
Qed.
Lemma fields_wf m : wf_fields (fields m).
Proof.
  assert (H : forallb (fun x => nodupb String.eqb (map (fun x : string * Z * ptype => fst (fst x)) (snd x)) && nodupb Z.eqb (map (fun x : string * Z * ptype => snd (fst x)) (snd x))) schema = true) by (vm_compute; reflexivity).
  unfold fields. destruct (find _ schema) as [x|] eqn:E; [|split; constructor]. apply find_some in E as [E _].
  rewrite forallb_forall in H. specialize (H _ E). apply andb_true_iff in H as [H1 H2].
  split; [eapply nodupb_ok; [apply String.eqb_eq|exact H1]|eapply nodupb_ok; [apply Z.eqb_eq|exact H2]].
Qed.

Fixpoint find_name (l : list (string * Z * ptype)) (f : string) : option (nat * ptype) :=
  match l with
  | [] => None
  | (f', _, ty) :: r => if String.eqb f' f then Some (O, ty) else match find_name r f with Some (i, ty) => Some (S i, ty) | None => None end
  end.
Lemma find_name_in l f num ty : NoDup (map (fun x : string * Z * ptype => fst (fst x)) l) -> In (f, num, ty) l ->
  exists i, find_name l f = Some (i, ty) /\ nth_error l i = Some (f, num, ty).
Proof.
  induction l as [|[[f' num'] ty'] l IH]; intros Hn Hin; [destruct Hin|]. cbn in Hn. apply NoDup_cons_iff in Hn as [Hn Hn']. cbn [find_name]. destruct Hin as [E|Hin].
  - injection E as -> -> ->. rewrite String.eqb_refl. exists 0%nat. split; reflexivity.
  - destruct (String.eqb_spec f' f) as [->|].
    + exfalso. apply Hn. apply in_map_iff. exists (f, num, ty). split; [reflexivity|exact Hin].
    + destruct (IH Hn' Hin) as (i & -> & E). exists (S i). split; [reflexivity|exact E].
Qed.
Lemma find_name_nth l f i ty : find_name l f = Some (i, ty) -> exists num, nth_error l i = Some (f, num, ty).
Proof.
  revert i. induction l as [|[[f' num'] ty'] l IH]; intros i E; [discriminate|]. cbn [find_name] in E.
  destruct (String.eqb_spec f' f) as [->|]. { injection E as <- <-. exists num'. reflexivity. }
  destruct (find_name l f) as [[j t]|]; [|discriminate]. injection E as <- <-. destruct (IH j eq_refl) as (num & E). exists num. exact E.
Qed.
Lemma find_field_nth n l num i k : find_field (map (fun x : string * Z * ptype => (snd (fst x), kind_of n (snd x))) l) num = Some (i, k) ->
  exists f ty, nth_error l i = Some (f, num, ty) /\ k = kind_of n ty.
Proof.
  revert i. induction l as [|[[f' num'] ty'] l IH]; intros i E; [discriminate|]. cbn [map find_field fst snd] in E.
  destruct (Z.eqb_spec num' num) as [->|]. { injection E as <- <-. exists f', ty'. split; reflexivity. }
  destruct (find_field _ num) as [[j t]|]; [|discriminate]. injection E as <- <-. destruct (IH j eq_refl) as (f & ty & E & Ek). exists f, ty. split; [exact E|exact Ek].
Qed.
Lemma find_field_in n l num f ty i : NoDup (map (fun x : string * Z * ptype => snd (fst x)) l) -> nth_error l i = Some (f, num, ty) ->
  find_field (map (fun x : string * Z * ptype => (snd (fst x), kind_of n (snd x))) l) num = Some (i, kind_of n ty).
Proof.
  revert i. induction l as [|[[f' num'] ty'] l IH]; intros i Hn E; [destruct i; discriminate|]. cbn in Hn. apply NoDup_cons_iff in Hn as [Hn Hn'].
  cbn [map find_field fst snd]. destruct i as [|i].
  - cbn in E. injection E as -> -> ->. now rewrite Z.eqb_refl.
  - cbn in E. destruct (Z.eqb_spec num' num) as [->|].
    + exfalso. apply Hn. apply in_map_iff. exists (f, num, ty). split; [reflexivity|]. eapply nth_error_In; exact E.
    + now rewrite (IH i Hn' E).
Qed.
Lemma find_field_out n l num : find_field (map (fun x : string * Z * ptype => (snd (fst x), kind_of n (snd x))) l) num = None -> forall f ty, ~ In (f, num, ty) l.
Proof.
  induction l as [|[[f' num'] ty'] l IH]; intros E f ty Hin; [destruct Hin|]. cbn [map find_field fst snd] in E.
  destruct (Z.eqb_spec num' num) as [->|]; [discriminate|]. destruct (find_field _ num) as [[j t]|]; [discriminate|].
  destruct Hin as [E'|Hin]; [congruence|]. exact (IH eq_refl f ty Hin).
Qed.

(** ** the message a document leaves in the slots *)
Fixpoint build (n : nat) (m : string) (s : msg) (t : tree) : msg :=
  fold_left (fun s e =>
    match find_name (fields m) (fst e) with
    | None => s
    | Some (i, ty) =>
        set_nth i
          (match ty, snd e with
           | PDouble, VDouble b => SF b
           | PInt64, VInt z => SI z
           | PBool, VBool b => SB b
           | PString, VText x | PBytes, VText x => SS x
           | PMessage m', VMessage t' =>
               match n with
               | O => SM None
               | S n' => SM (Some (build n' m' (match nth_error s i with Some (SM (Some x)) => x | _ => zero_msg (desc_of n' m') end) t'))
               end
           | PRepeated m', VMessage t' =>
               match n with
               | O => SR []
               | S n' => SR ((match nth_error s i with Some (SR l) => l | _ => [] end) ++ [build n' m' (zero_msg (desc_of n' m')) t'])
               end
           | _, _ => nth i s (SI 0)
           end) s
    end) t s.
Definition put (n : nat) (m : string) (s : msg) (e : string * value) : msg := build n m s [e].
Lemma build_cons n m s e t : build n m s (e :: t) = build n m (put n m s e) t.
Proof. destruct n; reflexivity. Qed.
Lemma build_nil n m s : build n m s [] = s.
Proof. destruct n; reflexivity. Qed.
Lemma build_app n m s t t' : build n m s (t ++ t') = build n m (build n m s t) t'.
Proof. destruct n; cbn [build]; apply fold_left_app. Qed.

Lemma scalar_wt ty v wt b : scalar ty v wt b -> wire_type ty = wt.
Proof. now destruct 1. Qed.

Lemma deep_in n m f num ty : deep n m = true -> In (f, num, ty) (fields m) -> deep_ty n ty = true.
Proof. unfold deep. rewrite forallb_forall. intros H Hin. exact (H _ Hin). Qed.
Lemma deep_sub n m' ty : ty = PMessage m' \/ ty = PRepeated m' -> deep_ty n ty = true ->
  exists n', n = S n' /\ deep n' m' = true /\ (ty = PMessage m' -> kind_of n ty = KMsg (desc_of n' m')) /\ (ty = PRepeated m' -> kind_of n ty = KRep (desc_of n' m')).
Proof. intros [-> | ->] H; cbn in H; (destruct n as [|n']; [discriminate|]); exists n'; repeat split; auto; discriminate. Qed.

Lemma dec_field_scalar dec n s i f num ty v wt b r m : find_name (fields m) f = Some (i, ty) -> In (f, num, ty) (fields m) ->
  scalar ty v wt b -> bytes b -> exists x, dec_field dec s i (kind_of n ty) wt (b ++ r) = FOk x r /\ set_nth i x s = put n m s (f, v).
Proof.
  intros Hf Hin Hs Hb. unfold put. destruct n; cbn [build fold_left fst snd]; rewrite Hf;
  (destruct Hs as [l L|k l U|k l U|len l U V|len l U]; cbn [kind_of dec_field Z.eqb Pos.eqb];
  [ rewrite <- L, le_complete; eexists; split; reflexivity
  | rewrite (dec_varint_complete _ _ _ U); eexists; split; reflexivity
  | rewrite (dec_varint_complete _ _ _ U); eexists; split; reflexivity
  | apply bytes_app in Hb as [_ Hb]; rewrite <- app_assoc, (dec_bytes_complete _ _ _ U); cbv zeta; rewrite (proj2 (valid_bytes l Hb) V); eexists; split; reflexivity
  | rewrite <- app_assoc, (dec_bytes_complete _ _ _ U); eexists; split; reflexivity ]).
Qed.

Lemma dec_field_other dec s i k ty n wt r : k = kind_of n ty -> wire_type ty <> wt -> dec_field dec s i k wt r = FUnknown.
Proof.
  intros -> H. unfold wire_type in H. destruct n; destruct ty; cbn [kind_of dec_field];
  match goal with |- context [wt =? ?z] => destruct (Z.eqb_spec wt z); [congruence|reflexivity] end.
Qed.
Lemma dec_field_known dec s i ty n wt r : dec_field dec s i (kind_of n ty) wt r = FUnknown -> wire_type ty <> wt.
Proof.
  intros E <-. destruct n; destruct ty; cbn [kind_of dec_field wire_type Z.eqb Pos.eqb] in E; cbv zeta in E;
  repeat match type of E with context [match ?a with _ => _ end] => destruct a end; discriminate.
Qed.

Ltac blia := unfold byte in *; lia.
Theorem dec_iff f : forall n m s (l : list byte) s', deep n m = true -> (List.length l < f)%nat -> bytes l ->
  (dec_msg f (desc_of n m) s l = Some s' <-> exists t, doc m t l /\ s' = build n m s t).
Proof.
  induction f as [|f IH]; intros n m s l s' Hd Hl Hb; [lia|]. destruct (fields_wf m) as [Wn Wz]. split.
  - intros E. destruct l as [|b0 l0]. { cbn in E. injection E as <-. exists []. split; [constructor|now rewrite build_nil]. }
    rewrite dec_msg_step in E. destruct (dec_tag (b0 :: l0)) as [[[num wt] r]|] eqn:Et; [|discriminate].
    destruct (dec_tag_sound _ _ _ _ _ Hb Et) as (tg & El & Ht). rewrite El in Hb. apply bytes_app in Hb as [_ Hb].
    destruct (tag_nonempty _ _ _ _ Ht) as (tb & tl & Etg). assert (Hr : (List.length r < f)%nat) by (rewrite El, Etg in Hl; cbn in Hl; rewrite app_length in Hl; blia).
    assert (Sk : (forall g ty, In (g, num, ty) (fields m) -> wire_type ty <> wt) -> match skip_unknown num wt r with Some r' => dec_msg f (desc_of n m) s r' | None => None end = Some s' ->
       exists t, doc m t (b0 :: l0) /\ s' = build n m s t).
    { intros Hu Es. destruct (skip_unknown num wt r) as [q|] eqn:Eq; [|discriminate]. destruct (skip_sound _ _ _ _ _ Hb Eq) as (v & Er & Hv). rewrite Er in Hb, Hr.
      apply bytes_app in Hb as [_ Hb]. rewrite app_length in Hr. destruct (proj1 (IH n m s q s' Hd ltac:(blia) Hb) Es) as (t & Dt & Es').
      exists t. split; [|exact Es']. rewrite El, Er. exact (doc_unknown m num wt tg v t q Hu Ht Hv Dt). }
    destruct (find_field (desc_of n m) num) as [[i k]|] eqn:Ef.
    + destruct (find_field_nth _ _ _ _ _ Ef) as (g & ty & En & ->). pose proof (nth_error_In _ _ En) as Hin.
      destruct (find_name_in _ _ _ _ Wn Hin) as (i' & Efn & En'). assert (i' = i).
      { pose proof (find_field_in n _ _ _ _ _ Wz En') as Ef'. unfold desc_of in Ef. congruence. } subst i'.
      destruct (dec_field (dec_msg f) s i (kind_of n ty) wt r) as [x r'| |] eqn:Ed; [| |discriminate].
      * assert (Scal : forall v b, scalar ty v wt b -> bytes b -> r = b ++ r' -> exists t, doc m t (b0 :: l0) /\ s' = build n m s t).
        { intros v b Hs Hbb Er. destruct (dec_field_scalar (dec_msg f) n s i g num ty v wt b r' m Efn Hin Hs Hbb) as (x' & Ed' & Ex). rewrite <- Er, Ed in Ed'. injection Ed' as <-.
          rewrite Er in Hb, Hr. apply bytes_app in Hb as [_ Hb]. rewrite app_length in Hr.
          destruct (proj1 (IH n m (set_nth i x s) r' s' Hd ltac:(blia) Hb) E) as (t & Dt & Es'). exists ((g, v) :: t). split.
          - rewrite El, Er. exact (doc_scalar m g num ty v wt tg b t r' Hin Hs Ht Dt).
          - now rewrite build_cons, <- Ex. }
        assert (Hwt : wire_type ty = wt).
        { destruct (Z.eq_dec (wire_type ty) wt) as [e|e]; [exact e|]. rewrite (dec_field_other (dec_msg f) s i _ ty n wt r eq_refl e) in Ed. discriminate. }
        assert (Sub : forall m' b len t' x', ty = PMessage m' \/ ty = PRepeated m' -> r = len ++ b ++ r' -> uint64 (size b) len -> doc m' t' b ->
          x = x' -> set_nth i x' s = put n m s (g, VMessage t') -> exists t, doc m t (b0 :: l0) /\ s' = build n m s t).
        { intros m' b len t' x' Hty Er U Dt' -> Ex. rewrite Er in Hb, Hr. apply bytes_app in Hb as [_ Hb]. apply bytes_app in Hb as [_ Hb]. rewrite !app_length in Hr.
          destruct (proj1 (IH n m (set_nth i x' s) r' s' Hd ltac:(blia) Hb) E) as (t & Dt & Es'). exists ((g, VMessage t') :: t). split.
          - assert (Ew : wt = 2) by (destruct Hty as [-> | ->]; cbn in Hwt; congruence). rewrite Ew in Ht. rewrite El, Er. exact (doc_message m g num ty m' t' b len tg t r' Hin Hty Dt' Ht U Dt).
          - now rewrite build_cons, <- Ex. }
        destruct ty as [| | | | |m'|m']; cbn [wire_type] in Hwt; subst wt; pose proof Ed as Ed0.
        -- destruct n; cbn [kind_of dec_field Z.eqb Pos.eqb] in Ed; (destruct (le_dec 8 r) as [[k q]|] eqn:Ek; [|discriminate]; injection Ed as <- <-;
           destruct (le_sound _ _ _ _ Ek) as (p & -> & L & ->); apply (Scal (VDouble (fixed p)) p); [constructor; exact L|now apply bytes_app in Hb|reflexivity]).
        -- destruct n; cbn [kind_of dec_field Z.eqb Pos.eqb] in Ed; (destruct (dec_varint r) as [[k q]|] eqn:Ek; [|discriminate]; injection Ed as <- <-;
           destruct (dec_varint_sound _ _ _ Hb Ek) as (p & -> & U); apply (Scal (VInt (signed k)) p); [constructor; exact U|now apply bytes_app in Hb|reflexivity]).
        -- destruct n; cbn [kind_of dec_field Z.eqb Pos.eqb] in Ed; (destruct (dec_varint r) as [[k q]|] eqn:Ek; [|discriminate]; injection Ed as <- <-;
           destruct (dec_varint_sound _ _ _ Hb Ek) as (p & -> & U); apply (Scal (VBool (negb (k =? 0))) p); [constructor; exact U|now apply bytes_app in Hb|reflexivity]).
        -- destruct n; cbn [kind_of dec_field Z.eqb Pos.eqb] in Ed; (destruct (dec_bytes r) as [[k q]|] eqn:Ek; [|discriminate]; cbv zeta in Ed; destruct (utf8_valid (string_of_bytes k)) eqn:Eu; [|discriminate]; injection Ed as <- <-;
           destruct (dec_bytes_sound _ _ _ Hb Ek) as (p & -> & U); rewrite app_assoc in Hb; apply bytes_app in Hb as [Hb1 _]; apply (Scal (VText (text k)) (p ++ k)); [constructor; [exact U|]|exact Hb1|now rewrite app_assoc];
           apply bytes_app in Hb1 as [_ Hb1]; now apply valid_bytes).
        -- destruct n; cbn [kind_of dec_field Z.eqb Pos.eqb] in Ed; (destruct (dec_bytes r) as [[k q]|] eqn:Ek; [|discriminate]; injection Ed as <- <-;
           destruct (dec_bytes_sound _ _ _ Hb Ek) as (p & -> & U); rewrite app_assoc in Hb; apply bytes_app in Hb as [Hb1 _]; apply (Scal (VText (text k)) (p ++ k)); [constructor; exact U|exact Hb1|now rewrite app_assoc]).
        -- destruct (deep_sub n m' _ (or_introl eq_refl) (deep_in _ _ _ _ _ Hd Hin)) as (n' & -> & Hd' & Ek' & _). rewrite Ek' in Ed by reflexivity.
           cbn [dec_field Z.eqb Pos.eqb] in Ed. destruct (dec_bytes r) as [[k q]|] eqn:Ek; [|discriminate]. cbv zeta in Ed.
           destruct (dec_bytes_sound _ _ _ Hb Ek) as (p & Er & U). pose proof Hb as Hb1. rewrite Er in Hb1. apply bytes_app in Hb1 as [_ Hb1]. apply bytes_app in Hb1 as [Hb1 _].
           assert (Hk : (List.length k < f)%nat) by (rewrite Er, !app_length in Hr; blia).
           match type of Ed with match dec_msg f ?a ?o ?c with _ => _ end = _ => destruct (dec_msg f a o c) as [y|] eqn:Ey; [|discriminate] end. injection Ed as <- <-.
           destruct (proj1 (IH n' m' _ k y Hd' Hk Hb1) Ey) as (t' & Dt' & ->).
           apply (Sub m' k p t' _ (or_introl eq_refl) Er U Dt' eq_refl). unfold put. cbn [build fold_left fst snd]. rewrite Efn. reflexivity.
        -- destruct (deep_sub n m' _ (or_intror eq_refl) (deep_in _ _ _ _ _ Hd Hin)) as (n' & -> & Hd' & _ & Ek'). rewrite Ek' in Ed by reflexivity.
           cbn [dec_field Z.eqb Pos.eqb] in Ed. destruct (dec_bytes r) as [[k q]|] eqn:Ek; [|discriminate]. cbv zeta in Ed.
           destruct (dec_bytes_sound _ _ _ Hb Ek) as (p & Er & U). pose proof Hb as Hb1. rewrite Er in Hb1. apply bytes_app in Hb1 as [_ Hb1]. apply bytes_app in Hb1 as [Hb1 _].
           assert (Hk : (List.length k < f)%nat) by (rewrite Er, !app_length in Hr; blia).
           match type of Ed with match dec_msg f ?a ?o ?c with _ => _ end = _ => destruct (dec_msg f a o c) as [y|] eqn:Ey; [|discriminate] end. injection Ed as <- <-.
           destruct (proj1 (IH n' m' _ k y Hd' Hk Hb1) Ey) as (t' & Dt' & ->).
           apply (Sub m' k p t' _ (or_intror eq_refl) Er U Dt' eq_refl). unfold put. cbn [build fold_left fst snd]. rewrite Efn. reflexivity.
      * apply Sk; [|exact E]. intros g' ty' Hin'. destruct (find_name_in _ _ _ _ Wn Hin') as (j & _ & En2).
        pose proof (find_field_in n _ _ _ _ _ Wz En2) as Ef'. unfold desc_of in Ef. rewrite Ef in Ef'. injection Ef' as <- Hk. rewrite En in En2. injection En2 as <- <-.
        eapply dec_field_known; exact Ed.
    + apply Sk; [|exact E]. intros g ty Hin. exfalso. exact (find_field_out _ _ _ Ef g ty Hin).
  - intros (t & Dt & ->). destruct Dt as [m|m g num ty v wt tg b t r Hin Hs Ht Dt|m g num ty m' t' b len tg t r Hin Hty Dt' Ht U Dt|m num wt tg b t r Hu Ht Hv Dt].
    + cbn. now rewrite build_nil.
    + destruct (tag_nonempty _ _ _ _ Ht) as (b0 & l0 & Etg). rewrite Etg. cbn [app]. rewrite dec_msg_step. change (b0 :: l0 ++ b ++ r) with ((b0 :: l0) ++ b ++ r). rewrite <- Etg.
      unfold dec_tag. rewrite (dec_tag_complete _ _ _ _ _ Ht). destruct (find_name_in _ _ _ _ Wn Hin) as (i & Efn & En). unfold desc_of at 1. rewrite (find_field_in n _ _ _ _ _ Wz En).
      rewrite Etg in Hl, Hb. cbn in Hl. rewrite !app_length in Hl. apply bytes_app in Hb as [_ Hb]. apply bytes_app in Hb as [Hb1 Hb].
      destruct (dec_field_scalar (dec_msg f) n s i g num ty v wt b r m Efn Hin Hs Hb1) as (x & -> & ->). rewrite build_cons. apply IH; [exact Hd|blia|exact Hb|]. exists t. split; [exact Dt|reflexivity].
    + destruct (tag_nonempty _ _ _ _ Ht) as (b0 & l0 & Etg). rewrite Etg. cbn [app]. rewrite dec_msg_step. change (b0 :: l0 ++ len ++ b ++ r) with ((b0 :: l0) ++ len ++ b ++ r). rewrite <- Etg.
      unfold dec_tag. rewrite (dec_tag_complete _ _ _ _ _ Ht). destruct (find_name_in _ _ _ _ Wn Hin) as (i & Efn & En). unfold desc_of at 1. rewrite (find_field_in n _ _ _ _ _ Wz En).
      rewrite Etg in Hl, Hb. cbn in Hl. rewrite !app_length in Hl. apply bytes_app in Hb as [_ Hb]. apply bytes_app in Hb as [_ Hb]. apply bytes_app in Hb as [Hb1 Hb].
      destruct (deep_sub n m' _ Hty (deep_in _ _ _ _ _ Hd Hin)) as (n' & -> & Hd' & Ek1 & Ek2).
      destruct Hty as [-> | ->]; [rewrite Ek1 by reflexivity|rewrite Ek2 by reflexivity]; cbn [dec_field Z.eqb Pos.eqb]; rewrite (dec_bytes_complete _ _ _ U); cbv zeta.
      * rewrite (proj2 (IH n' m' _ b _ Hd' ltac:(blia) Hb1) (ex_intro _ t' (conj Dt' eq_refl))). rewrite build_cons. apply IH; [exact Hd|blia|exact Hb|].
        exists t. split; [exact Dt|]. unfold put. cbn [build fold_left fst snd]. rewrite Efn. reflexivity.
      * rewrite (proj2 (IH n' m' _ b _ Hd' ltac:(blia) Hb1) (ex_intro _ t' (conj Dt' eq_refl))). rewrite build_cons. apply IH; [exact Hd|blia|exact Hb|].
        exists t. split; [exact Dt|]. unfold put. cbn [build fold_left fst snd]. rewrite Efn. reflexivity.
    + destruct (tag_nonempty _ _ _ _ Ht) as (b0 & l0 & Etg). rewrite Etg. cbn [app]. rewrite dec_msg_step. change (b0 :: l0 ++ b ++ r) with ((b0 :: l0) ++ b ++ r). rewrite <- Etg.
      unfold dec_tag. rewrite (dec_tag_complete _ _ _ _ _ Ht). rewrite Etg in Hl, Hb. cbn in Hl. rewrite !app_length in Hl. apply bytes_app in Hb as [_ Hb]. apply bytes_app in Hb as [_ Hb].
      assert (Sk : match skip_unknown num wt (b ++ r) with Some r' => dec_msg f (desc_of n m) s r' | None => None end = Some (build n m s t)).
      { unfold skip_unknown. change (Z.to_nat 10001) with group_limit. rewrite (skip_complete _ _ _ _ _ Hv). apply IH; [exact Hd|blia|exact Hb|]. exists t. split; [exact Dt|reflexivity]. }
      destruct (find_field (desc_of n m) num) as [[i k]|] eqn:Ef; [|exact Sk].
      destruct (find_field_nth _ _ _ _ _ Ef) as (g & ty & En & ->). pose proof (nth_error_In _ _ En) as Hin.
      rewrite (dec_field_other (dec_msg f) s i _ ty n wt (b ++ r) eq_refl (Hu _ _ Hin)). exact Sk.
Qed.

(** ** what the slots hold in the end *)
Definition slot_of (n : nat) (t : tree) (x : string * Z * ptype) : slot :=
  let f := fst (fst x) in
  match snd x with
  | PDouble => SF (the_double f t)
  | PInt64 => SI (the_int f t)
  | PBool => SB (the_bool f t)
  | PString | PBytes => SS (the_text f t)
  | PMessage m' => SM (match messages f t with [] => None | l => Some (build (pred n) m' (zero_msg (desc_of (pred n) m')) (List.concat l)) end)
  | PRepeated m' => SR (map (build (pred n) m' (zero_msg (desc_of (pred n) m'))) (messages f t))
  end.
Lemma last_of_snoc {A} (g : value -> option A) a f t e : last_of g a f (t ++ [e]) =
  if String.eqb (fst e) f then match g (snd e) with Some x => x | None => last_of g a f t end else last_of g a f t.
Proof. unfold last_of. now rewrite fold_left_app. Qed.
Lemma messages_snoc f t e : messages f (t ++ [e]) = messages f t ++ if String.eqb (fst e) f then match snd e with VMessage t' => [t'] | _ => [] end else [].
Proof. unfold messages. rewrite flat_map_app. cbn. now rewrite app_nil_r. Qed.
Lemma slot_other n t e x : fst e <> fst (fst x) -> slot_of n (t ++ [e]) x = slot_of n t x.
Proof.
  intros H. apply String.eqb_neq in H. unfold slot_of, the_double, the_int, the_bool, the_text. cbv zeta.
  rewrite !last_of_snoc, messages_snoc, H, app_nil_r. reflexivity.
Qed.
Lemma set_nth_map {A B} (g g' : A -> B) (name : A -> string) F : forall i x, NoDup (map name F) -> nth_error F i = Some x ->
  (forall y, name y <> name x -> g' y = g y) -> set_nth i (g' x) (map g F) = map g' F.
Proof.
  induction F as [|y F IH]; intros i x Hn E Hg; [destruct i; discriminate|]. cbn in Hn. apply NoDup_cons_iff in Hn as [Hn Hn']. destruct i as [|i].
  - cbn in E. injection E as ->. cbn. f_equal. apply map_ext_in. intros z Hz. symmetry. apply Hg. intros E. apply Hn. rewrite <- E. now apply in_map.
  - cbn in E. cbn. f_equal; [|now apply IH]. symmetry. apply Hg. intros E'. apply Hn. rewrite E'. apply in_map. eapply nth_error_In; exact E.
Qed.
Lemma find_name_none l f : find_name l f = None -> forall x, In x l -> f <> fst (fst x).
Proof.
  induction l as [|[[f' num'] ty'] l IH]; intros E x Hin; [destruct Hin|]. cbn [find_name] in E. destruct (String.eqb_spec f' f); [discriminate|].
  destruct (find_name l f) as [[j t]|]; [discriminate|]. destruct Hin as [<-|Hin]; [cbn; congruence|]. now apply IH.
Qed.
Lemma build_slots n m t : deep n m = true -> build n m (zero_msg (desc_of n m)) t = map (slot_of n t) (fields m).
Proof.
  intros Hd. destruct (fields_wf m) as [Wn _]. induction t as [|e t IH] using rev_ind.
  - rewrite build_nil. unfold zero_msg, desc_of. rewrite map_map. apply map_ext. intros [[f num] ty]. destruct n, ty; reflexivity.
  - rewrite build_app, IH. assert (Eput : forall s, build n m s [e] = put n m s e) by reflexivity. rewrite Eput. clear Eput.
    destruct (find_name (fields m) (fst e)) as [[i ty]|] eqn:Ef.
    + destruct (find_name_nth _ _ _ _ Ef) as (num & En). pose proof (nth_error_In _ _ En) as Hin. pose proof (deep_in _ _ _ _ _ Hd Hin) as Hty.
      pose proof (map_nth_error (slot_of n t) _ _ En) as Es.
      assert (Ed : nth i (map (slot_of n t) (fields m)) (SI 0) = slot_of n t (fst e, num, ty)) by (now apply nth_error_nth).
      rewrite <- (set_nth_map (slot_of n t) (slot_of n (t ++ [e])) (fun x => fst (fst x)) (fields m) i (fst e, num, ty) Wn En);
        [|intros y Hy; apply slot_other; cbn in Hy; congruence].
      unfold put. destruct n as [|n']; cbn [build fold_left]; rewrite Ef; f_equal; rewrite ?Es, ?Ed; unfold slot_of, the_double, the_int, the_bool, the_text; cbn [fst snd pred];
        rewrite ?last_of_snoc, ?messages_snoc, String.eqb_refl; destruct ty, (snd e) as [| | | |t1]; cbn in Hty; try discriminate; rewrite ?app_nil_r; try reflexivity.
      * f_equal. destruct (messages (fst e) t) as [|t2 l]; [cbn; now rewrite app_nil_r|]. cbn [app].
        change (t2 :: l ++ [t1]) with ((t2 :: l) ++ [t1]). rewrite concat_app. cbn [List.concat]. rewrite app_nil_r, !build_app. reflexivity.
      * now rewrite map_app.
    + unfold put. assert (E : forall s, build n m s [e] = s) by (intros s; destruct n; cbn [build fold_left]; now rewrite Ef). rewrite E.
      apply map_ext_in. intros x Hx. symmetry. apply slot_other. eapply find_name_none; eassumption.
Qed.

(** ** encodings consist of bytes *)
Lemma enc_varint_bytes n : 0 <= n -> bytes (enc_varint n).
Proof.
  unfold enc_varint. generalize 10%nat as k. intros k. revert n. induction k as [|k IH]; intros n Hn; cbn [varint_enc]; [constructor|].
  destruct (Z.ltb_spec n 128). { constructor; [unfold is_byte; lia|constructor]. }
  constructor. { unfold is_byte. pose proof (Z.mod_pos_bound n 128 ltac:(lia)). lia. } apply IH. apply Z.div_pos; lia.
Qed.
Lemma le_enc_bytes k : forall n, bytes (le_enc k n).
Proof. induction k as [|k IH]; intros n; cbn [le_enc]; constructor; [|apply IH]. unfold is_byte. apply Z.mod_pos_bound. lia. Qed.
Lemma bytes_of_bytes s : bytes (bytes_of s).
Proof.
  unfold bytes_of. apply Forall_forall. intros b Hb. apply in_map_iff in Hb as (a & <- & _). unfold is_byte, byte_of. pose proof (Ascii.nat_ascii_bounded a). lia.
Qed.
Lemma enc_bytes_bytes l : bytes l -> bytes (enc_bytes l).
Proof. intros H. unfold enc_bytes. apply bytes_app. split; [|exact H]. apply enc_varint_bytes. apply zlen_nonneg. Qed.
Lemma enc_tag_bytes num wt : 1 <= num -> 0 <= wt -> bytes (enc_tag num wt).
Proof. intros. apply enc_varint_bytes. lia. Qed.
Lemma fields_bytes d : Forall (fun f => kind_wf (snd f) -> forall num s b, 1 <= num -> enc_slot (snd f) num s = Some b -> bytes b) d ->
  all_wf d -> forall m b, enc_msg d m = Some b -> bytes b.
Proof.
  induction 1 as [|[n k] d Hk Hd IH]; intros W m b E. { destruct m; injection E as <-; constructor. }
  cbn in W. destruct W as (Wn & Wk & W). destruct m as [|s m]; [injection E as <-; constructor|]. cbn [enc_msg] in E.
  apply opt_app_Some in E. destruct E as (p & q & E1 & E2 & ->). apply bytes_app. split; [eapply Hk; [exact Wk| |exact E1]; lia|eauto].
Qed.
Lemma slots_bytes k : kind_wf k -> forall num s b, 1 <= num -> enc_slot k num s = Some b -> bytes b.
Proof.
  induction k as [| | | | |d G|d G] using kind_ind'; intros W num s b Hn E.
  - destruct s; cbn in E; try (injection E as <-; constructor). destruct (bits =? 0); injection E as <-; [constructor|]. apply bytes_app. split; [now apply enc_tag_bytes|apply (le_enc_bytes 8)].
  - destruct s; cbn [enc_slot] in E; try (injection E as <-; constructor). destruct (z =? 0); injection E as <-; [constructor|]. apply bytes_app. split; [now apply enc_tag_bytes|].
    apply enc_varint_bytes. unfold u64. apply Z.mod_pos_bound. lia.
  - destruct s as [| |v| | |]; cbn in E; try (injection E as <-; constructor). destruct v; injection E as <-; [|constructor]. apply bytes_app. split; [now apply enc_tag_bytes|].
    constructor; [unfold is_byte; lia|constructor].
  - destruct s; cbn [enc_slot] in E; try (injection E as <-; constructor). destruct (utf8_valid s); [|discriminate]. destruct (slen s =? 0); injection E as <-; [constructor|].
    apply bytes_app. split; [now apply enc_tag_bytes|apply enc_bytes_bytes, bytes_of_bytes].
  - destruct s; cbn [enc_slot] in E; try (injection E as <-; constructor). destruct (slen s =? 0); injection E as <-; [constructor|].
    apply bytes_app. split; [now apply enc_tag_bytes|apply enc_bytes_bytes, bytes_of_bytes].
  - destruct s as [| | | |[m0|]|]; try (injection E as <-; constructor). rewrite enc_slot_msg in E. destruct (enc_msg d m0) eqn:E0; [|discriminate]. injection E as <-.
    apply bytes_app. split; [now apply enc_tag_bytes|]. apply enc_bytes_bytes. destruct W as [_ W]. eapply fields_bytes; eauto.
  - destruct s as [| | | | |l]; try (injection E as <-; constructor). rewrite enc_slot_rep in E. destruct W as [_ W].
    revert b E. induction l as [|m l IH]; intros b E; cbn [fold_right] in E; [injection E as <-; constructor|].
    apply opt_app_Some in E. destruct E as (p & q & E1 & E2 & ->). apply bytes_app. split; [|now apply IH].
    destruct (enc_msg d m) eqn:E0; [|discriminate]. injection E1 as <-. apply bytes_app. split; [now apply enc_tag_bytes|]. apply enc_bytes_bytes. eapply fields_bytes; eauto.
Qed.
Lemma marshal_bytes d m b : desc_wf d -> marshal d m = Some b -> bytes b.
Proof. intros [_ W]. apply fields_bytes; [|exact W]. apply Forall_forall. intros f _. apply slots_bytes. Qed.
