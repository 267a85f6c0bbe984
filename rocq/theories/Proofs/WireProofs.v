(** The wire format round-trips. *)
From Coq Require Import Lia.
From Verif.Model Require Import Base Utf8 Wire WireMsgs.
From Verif.Spec Require Import WireSpec.
From Verif.Proofs Require Import BaseLemmas.
Open Scope Z_scope.

Section KindInd.
Variable P : kind -> Prop.
Hypotheses (H1 : P KDouble) (H2 : P KInt) (H3 : P KBool) (H4 : P KStr) (H5 : P KBytes)
  (H6 : forall d, Forall (fun f => P (snd f)) d -> P (KMsg d))
  (H7 : forall d, Forall (fun f => P (snd f)) d -> P (KRep d)).
Fixpoint kind_ind' (k : kind) : P k :=
  let all := fix all (d : list (Z * kind)) : Forall (fun f => P (snd f)) d :=
    match d with
    | [] => Forall_nil _
    | (n, k) :: r => Forall_cons (P := fun f => P (snd f)) (n, k) (kind_ind' k) (all r)
    end in
  match k with
  | KDouble => H1 | KInt => H2 | KBool => H3 | KStr => H4 | KBytes => H5
  | KMsg d => H6 d (all d) | KRep d => H7 d (all d)
  end.
End KindInd.

(** ** primitives *)

Lemma varint_roundtrip k : forall n r, 0 <= n < 2 * 128 ^ (Z.of_nat k) ->
  varint_dec (S k) (varint_enc (S k) n ++ r) = Some (n, r).
Proof.
  induction k as [|k IH]; intros n r H.
  - cbn in H. cbn. destruct (Z.ltb_spec n 128); [|lia]. cbn. destruct (Z.ltb_spec n 128); [|lia].
    destruct (Z.ltb_spec 1 n); [lia|]. reflexivity.
  - rewrite Nat2Z.inj_succ, Z.pow_succ_r in H by lia.
    remember (S k) as k1 eqn:Ek. cbn [varint_enc varint_dec]. destruct (Z.ltb_spec n 128).
    + cbn. destruct (Z.ltb_spec n 128); [|lia]. subst k1. cbn. reflexivity.
    + cbn [app]. pose proof (Z.mod_pos_bound n 128 ltac:(lia)).
      destruct (Z.ltb_spec (n mod 128 + 128) 128); [lia|]. rewrite IH.
      * f_equal. f_equal. pose proof (Z.div_mod n 128 ltac:(lia)). lia.
      * split; [apply Z.div_pos; lia|]. apply Z.div_lt_upper_bound; lia.
Qed.
Lemma dec_enc_varint n r : 0 <= n < 2 ^ 64 -> dec_varint (enc_varint n ++ r) = Some (n, r).
Proof. intros H. apply (varint_roundtrip 9). change (2 * 128 ^ Z.of_nat 9) with (2 ^ 64). lia. Qed.
Lemma enc_varint_cons n : exists b l, enc_varint n = b :: l.
Proof. unfold enc_varint. cbn [varint_enc]. destruct (n <? 128); eauto. Qed.

Lemma le_roundtrip k : forall n r, 0 <= n < 256 ^ (Z.of_nat k) -> le_dec k (le_enc k n ++ r) = Some (n, r).
Proof.
  induction k as [|k IH]; intros n r H.
  - cbn in *. assert (n = 0) by lia. now subst.
  - rewrite Nat2Z.inj_succ, Z.pow_succ_r in H by lia. cbn [le_enc le_dec app]. rewrite IH.
    + f_equal. f_equal. pose proof (Z.div_mod n 256 ltac:(lia)). lia.
    + split; [apply Z.div_pos; lia|]. apply Z.div_lt_upper_bound; lia.
Qed.
Lemma le_dec_length k : forall l r, List.length l = k -> exists n, le_dec k (l ++ r) = Some (n, r).
Proof.
  induction k as [|k IH]; intros [|b l] r H; cbn in *; try discriminate; eauto.
  destruct (IH l r) as [n E]; [lia|]. rewrite E. eauto.
Qed.

Lemma dec_enc_bytes l r : zlen l < 2 ^ 64 -> dec_bytes (enc_bytes l ++ r) = Some (l, r).
Proof.
  intros H. unfold dec_bytes, enc_bytes. rewrite <- app_assoc. pose proof (zlen_nonneg l).
  rewrite dec_enc_varint by lia. rewrite zlen_app. pose proof (zlen_nonneg r).
  destruct (Z.ltb_spec (zlen l + zlen r) (zlen l)); [lia|].
  unfold zlen. rewrite Nat2Z.id. f_equal. f_equal.
  - rewrite firstn_app, Nat.sub_diag, firstn_all. cbn. apply app_nil_r.
  - rewrite skipn_app, Nat.sub_diag, skipn_all. reflexivity.
Qed.

Lemma dec_enc_tag num wt r : 1 <= num <= 536870911 -> 0 <= wt < 8 -> dec_tag (enc_tag num wt ++ r) = Some (num, wt, r).
Proof.
  intros H1 H2. unfold dec_tag, dec_tag_max, enc_tag. rewrite dec_enc_varint by lia.
  assert (E : (num * 8 + wt) / 8 = num) by (rewrite Z.div_add_l by lia; rewrite Z.div_small by lia; lia).
  assert (E' : (num * 8 + wt) mod 8 = wt) by (rewrite Z.add_comm, Z.mod_add by lia; apply Z.mod_small; lia).
  rewrite E, E'. destruct (Z.ltb_spec num 1); [lia|]. destruct (Z.ltb_spec 536870911 num); [lia|]. reflexivity.
Qed.

Lemma i64_u64 z : - 2 ^ 63 <= z < 2 ^ 63 -> i64 (u64 z) = z.
Proof.
  intros H. unfold i64, u64. destruct (Z.ltb_spec z 0).
  - replace (z mod 2 ^ 64) with (z + 2 ^ 64).
    + destruct (Z.ltb_spec (z + 2 ^ 64) (2 ^ 63)); lia.
    + rewrite <- (Z.mod_add z 1) by lia. rewrite Z.mod_small by lia. lia.
  - rewrite Z.mod_small by lia. destruct (Z.ltb_spec z (2 ^ 63)); lia.
Qed.

Lemma bytes_string s : string_of_bytes (bytes_of s) = s.
Proof.
  unfold string_of_bytes, bytes_of. rewrite map_map. rewrite map_ext with (g := fun c => c).
  - rewrite map_id. apply string_of_list_ascii_of_string.
  - intros c. unfold byte_of. rewrite Nat2Z.id. apply Ascii.ascii_nat_embedding.
Qed.
Lemma bytes_length s : zlen (bytes_of s) = slen s.
Proof.
  unfold zlen, bytes_of, slen. rewrite map_length. f_equal. induction s; cbn; congruence.
Qed.

(** ** structure *)

Lemma enc_slot_msg d num m : enc_slot (KMsg d) num (SM (Some m)) =
  match enc_msg d m with Some b => Some (enc_tag num 2 ++ enc_bytes b) | None => None end.
Proof. reflexivity. Qed.
Lemma enc_slot_rep d num l : enc_slot (KRep d) num (SR l) =
  fold_right (fun m acc => opt_app (match enc_msg d m with Some b => Some (enc_tag num 2 ++ enc_bytes b) | None => None end) acc) (Some []) l.
Proof. reflexivity. Qed.
Lemma slot_ok_msg d m : slot_ok (KMsg d) (SM (Some m)) <-> msg_ok d m.
Proof. reflexivity. Qed.
Lemma slot_ok_rep d l : slot_ok (KRep d) (SR l) <-> Forall (msg_ok d) l.
Proof. reflexivity. Qed.
Lemma kind_wf_msg d : kind_wf (KMsg d) <-> desc_wf d.
Proof. reflexivity. Qed.

Lemma find_field_at d1 : forall num k d2, ~ In num (map fst d1) -> find_field (d1 ++ (num, k) :: d2) num = Some (List.length d1, k).
Proof.
  induction d1 as [|[n k1] d1 IH]; intros num k d2 H; cbn.
  - now rewrite Z.eqb_refl.
  - cbn in H. destruct (Z.eqb_spec n num); [tauto|]. rewrite IH by tauto. reflexivity.
Qed.
Lemma find_field_none d num : ~ In num (map fst d) -> find_field d num = None.
Proof.
  induction d as [|[n k] d IH]; cbn; intros H; [reflexivity|]. destruct (Z.eqb_spec n num); [tauto|]. now rewrite IH by tauto.
Qed.
Lemma set_nth_same {A} (x : A) l : forall i, nth_error l i = Some x -> set_nth i x l = l.
Proof. induction l as [|y l IH]; intros [|i] H; cbn in *; try discriminate; [congruence|]. now rewrite IH. Qed.
Lemma nth_error_set {A} (x : A) l : forall i y, nth_error l i = Some y -> nth_error (set_nth i x l) i = Some x.
Proof. induction l as [|z l IH]; intros [|i] y H; cbn in *; try discriminate; [reflexivity|]. eauto. Qed.
Lemma set_nth_twice {A} (x y : A) l : forall i, set_nth i x (set_nth i y l) = set_nth i x l.
Proof. induction l as [|z l IH]; intros [|i]; cbn; try reflexivity. now rewrite IH. Qed.
Lemma set_nth_app {A} (x y : A) l r : set_nth (List.length l) x (l ++ y :: r) = l ++ x :: r.
Proof. induction l; cbn; [reflexivity|]. now rewrite IHl. Qed.
Lemma nth_app {A} (y : A) l r : nth_error (l ++ y :: r) (List.length l) = Some y.
Proof. induction l; cbn; auto. Qed.

(** one known field is decoded *)
Definition decodes_to (k : kind) (wt : Z) (old : slot) (v : list byte) (s : slot) : Prop :=
  forall d m i num r f, find_field d num = Some (i, k) -> nth_error m i = Some old -> 1 <= num <= 536870911 ->
    (List.length (enc_tag num wt ++ v ++ r) < f)%nat ->
    exists f', (List.length r < f')%nat /\ dec_msg f d m (enc_tag num wt ++ v ++ r) = dec_msg f' d (set_nth i s m) r.

Lemma tag_cons num wt r : exists b l, enc_tag num wt ++ r = b :: l.
Proof. unfold enc_tag. destruct (enc_varint_cons (num * 8 + wt)) as (b & l & ->). cbn. eauto. Qed.
Lemma tag_length num wt : (0 < List.length (enc_tag num wt))%nat.
Proof. unfold enc_tag. destruct (enc_varint_cons (num * 8 + wt)) as (b & l & ->). cbn. lia. Qed.

Lemma dec_msg_S f d m num wt r : 1 <= num <= 536870911 -> 0 <= wt < 8 ->
  dec_msg (S f) d m (enc_tag num wt ++ r) =
  match find_field d num with
  | None => match skip_unknown num wt r with Some r' => dec_msg f d m r' | None => None end
  | Some (i, k) =>
      match (match k with
              | KDouble => if (wt =? 1)%Z
                  then match le_dec 8 r with Some (b, r') => FOk (SF b) r' | None => FErr end
                  else FUnknown
              | KInt => if (wt =? 0)%Z
                  then match dec_varint r with Some (n, r') => FOk (SI (i64 n)) r' | None => FErr end
                  else FUnknown
              | KBool => if (wt =? 0)%Z
                  then match dec_varint r with
                       | Some (n, r') => FOk (SB (negb (n =? 0)%Z)) r' | None => FErr end
                  else FUnknown
              | KStr => if (wt =? 2)%Z
                  then match dec_bytes r with
                       | Some (b, r') =>
                           let s := string_of_bytes b in
                           if utf8_valid s then FOk (SS s) r' else FErr
                       | None => FErr end
                  else FUnknown
              | KBytes => if (wt =? 2)%Z
                  then match dec_bytes r with
                       | Some (b, r') => FOk (SS (string_of_bytes b)) r' | None => FErr end
                  else FUnknown
              | KMsg d' => if (wt =? 2)%Z
                  then match dec_bytes r with
                       | Some (b, r') =>
                           let old := match nth_error m i with
                                      | Some (SM (Some x)) => x | _ => zero_msg d' end in
                           match dec_msg f d' old b with
                           | Some x => FOk (SM (Some x)) r'
                           | None => FErr
                           end
                       | None => FErr end
                  else FUnknown
              | KRep d' => if (wt =? 2)%Z
                  then match dec_bytes r with
                       | Some (b, r') =>
                           let old := match nth_error m i with Some (SR x) => x | _ => [] end in
                           match dec_msg f d' (zero_msg d') b with
                           | Some x => FOk (SR (old ++ [x])) r'
                           | None => FErr
                           end
                       | None => FErr end
                  else FUnknown
              end) with
      | FOk s r' => dec_msg f d (set_nth i s m) r'
      | FErr => None
      | FUnknown => match skip_unknown num wt r with Some r' => dec_msg f d m r' | None => None end
      end
  end.
Proof.
  intros H1 H2. pose proof (dec_enc_tag num wt r H1 H2) as E. destruct (tag_cons num wt r) as (b & l & Eq).
  rewrite Eq in E. rewrite Eq. cbn [dec_msg]. rewrite E. destruct (find_field d num) as [[i k]|]; [|reflexivity].
  destruct k; reflexivity.
Qed.

Ltac fuel f := destruct f as [|f]; [exfalso; lia|].

Lemma dec_double bits old : 0 <= bits < 2 ^ 64 -> decodes_to KDouble 1 old (le_enc 8 bits) (SF bits).
Proof.
  intros Hb d m i num r f Hf Ho Hn Hl. pose proof (tag_length num 1). rewrite !app_length in Hl. fuel f. rewrite dec_msg_S by lia. rewrite Hf. cbn [Z.eqb].
  change (1 =? 1) with true. cbv iota. rewrite le_roundtrip by (change (256 ^ Z.of_nat 8) with (2 ^ 64); lia).
  exists f. split; [lia|reflexivity].
Qed.
Lemma dec_int z old : - 2 ^ 63 <= z < 2 ^ 63 -> decodes_to KInt 0 old (enc_varint (u64 z)) (SI z).
Proof.
  intros Hb d m i num r f Hf Ho Hn Hl. pose proof (tag_length num 0). rewrite !app_length in Hl. fuel f. rewrite dec_msg_S by lia. rewrite Hf.
  change (0 =? 0) with true. cbv iota. rewrite dec_enc_varint by (unfold u64; apply Z.mod_pos_bound; lia). rewrite i64_u64 by exact Hb.
  exists f. split; [lia|reflexivity].
Qed.
Lemma dec_true old : decodes_to KBool 0 old [1] (SB true).
Proof.
  intros d m i num r f Hf Ho Hn Hl. pose proof (tag_length num 0). rewrite !app_length in Hl. fuel f. rewrite dec_msg_S by lia. rewrite Hf.
  exists f. split; [lia|reflexivity].
Qed.
Lemma dec_str s old : utf8_valid s = true -> zlen (bytes_of s) < 2 ^ 64 -> decodes_to KStr 2 old (enc_bytes (bytes_of s)) (SS s).
Proof.
  intros Hu Hs d m i num r f Hf Ho Hn Hl. pose proof (tag_length num 2). rewrite !app_length in Hl. fuel f. rewrite dec_msg_S by lia. rewrite Hf.
  change (2 =? 2) with true. cbv iota. rewrite dec_enc_bytes by exact Hs. cbv zeta. rewrite bytes_string, Hu.
  exists f. split; [lia|reflexivity].
Qed.
Lemma dec_byt s old : zlen (bytes_of s) < 2 ^ 64 -> decodes_to KBytes 2 old (enc_bytes (bytes_of s)) (SS s).
Proof.
  intros Hs d m i num r f Hf Ho Hn Hl. pose proof (tag_length num 2). rewrite !app_length in Hl. fuel f. rewrite dec_msg_S by lia. rewrite Hf.
  change (2 =? 2) with true. cbv iota. rewrite dec_enc_bytes by exact Hs. rewrite bytes_string.
  exists f. split; [lia|reflexivity].
Qed.
Lemma enc_bytes_length b : (List.length b < List.length (enc_bytes b))%nat.
Proof. unfold enc_bytes. destruct (enc_varint_cons (zlen b)) as (x & l & ->). cbn. rewrite app_length. lia. Qed.
Definition dec_whole (d : desc) (b : list byte) (x : msg) : Prop := forall f, (List.length b < f)%nat -> dec_msg f d (zero_msg d) b = Some x.
Lemma dec_sub d' b x : zlen b < 2 ^ 64 -> dec_whole d' b x -> decodes_to (KMsg d') 2 (SM None) (enc_bytes b) (SM (Some x)).
Proof.
  intros Hs Hx d m i num r f Hf Ho Hn Hl. pose proof (tag_length num 2). rewrite !app_length in Hl. fuel f. rewrite dec_msg_S by lia. rewrite Hf.
  change (2 =? 2) with true. cbv iota. rewrite dec_enc_bytes by exact Hs. rewrite Ho. cbv zeta.
  pose proof (enc_bytes_length b). rewrite Hx by lia. exists f. split; [lia|reflexivity].
Qed.
Lemma dec_elem d' b x acc : zlen b < 2 ^ 64 -> dec_whole d' b x -> decodes_to (KRep d') 2 (SR acc) (enc_bytes b) (SR (acc ++ [x])).
Proof.
  intros Hs Hx d m i num r f Hf Ho Hn Hl. pose proof (tag_length num 2). rewrite !app_length in Hl. fuel f. rewrite dec_msg_S by lia. rewrite Hf.
  change (2 =? 2) with true. cbv iota. rewrite dec_enc_bytes by exact Hs. rewrite Ho. cbv zeta.
  pose proof (enc_bytes_length b). rewrite Hx by lia. exists f. split; [lia|reflexivity].
Qed.

(** ** round trip *)

Definition good_slot (k : kind) : Prop := kind_wf k -> forall num s, slot_ok k s -> 1 <= num <= 536870911 ->
  exists b, enc_slot k num s = Some b /\
    (zlen b < 2 ^ 64 -> forall d m i r f, find_field d num = Some (i, k) -> nth_error m i = Some (zero_slot k) ->
       (List.length (b ++ r) < f)%nat ->
       exists f', (List.length r < f')%nat /\ dec_msg f d m (b ++ r) = dec_msg f' d (set_nth i s m) r).

Lemma opt_app_Some a b x : opt_app a b = Some x -> exists p q, a = Some p /\ b = Some q /\ x = p ++ q.
Proof. destruct a, b; cbn; try discriminate. intros [= <-]. eauto. Qed.

Lemma good_fields d : Forall (fun f => good_slot (snd f)) d -> desc_wf d -> forall m, msg_ok d m ->
  exists b, enc_msg d m = Some b /\ (zlen b < 2 ^ 64 -> dec_whole d b m).
Proof.
  intros G W.
  assert (K : forall d2 d1 m1 m2, d = d1 ++ d2 -> List.length m1 = List.length d1 -> msg_ok d2 m2 ->
     exists b, enc_msg d2 m2 = Some b /\ (zlen b < 2 ^ 64 ->
       forall f, (List.length b < f)%nat -> dec_msg f d (m1 ++ zero_msg d2) b = Some (m1 ++ m2))).
  { induction d2 as [|[num k] d2 IH]; intros d1 m1 m2 Ed El Ho.
    - destruct m2; [|contradiction]. exists []. split; [reflexivity|]. intros _ [|f] Hf; [cbn in Hf; lia|]. reflexivity.
    - destruct m2 as [|s m2]; [contradiction|]. destruct Ho as [Ho1 Ho2].
      destruct W as [W1 W2]. rewrite Ed in G, W1, W2.
      assert (Gk : good_slot k) by (apply Forall_elt in G; exact G).
      assert (Wk : 1 <= num <= 536870911 /\ kind_wf k).
      { clear -W2. induction d1 as [|[n q] d1 IH]; cbn in W2; tauto. }
      assert (Hd : ~ In num (map fst d1)).
      { rewrite map_app in W1. apply NoDup_remove_2 in W1. intros X. apply W1. apply in_or_app. now left. }
      destruct Wk as [Wn Wk]. destruct (Gk Wk num s Ho1 Wn) as (b1 & E1 & D1).
      destruct (IH (d1 ++ [(num, k)]) (m1 ++ [s]) m2) as (b2 & E2 & D2).
      { rewrite <- app_assoc. exact Ed. } { rewrite !app_length. cbn. lia. } { exact Ho2. }
      exists (b1 ++ b2). split; [cbn; now rewrite E1, E2|]. intros Hl f Hf. rewrite zlen_app in Hl.
      pose proof (zlen_nonneg b1). pose proof (zlen_nonneg b2).
      cbn [zero_msg map snd]. fold (zero_msg d2).
      destruct (D1 ltac:(lia) d (m1 ++ zero_slot k :: zero_msg d2) (List.length d1) b2 f) as (f' & F1 & F2).
      + rewrite Ed. now apply find_field_at.
      + rewrite <- El. apply nth_app.
      + exact Hf.
      + rewrite F2, <- El, set_nth_app. specialize (D2 ltac:(lia) f' F1).
        rewrite <- !app_assoc in D2. exact D2. }
  intros m Hm. destruct (K d [] [] m eq_refl eq_refl Hm) as (b & E & D). exists b. split; [exact E|]. intros H f. now apply D.
Qed.

Lemma zlen_enc_bytes b : zlen b < zlen (enc_bytes b).
Proof. pose proof (enc_bytes_length b). unfold zlen. lia. Qed.

Lemma zlen_payload (t b : list byte) n : zlen (t ++ enc_bytes b) < n -> zlen b < n.
Proof. rewrite zlen_app. pose proof (zlen_enc_bytes b). pose proof (zlen_nonneg t). lia. Qed.

Lemma zlen_app_lt (a b : list byte) n : zlen (a ++ b) < n -> zlen a < n /\ zlen b < n.
Proof. rewrite zlen_app. pose proof (zlen_nonneg a). pose proof (zlen_nonneg b). lia. Qed.

Lemma good_all k : good_slot k.
Proof.
  induction k as [| | | | |d G|d G] using kind_ind'; intros W num s Ho Hn.
  - destruct s; try contradiction. cbn. destruct (Z.eqb_spec bits 0) as [->|Hb].
    + exists []. split; [reflexivity|]. intros _ d m i r f Hf Hm Hl. exists f. split; [exact Hl|]. cbn. rewrite set_nth_same; auto.
    + eexists. split; [reflexivity|]. intros _ d m i r f Hf Hm Hl. rewrite <- app_assoc in *. eapply dec_double; eauto.
  - destruct s; try contradiction. cbn. destruct (Z.eqb_spec z 0) as [->|Hb].
    + exists []. split; [reflexivity|]. intros _ d m i r f Hf Hm Hl. exists f. split; [exact Hl|]. cbn. rewrite set_nth_same; auto.
    + eexists. split; [reflexivity|]. intros _ d m i r f Hf Hm Hl. rewrite <- app_assoc in *. eapply dec_int; eauto.
  - destruct s as [| |[]| | |]; try contradiction; cbn.
    + eexists. split; [reflexivity|]. intros _ d m i r f Hf Hm Hl. rewrite <- app_assoc in *. eapply dec_true; eauto.
    + exists []. split; [reflexivity|]. intros _ d m i r f Hf Hm Hl. exists f. split; [exact Hl|]. cbn. rewrite set_nth_same; auto.
  - destruct s; try contradiction. cbn [slot_ok] in Ho; cbn [enc_slot]. rewrite Ho. destruct (Z.eqb_spec (slen s) 0) as [E|E].
    + exists []. split; [reflexivity|]. intros _ d m i r f Hf Hm Hl. exists f. split; [exact Hl|]. cbn.
      destruct s; [|unfold slen in E; cbn in E; lia]. rewrite set_nth_same; auto.
    + eexists. split; [reflexivity|]. intros Hz d m i r f Hf Hm Hl. rewrite <- app_assoc in *. eapply dec_str; eauto.
      eapply zlen_payload, Hz.
  - destruct s; try contradiction. cbn [slot_ok] in Ho; cbn [enc_slot]. destruct (Z.eqb_spec (slen s) 0) as [E|E].
    + exists []. split; [reflexivity|]. intros _ d m i r f Hf Hm Hl. exists f. split; [exact Hl|]. cbn.
      destruct s; [|unfold slen in E; cbn in E; lia]. rewrite set_nth_same; auto.
    + eexists. split; [reflexivity|]. intros Hz d m i r f Hf Hm Hl. rewrite <- app_assoc in *. eapply dec_byt; eauto.
      eapply zlen_payload, Hz.
  - destruct s as [| | | |[m0|]|]; try contradiction.
    + rewrite enc_slot_msg. apply slot_ok_msg in Ho. apply kind_wf_msg in W.
      destruct (good_fields d G W m0 Ho) as (b & E & D). rewrite E. eexists. split; [reflexivity|].
      intros Hz d0 m i r f Hf Hm Hl. rewrite zlen_app in Hz. pose proof (zlen_enc_bytes b). pose proof (zlen_nonneg (enc_tag num 2)).
      rewrite <- app_assoc in *. eapply dec_sub; eauto; [lia|]. apply D. lia.
    + exists []. split; [reflexivity|]. intros _ d0 m i r f Hf Hm Hl. exists f. split; [exact Hl|]. cbn. rewrite set_nth_same; auto.
  - destruct s as [| | | | |l]; try contradiction. rewrite enc_slot_rep. apply slot_ok_rep in Ho.
    assert (W' : desc_wf d) by (apply kind_wf_msg; exact W).
    assert (K : exists b, fold_right (fun m acc => opt_app (match enc_msg d m with Some b => Some (enc_tag num 2 ++ enc_bytes b) | None => None end) acc) (Some []) l = Some b /\
      (zlen b < 2 ^ 64 -> forall acc d0 m i r f, find_field d0 num = Some (i, KRep d) -> nth_error m i = Some (SR acc) ->
         (List.length (b ++ r) < f)%nat ->
         exists f', (List.length r < f')%nat /\ dec_msg f d0 m (b ++ r) = dec_msg f' d0 (set_nth i (SR (acc ++ l)) m) r)).
    { clear -G W' Ho Hn. induction Ho as [|m0 l Hm Hl IH].
      - exists []. split; [reflexivity|]. intros _ acc d0 m i r f Hf Hi Hlen. exists f. split; [exact Hlen|].
        rewrite app_nil_r, set_nth_same; auto.
      - destruct IH as (b2 & E2 & D2). destruct (good_fields d G W' m0 Hm) as (b1 & E1 & D1).
        cbn [fold_right]. rewrite E1, E2. cbn [opt_app]. eexists. split; [reflexivity|].
        intros Hz acc d0 m i r f Hf Hi Hlen. apply zlen_app_lt in Hz. destruct Hz as [Z1 Z2]. apply zlen_payload in Z1.
        rewrite <- !app_assoc in *.
        destruct (dec_elem d b1 m0 acc Z1 (D1 Z1) d0 m i num (b2 ++ r) f Hf Hi Hn Hlen) as (f1 & F1 & F2).
        rewrite F2. destruct (D2 Z2 (acc ++ [m0]) d0 (set_nth i (SR (acc ++ [m0])) m) i r f1 Hf) as (f2 & F3 & F4).
        + eapply nth_error_set; eauto.
        + exact F1.
        + exists f2. split; [exact F3|]. etransitivity; [exact F4|]. rewrite set_nth_twice, <- app_assoc. reflexivity. }
    destruct K as (b & E & D). exists b. split; [exact E|]. intros Hz d0 m i r f Hf Hi Hlen.
    destruct (D Hz [] d0 m i r f Hf Hi Hlen) as (f' & F1 & F2). exists f'. split; [exact F1|exact F2].
Qed.

Lemma C37_proof d m : desc_wf d -> msg_ok d m ->
  exists b, marshal d m = Some b /\ (zlen b < 2 ^ 63 -> unmarshal d b = Some m).
Proof.
  intros W H. destruct (good_fields d) with (m := m) as (b & E & D); auto.
  - apply Forall_forall. intros f _. apply good_all.
  - exists b. split; [exact E|]. intros Hz. apply D; lia.
Qed.

(** ** encoding fails only on strings that are not UTF-8 *)

Lemma utf8_fields d : Forall (fun f => forall num s b, enc_slot (snd f) num s = Some b -> slot_utf8 (snd f) s) d ->
  forall m b, enc_msg d m = Some b -> msg_utf8 d m.
Proof.
  induction 1 as [|[n k] d Hk Hd IH]; intros [|s m] b E; cbn; auto.
  cbn in E. apply opt_app_Some in E. destruct E as (p & q & E1 & E2 & _). split; [eapply Hk; exact E1|eauto].
Qed.
Lemma utf8_all k : forall num s b, enc_slot k num s = Some b -> slot_utf8 k s.
Proof.
  induction k as [| | | | |d G|d G] using kind_ind'; intros num s b E; try exact I.
  - destruct s; try exact I. cbn in *. destruct (utf8_valid s); congruence.
  - destruct s as [| | | |[m0|]|]; try exact I. rewrite enc_slot_msg in E.
    destruct (enc_msg d m0) eqn:E0; [|discriminate]. change (msg_utf8 d m0). eapply utf8_fields; eauto.
  - destruct s as [| | | | |l]; try exact I. rewrite enc_slot_rep in E. change (Forall (msg_utf8 d) l).
    revert b E. induction l as [|m l IH]; intros b E; constructor.
    + cbn in E. apply opt_app_Some in E. destruct E as (p & q & E1 & E2 & _).
      destruct (enc_msg d m) eqn:E0; [|discriminate]. eapply utf8_fields; eauto.
    + cbn in E. apply opt_app_Some in E. destruct E as (p & q & E1 & E2 & _). eauto.
Qed.
Lemma enc_utf8 d m b : marshal d m = Some b -> msg_utf8 d m.
Proof. apply utf8_fields. apply Forall_forall. intros f _. apply utf8_all. Qed.

(** ** a decoded prefix: messages concatenate *)

Lemma varint_dec_app k : forall l n r x, varint_dec k l = Some (n, r) -> varint_dec k (l ++ x) = Some (n, r ++ x) /\ (List.length r < List.length l)%nat.
Proof.
  induction k as [|k IH]; intros [|b l] n r x E; cbn [varint_dec app] in *; try discriminate.
  destruct (b <? 128).
  - destruct (Nat.eqb k 0 && (1 <? b)); [discriminate|]. injection E as <- <-. cbn. split; [reflexivity|lia].
  - destruct (varint_dec k l) as [[n' r']|] eqn:E'; [|discriminate]. injection E as <- <-.
    destruct (IH _ _ _ x E') as [-> H]. cbn. split; [reflexivity|lia].
Qed.
Lemma dec_varint_app l n r x : dec_varint l = Some (n, r) -> dec_varint (l ++ x) = Some (n, r ++ x) /\ (List.length r < List.length l)%nat.
Proof. apply varint_dec_app. Qed.
Lemma le_dec_app k : forall l n r x, le_dec k l = Some (n, r) -> le_dec k (l ++ x) = Some (n, r ++ x) /\ (List.length r <= List.length l)%nat.
Proof.
  induction k as [|k IH]; intros l n r x E; cbn [le_dec] in *.
  - injection E as <- <-. split; [reflexivity|lia].
  - destruct l as [|b l]; [discriminate|]. cbn [app]. destruct (le_dec k l) as [[n' r']|] eqn:E'; [|discriminate].
    injection E as <- <-. destruct (IH _ _ _ x E') as [-> H]. cbn. split; [reflexivity|lia].
Qed.
Lemma dec_bytes_app l b r x : dec_bytes l = Some (b, r) -> dec_bytes (l ++ x) = Some (b, r ++ x) /\ (List.length b + List.length r < List.length l)%nat.
Proof.
  unfold dec_bytes. destruct (dec_varint l) as [[n r0]|] eqn:E; [|discriminate]. destruct (dec_varint_app _ _ _ x E) as [-> Hl].
  destruct (Z.ltb_spec (zlen r0) n) as [|H]; [discriminate|]. intros [= <- <-].
  rewrite zlen_app. pose proof (zlen_nonneg x). destruct (Z.ltb_spec (zlen r0 + zlen x) n); [lia|]. unfold zlen in H.
  assert (Hn : (Z.to_nat n <= List.length r0)%nat) by lia. split.
  - f_equal. f_equal.
    + rewrite firstn_app. replace (Z.to_nat n - List.length r0)%nat with 0%nat by lia. cbn. apply app_nil_r.
    + rewrite skipn_app. replace (Z.to_nat n - List.length r0)%nat with 0%nat by lia. reflexivity.
  - rewrite <- app_length, firstn_skipn. exact Hl.
Qed.
Lemma dec_tag_app max l num wt r x : dec_tag_max max l = Some (num, wt, r) -> dec_tag_max max (l ++ x) = Some (num, wt, r ++ x) /\ (List.length r < List.length l)%nat.
Proof.
  unfold dec_tag_max. destruct (dec_varint l) as [[n r0]|] eqn:E; [|discriminate]. destruct (dec_varint_app _ _ _ x E) as [-> Hl].
  destruct ((n / 8 <? 1) || (max <? n / 8)); [discriminate|]. intros [= <- <- <-]. auto.
Qed.

Definition group_of (f : nat) (num : Z) : nat -> list byte -> option (list byte) :=
  fix group (g : nat) (l : list byte) : option (list byte) :=
    match g with
    | O => None
    | S g' =>
        match dec_tag_max 2147483647 l with
        | None => None
        | Some (num', wt', r) =>
            if (wt' =? 4)%Z then if (num' =? num)%Z then Some r else None
            else match skip_value f num' wt' r with
                 | Some r' => group g' r'
                 | None => None
                 end
        end
    end.
Lemma skip_value_eq f num wt l : skip_value f num wt l =
  if (wt =? 0)%Z then match dec_varint l with Some (_, r) => Some r | None => None end
  else if (wt =? 1)%Z then match le_dec 8 l with Some (_, r) => Some r | None => None end
  else if (wt =? 5)%Z then match le_dec 4 l with Some (_, r) => Some r | None => None end
  else if (wt =? 2)%Z then match dec_bytes l with Some (_, r) => Some r | None => None end
  else if (wt =? 3)%Z then match f with O => None | S f => group_of f num (S (List.length l)) l end else None.
Proof. destruct f; reflexivity. Qed.

Lemma skip_app f : forall num wt l r x, skip_value f num wt l = Some r ->
  skip_value f num wt (l ++ x) = Some (r ++ x) /\ (List.length r <= List.length l)%nat.
Proof.
  induction f as [f IH] using lt_wf_ind; intros num wt l r x E. rewrite skip_value_eq in *.
  destruct (wt =? 0). { destruct (dec_varint l) as [[n q]|] eqn:E'; [|discriminate]. injection E as <-. destruct (dec_varint_app _ _ _ x E') as [-> H]. split; [reflexivity|lia]. }
  destruct (wt =? 1). { destruct (le_dec 8 l) as [[n q]|] eqn:E'; [|discriminate]. injection E as <-. destruct (le_dec_app _ _ _ _ x E') as [-> H]. split; [reflexivity|lia]. }
  destruct (wt =? 5). { destruct (le_dec 4 l) as [[n q]|] eqn:E'; [|discriminate]. injection E as <-. destruct (le_dec_app _ _ _ _ x E') as [-> H]. split; [reflexivity|lia]. }
  destruct (wt =? 2). { destruct (dec_bytes l) as [[n q]|] eqn:E'; [|discriminate]. injection E as <-. destruct (dec_bytes_app _ _ _ x E') as [-> H]. split; [reflexivity|lia]. }
  destruct (wt =? 3); [|discriminate]. destruct f as [|f]; [discriminate|].
  assert (G : forall g g' l r, (g <= g')%nat -> group_of f num g l = Some r -> group_of f num g' (l ++ x) = Some (r ++ x) /\ (List.length r <= List.length l)%nat).
  { induction g as [|g IHg]; intros g' l0 r0 Hg E0; [discriminate|]. destruct g' as [|g']; [lia|]. cbn [group_of] in *.
    destruct (dec_tag_max 2147483647 l0) as [[[num' wt'] q]|] eqn:E'; [|discriminate]. destruct (dec_tag_app _ _ _ _ _ x E') as [-> H].
    destruct (wt' =? 4).
    - destruct (num' =? num); [|discriminate]. injection E0 as <-. split; [reflexivity|lia].
    - destruct (skip_value f num' wt' q) as [q'|] eqn:E1; [|discriminate].
      destruct (IH f (Nat.lt_succ_diag_r f) _ _ _ _ x E1) as [-> H1]. destruct (IHg g' q' r0 ltac:(lia) E0) as [-> H2]. split; [reflexivity|lia]. }
  apply (G (S (List.length l))); [rewrite app_length; lia|exact E].
Qed.

Definition dec_field (dec : desc -> msg -> list byte -> option msg) (m : msg) (i : nat) (k : kind) (wt : Z) (r : list byte) : fres :=
  match k with
  | KDouble => if (wt =? 1)%Z then match le_dec 8 r with Some (b, r') => FOk (SF b) r' | None => FErr end else FUnknown
  | KInt => if (wt =? 0)%Z then match dec_varint r with Some (n, r') => FOk (SI (i64 n)) r' | None => FErr end else FUnknown
  | KBool => if (wt =? 0)%Z then match dec_varint r with Some (n, r') => FOk (SB (negb (n =? 0)%Z)) r' | None => FErr end else FUnknown
  | KStr => if (wt =? 2)%Z then match dec_bytes r with
        | Some (b, r') => let s := string_of_bytes b in if utf8_valid s then FOk (SS s) r' else FErr
        | None => FErr end else FUnknown
  | KBytes => if (wt =? 2)%Z then match dec_bytes r with Some (b, r') => FOk (SS (string_of_bytes b)) r' | None => FErr end else FUnknown
  | KMsg d' => if (wt =? 2)%Z then match dec_bytes r with
        | Some (b, r') =>
            let old := match nth_error m i with Some (SM (Some x)) => x | _ => zero_msg d' end in
            match dec d' old b with Some x => FOk (SM (Some x)) r' | None => FErr end
        | None => FErr end else FUnknown
  | KRep d' => if (wt =? 2)%Z then match dec_bytes r with
        | Some (b, r') =>
            let old := match nth_error m i with Some (SR x) => x | _ => [] end in
            match dec d' (zero_msg d') b with Some x => FOk (SR (old ++ [x])) r' | None => FErr end
        | None => FErr end else FUnknown
  end.
Lemma dec_msg_step f d m b l : dec_msg (S f) d m (b :: l) =
  match dec_tag (b :: l) with
  | None => None
  | Some (num, wt, r) =>
      match find_field d num with
      | None => match skip_unknown num wt r with Some r' => dec_msg f d m r' | None => None end
      | Some (i, k) =>
          match dec_field (dec_msg f) m i k wt r with
          | FOk s r' => dec_msg f d (set_nth i s m) r'
          | FErr => None
          | FUnknown => match skip_unknown num wt r with Some r' => dec_msg f d m r' | None => None end
          end
      end
  end.
Proof.
  cbn [dec_msg]. destruct (dec_tag (b :: l)) as [[[num wt] r]|]; [|reflexivity].
  destruct (find_field d num) as [[i k]|]; [|reflexivity]. destruct k; reflexivity.
Qed.

Lemma dec_field_app dec dec' m i k wt r s r' x :
  (forall d m b y, (List.length b <= List.length r)%nat -> dec d m b = Some y -> dec' d m b = Some y) ->
  dec_field dec m i k wt r = FOk s r' -> dec_field dec' m i k wt (r ++ x) = FOk s (r' ++ x) /\ (List.length r' <= List.length r)%nat.
Proof.
  intros Hd. unfold dec_field. destruct k.
  - destruct (wt =? 1); [|discriminate]. destruct (le_dec 8 r) as [[n q]|] eqn:E; [|discriminate]. intros [= <- <-]. destruct (le_dec_app _ _ _ _ x E) as [-> H]. split; [reflexivity|lia].
  - destruct (wt =? 0); [|discriminate]. destruct (dec_varint r) as [[n q]|] eqn:E; [|discriminate]. intros [= <- <-]. destruct (dec_varint_app _ _ _ x E) as [-> H]. split; [reflexivity|lia].
  - destruct (wt =? 0); [|discriminate]. destruct (dec_varint r) as [[n q]|] eqn:E; [|discriminate]. intros [= <- <-]. destruct (dec_varint_app _ _ _ x E) as [-> H]. split; [reflexivity|lia].
  - destruct (wt =? 2); [|discriminate]. destruct (dec_bytes r) as [[n q]|] eqn:E; [|discriminate]. cbv zeta. destruct (utf8_valid (string_of_bytes n)) eqn:Eu; [|discriminate]. intros [= <- <-]. destruct (dec_bytes_app _ _ _ x E) as [-> H]. rewrite Eu. split; [reflexivity|lia].
  - destruct (wt =? 2); [|discriminate]. destruct (dec_bytes r) as [[n q]|] eqn:E; [|discriminate]. intros [= <- <-]. destruct (dec_bytes_app _ _ _ x E) as [-> H]. split; [reflexivity|lia].
  - destruct (wt =? 2); [|discriminate]. destruct (dec_bytes r) as [[n q]|] eqn:E; [|discriminate]. cbv zeta. destruct (dec_bytes_app _ _ _ x E) as [-> H].
    match goal with |- match dec ?a ?b ?c with _ => _ end = _ -> _ => destruct (dec a b c) as [y|] eqn:Ey; [|discriminate] end.
    intros [= <- <-]. assert (Hb : (List.length n <= List.length r)%nat) by lia. rewrite (Hd _ _ _ _ Hb Ey). split; [reflexivity|lia].
  - destruct (wt =? 2); [|discriminate]. destruct (dec_bytes r) as [[n q]|] eqn:E; [|discriminate]. cbv zeta. destruct (dec_bytes_app _ _ _ x E) as [-> H].
    match goal with |- match dec ?a ?b ?c with _ => _ end = _ -> _ => destruct (dec a b c) as [y|] eqn:Ey; [|discriminate] end.
    intros [= <- <-]. assert (Hb : (List.length n <= List.length r)%nat) by lia. rewrite (Hd _ _ _ _ Hb Ey). split; [reflexivity|lia].
Qed.
Lemma dec_field_unknown dec dec' m i k wt r r' : dec_field dec m i k wt r = FUnknown -> dec_field dec' m i k wt r' = FUnknown.
Proof.
  unfold dec_field. destruct k;
  repeat match goal with |- context [wt =? ?z] => destruct (wt =? z) end; try reflexivity; cbv zeta; intros E; exfalso;
  repeat match type of E with context [match ?a with _ => _ end] => destruct a end; discriminate.
Qed.

Lemma dec_app f : forall d m l m', dec_msg f d m l = Some m' -> forall x f', (List.length (l ++ x) < f')%nat ->
  exists f'', (List.length x < f'')%nat /\ dec_msg f' d m (l ++ x) = dec_msg f'' d m' x.
Proof.
  induction f as [|f IH]; intros d m l m' E x f' Hf; [discriminate|].
  destruct l as [|b l]. { cbn in E. injection E as <-. exists f'. split; [exact Hf|reflexivity]. }
  destruct f' as [|f']; [lia|]. rewrite dec_msg_step in E. 
  change ((b :: l) ++ x) with (b :: (l ++ x)) in *. rewrite dec_msg_step.
  destruct (dec_tag (b :: l)) as [[[num wt] r]|] eqn:Et; [|discriminate].
  destruct (dec_tag_app _ _ _ _ _ x Et) as [Et' Ht]. change (dec_tag (b :: (l ++ x)) = Some (num, wt, r ++ x)) in Et'. rewrite Et'. clear Et'.
  cbn [List.length] in Hf, Ht. rewrite app_length in Hf.
  assert (Sk : forall q, skip_unknown num wt r = Some q -> dec_msg f d m q = Some m' ->
     exists f'', (List.length x < f'')%nat /\ match skip_unknown num wt (r ++ x) with Some r' => dec_msg f' d m r' | None => None end = dec_msg f'' d m' x).
  { intros q Eq Em. destruct (skip_app _ num wt r q x Eq) as [Eq' H]. unfold skip_unknown. rewrite Eq'.
    apply (IH _ _ _ _ Em). rewrite app_length. lia. }
  assert (Sk' : match skip_unknown num wt r with Some r' => dec_msg f d m r' | None => None end = Some m' ->
     exists f'', (List.length x < f'')%nat /\ match skip_unknown num wt (r ++ x) with Some r' => dec_msg f' d m r' | None => None end = dec_msg f'' d m' x).
  { destruct (skip_unknown num wt r) as [q|] eqn:Eq; [|discriminate]. intros Em. apply (Sk q eq_refl Em). }
  destruct (find_field d num) as [[i k]|]; [|exact (Sk' E)].
  destruct (dec_field (dec_msg f) m i k wt r) as [s r'| |] eqn:Ef; [| |discriminate].
  - destruct (dec_field_app (dec_msg f) (dec_msg f') m i k wt r s r' x) as [-> H]; [|exact Ef|].
    + intros d0 m0 b0 y Hb Ey. destruct (IH _ _ _ _ Ey [] f') as (g & Hg & Eg); [rewrite app_nil_r; lia|].
      rewrite app_nil_r in Eg. rewrite Eg. destruct g; [cbn in Hg; lia|]. reflexivity.
    + apply (IH _ _ _ _ E). rewrite app_length. lia.
  - rewrite (dec_field_unknown _ (dec_msg f') _ _ _ _ _ (r ++ x) Ef). exact (Sk' E).
Qed.
Lemma dec_fuel f f' d m l m' : dec_msg f d m l = Some m' -> (List.length l < f')%nat -> dec_msg f' d m l = Some m'.
Proof.
  intros E H. destruct (dec_app f _ _ _ _ E [] f') as (g & Hg & Eg); [now rewrite app_nil_r|].
  rewrite app_nil_r in Eg. rewrite Eg. destruct g; [cbn in Hg; lia|]. reflexivity.
Qed.

(** More fuel than bytes changes nothing. *)
Lemma dec_fuel_eq f f' d m l : (List.length l < f)%nat -> (List.length l < f')%nat -> dec_msg f d m l = dec_msg f' d m l.
Proof.
  intros H H'. destruct (dec_msg f d m l) as [m1|] eqn:E.
  - symmetry. eapply dec_fuel; eauto.
  - destruct (dec_msg f' d m l) as [m2|] eqn:E'; [|reflexivity]. rewrite (dec_fuel _ f _ _ _ _ E' H) in E. discriminate.
Qed.

(** Decoding a concatenation continues from what the first part decoded to. *)
Definition unmarshal_into (d : desc) (m : msg) (l : list byte) : option msg := dec_msg (S (List.length l)) d m l.
Lemma unmarshal_app d m l m' x : unmarshal_into d m l = Some m' -> unmarshal_into d m (l ++ x) = unmarshal_into d m' x.
Proof.
  intros E. destruct (dec_app _ _ _ _ _ E x (S (List.length (l ++ x)))) as (g & Hg & Eg); [lia|].
  unfold unmarshal_into. rewrite Eg. apply dec_fuel_eq; lia.
Qed.

Lemma skip_wire_value wt v num r : wire_value wt v -> skip_unknown num wt (v ++ r) = Some r.
Proof.
  intros H. unfold skip_unknown. rewrite skip_value_eq. destruct H as [n H|l H|l H|l H]; cbn [Z.eqb Pos.eqb].
  - now rewrite dec_enc_varint.
  - destruct (le_dec_length 8 l r H) as [n ->]. reflexivity.
  - destruct (le_dec_length 4 l r H) as [n ->]. reflexivity.
  - now rewrite dec_enc_bytes.
Qed.
Lemma unknown_skipped d u m : unknown_field d u -> unmarshal_into d m u = Some m.
Proof.
  intros [num wt v Hn Hd Hv]. unfold unmarshal_into.
  assert (0 <= wt < 8) by (destruct Hv; lia).
  rewrite dec_msg_S by lia. rewrite find_field_none by exact Hd.
  pose proof (skip_wire_value wt v num [] Hv) as Es. rewrite app_nil_r in Es. rewrite Es.
  pose proof (tag_length num wt). rewrite app_length. destruct (List.length (enc_tag num wt) + List.length v)%nat eqn:E; [lia|]. reflexivity.
Qed.

(** An unknown field between two parts of an encoding is ignored. *)
Lemma C37_unknown_proof d b1 u b2 m1 : unmarshal d b1 = Some m1 -> unknown_field d u ->
  unmarshal d (b1 ++ u ++ b2) = unmarshal d (b1 ++ b2).
Proof.
  intros E1 Hu. change (unmarshal_into d (zero_msg d) b1 = Some m1) in E1.
  change (unmarshal_into d (zero_msg d) (b1 ++ u ++ b2) = unmarshal_into d (zero_msg d) (b1 ++ b2)).
  rewrite !(unmarshal_app _ _ _ _ _ E1). now rewrite (unmarshal_app _ _ _ _ _ (unknown_skipped d u m1 Hu)).
Qed.
