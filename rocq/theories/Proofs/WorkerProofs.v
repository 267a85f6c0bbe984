(** What is left behind by an encoder that fails is never decoded. *)
From Coq Require Import Lia.
From Verif.Model Require Import Base Utf8 Num Geo Curve PropMap Types Pb Track Route Navigator Device Generator Wire WireMsgs IO Worker.
From Verif.Spec Require Import GenSpec GenConcSpec WireSpec WireMsgSpec PacketConcSpec WorkerSpec.
From Verif.Proofs Require Import BaseLemmas WireProofs WireMsgProofs WireTop GenProofs.
Open Scope Z_scope.

(** ** parts and wholes *)

Lemma part_slot_msg d num m : part_slot (KMsg d) num (SM (Some m)) = nested num (zlen (raw_msg d m)) (part_msg d m).
Proof. reflexivity. Qed.
Lemma part_slot_rep d num l : part_slot (KRep d) num (SR l) =
  fold_right (fun m rest => and_then (nested num (zlen (raw_msg d m)) (part_msg d m)) rest) ([], true) l.
Proof. reflexivity. Qed.
Lemma raw_slot_msg d num m : raw_slot (KMsg d) num (SM (Some m)) = enc_tag num 2 ++ enc_bytes (raw_msg d m).
Proof. reflexivity. Qed.
Lemma raw_slot_rep d num l : raw_slot (KRep d) num (SR l) = flat_map (fun m => enc_tag num 2 ++ enc_bytes (raw_msg d m)) l.
Proof. reflexivity. Qed.

(** [p]: what was written; [w]: the whole; [e]: the answer of the encoder *)
Definition part_of (p : list byte * bool) (w : list byte) (e : option (list byte)) : Prop :=
  (List.length (fst p) <= List.length w)%nat /\ (if snd p then fst p = w /\ e = Some w else e = None).

Lemma part_of_app p q v w e e' : part_of p v e -> part_of q w e' -> part_of (and_then p q) (v ++ w) (opt_app e e').
Proof.
  intros [A B] [C D]. unfold and_then. destruct p as [p [|]], q as [q [|]]; cbn [fst snd] in *.
  - destruct B as [-> ->], D as [-> ->]. split; cbn; [lia|auto].
  - destruct B as [-> ->]. rewrite D. split; cbn; [rewrite !app_length; lia|auto].
  - rewrite B. split; cbn; [rewrite app_length; lia|auto].
  - rewrite B. split; cbn; [rewrite app_length; lia|auto].
Qed.
Lemma part_of_nested num p w e : part_of p w e ->
  part_of (nested num (zlen w) p) (enc_tag num 2 ++ enc_bytes w) (match e with Some b => Some (enc_tag num 2 ++ enc_bytes b) | None => None end).
Proof.
  intros [A B]. unfold nested, enc_bytes, part_of. cbn [fst snd]. rewrite !app_length. split; [lia|].
  destruct (snd p); [destruct B as [-> ->]; auto|now rewrite B].
Qed.
Lemma part_of_fields d : Forall (fun f => forall num s, part_of (part_slot (snd f) num s) (raw_slot (snd f) num s) (enc_slot (snd f) num s)) d ->
  forall m, part_of (part_msg d m) (raw_msg d m) (enc_msg d m).
Proof.
  induction 1 as [|[n k] d Hk Hd IH]; intros [|s m]; try (split; cbn; [lia|auto]).
  cbn [part_msg raw_msg enc_msg]. apply part_of_app; [apply Hk|apply IH].
Qed.
Lemma part_of_slot k : forall num s, part_of (part_slot k num s) (raw_slot k num s) (enc_slot k num s).
Proof.
  induction k as [| | | | |d G|d G] using kind_ind'; intros num s;
    try (destruct s; split; cbn; [lia|auto|lia|auto|lia|auto|lia|auto|lia|auto|lia|auto]; fail).
  - destruct s; try (split; cbn; [lia|auto]; fail). unfold part_of. cbn [part_slot fst snd raw_slot enc_slot].
    split; [lia|]. destruct (utf8_valid s); auto.
  - destruct s as [| | | |[m0|]|]; try (split; cbn; [lia|auto]; fail).
    rewrite part_slot_msg, raw_slot_msg, enc_slot_msg. apply part_of_nested, part_of_fields, G.
  - destruct s as [| | | | |l]; try (split; cbn; [lia|auto]; fail).
    rewrite part_slot_rep, raw_slot_rep, enc_slot_rep. induction l as [|m l IH]; [split; cbn; [lia|auto]|].
    cbn [fold_right flat_map]. apply part_of_app; [|exact IH]. apply part_of_nested, part_of_fields, G.
Qed.
Lemma part_of_msg d m : part_of (part_msg d m) (raw_msg d m) (enc_msg d m).
Proof. apply part_of_fields, Forall_forall. intros f _. apply part_of_slot. Qed.

(** ** values in range, whatever the strings are *)

Fixpoint slot_int (k : kind) (s : slot) {struct k} : Prop :=
  let msg_int := fix msg_int (d : list (Z * kind)) (m : list slot) {struct d} : Prop :=
    match d, m with
    | [], [] => True
    | (_, k) :: d', s :: m' => slot_int k s /\ msg_int d' m'
    | _, _ => False
    end in
  match k, s with
  | KDouble, SF bits => 0 <= bits < 2 ^ 64
  | KInt, SI z => - 2 ^ 63 <= z < 2 ^ 63
  | KBool, SB _ => True
  | KStr, SS _ => True
  | KBytes, SS _ => True
  | KMsg _, SM None => True
  | KMsg d, SM (Some m) => msg_int d m
  | KRep d, SR l => Forall (msg_int d) l
  | _, _ => False
  end.
Fixpoint msg_int (d : desc) (m : msg) : Prop :=
  match d, m with
  | [], [] => True
  | (_, k) :: d', s :: m' => slot_int k s /\ msg_int d' m'
  | _, _ => False
  end.
Lemma slot_int_rep d l : slot_int (KRep d) (SR l) <-> Forall (msg_int d) l.
Proof. reflexivity. Qed.

Lemma ok_fields d : Forall (fun f => forall s, slot_int (snd f) s -> slot_utf8 (snd f) s -> slot_ok (snd f) s) d ->
  forall m, msg_int d m -> msg_utf8 d m -> msg_ok d m.
Proof.
  induction 1 as [|[n k] d Hk Hd IH]; intros [|s m]; cbn; auto. intros [A B] [C D]. split; [apply Hk|apply IH]; auto.
Qed.
Lemma ok_slot k : forall s, slot_int k s -> slot_utf8 k s -> slot_ok k s.
Proof.
  induction k as [| | | | |d G|d G] using kind_ind'; intros s; try (destruct s; cbn; auto; fail).
  - destruct s as [| | | |[m0|]|]; try (cbn; auto; fail). apply (ok_fields d G).
  - destruct s as [| | | | |l]; try (cbn; auto; fail). intros A C. change (Forall (msg_int d) l) in A. change (Forall (msg_utf8 d) l) in C.
    change (Forall (msg_ok d) l). induction A; inversion C; subst; constructor; auto. now apply (ok_fields d G).
Qed.
Lemma ok_msg d m : msg_int d m -> msg_utf8 d m -> msg_ok d m.
Proof. apply ok_fields, Forall_forall. intros f _. apply ok_slot. Qed.

(** ** a part is not decoded *)

Lemma whole_slot k num s : kind_wf k -> 1 <= num <= 536870911 -> slot_int k s -> snd (part_slot k num s) = true ->
  zlen (raw_slot k num s) < 2 ^ 64 ->
  forall d m i r f, find_field d num = Some (i, k) -> nth_error m i = Some (zero_slot k) -> (List.length (fst (part_slot k num s) ++ r) < f)%nat ->
  exists f', (List.length r < f')%nat /\ dec_msg f d m (fst (part_slot k num s) ++ r) = dec_msg f' d (set_nth i s m) r.
Proof.
  intros W Hn Hi Hp Hz. destruct (part_of_slot k num s) as [_ P]. rewrite Hp in P. destruct P as [P E].
  destruct (good_all k W num s (ok_slot k s Hi (utf8_all k num s _ E)) Hn) as (b & E1 & D).
  rewrite E in E1. injection E1 as <-. rewrite P. auto.
Qed.
Lemma whole_msg d m : desc_wf d -> msg_int d m -> snd (part_msg d m) = true -> zlen (raw_msg d m) < 2 ^ 64 ->
  dec_whole d (fst (part_msg d m)) m.
Proof.
  intros W Hi Hp Hz. destruct (part_of_msg d m) as [_ P]. rewrite Hp in P. destruct P as [P E].
  destruct (good_fields d) with (m := m) as (b & E1 & D); auto.
  - apply Forall_forall. intros f _. apply good_all.
  - apply ok_msg; auto. eapply enc_utf8. exact E.
  - rewrite E in E1. injection E1 as <-. rewrite P. auto.
Qed.

(** the part of a field that failed, whatever follows in the buffer of the caller (nothing does) *)
Definition bad_slot (k : kind) : Prop := kind_wf k -> forall num s, slot_int k s -> 1 <= num <= 536870911 ->
  snd (part_slot k num s) = false -> zlen (raw_slot k num s) < 2 ^ 64 ->
  forall d m i f, find_field d num = Some (i, k) -> nth_error m i = Some (zero_slot k) ->
    (List.length (fst (part_slot k num s)) < f)%nat -> dec_msg f d m (fst (part_slot k num s)) = None.

Lemma bad_fields d : Forall (fun f => bad_slot (snd f)) d -> desc_wf d -> forall m, msg_int d m ->
  snd (part_msg d m) = false -> zlen (raw_msg d m) < 2 ^ 64 ->
  forall f, (List.length (fst (part_msg d m)) < f)%nat -> dec_msg f d (zero_msg d) (fst (part_msg d m)) = None.
Proof.
  intros G W.
  assert (K : forall d2 d1 m1 m2, d = d1 ++ d2 -> List.length m1 = List.length d1 -> msg_int d2 m2 ->
     snd (part_msg d2 m2) = false -> zlen (raw_msg d2 m2) < 2 ^ 64 ->
     forall f, (List.length (fst (part_msg d2 m2)) < f)%nat -> dec_msg f d (m1 ++ zero_msg d2) (fst (part_msg d2 m2)) = None).
  { induction d2 as [|[num k] d2 IH]; intros d1 m1 m2 Ed El Ho Hp Hz f Hf; [discriminate|].
    destruct m2 as [|s m2]; [contradiction|]. destruct Ho as [Ho1 Ho2]. pose proof W as [W1 W2]. rewrite Ed in W1, W2.
    assert (Gk : bad_slot k) by (rewrite Ed in G; apply Forall_elt in G; exact G).
    assert (Wk : 1 <= num <= 536870911 /\ kind_wf k).
    { clear -W2. induction d1 as [|[n q] d1 IH]; cbn in W2; tauto. }
    assert (Hd : ~ In num (map fst d1)).
    { rewrite map_app in W1. apply NoDup_remove_2 in W1. intros X. apply W1. apply in_or_app. now left. }
    destruct Wk as [Wn Wk]. cbn [part_msg raw_msg] in *. apply zlen_app_lt in Hz. destruct Hz as [Z1 Z2].
    assert (Ff : find_field d num = Some (List.length d1, k)) by (rewrite Ed; now apply find_field_at).
    assert (Nn : nth_error (m1 ++ zero_msg ((num, k) :: d2)) (List.length d1) = Some (zero_slot k)) by (rewrite <- El; apply nth_app).
    unfold and_then in *. destruct (snd (part_slot k num s)) eqn:E.
    - cbn [fst snd] in *. destruct (whole_slot k num s Wk Wn Ho1 E Z1 d _ _ (fst (part_msg d2 m2)) f Ff Nn Hf) as (f' & F1 & F2).
      rewrite F2. cbn [zero_msg map snd]. fold (zero_msg d2). rewrite <- El, set_nth_app.
      specialize (IH (d1 ++ [(num, k)]) (m1 ++ [s]) m2). rewrite <- !app_assoc in IH. apply IH; auto. rewrite !app_length. cbn. lia.
    - apply (Gk Wk num s Ho1 Wn E Z1 d _ _ f Ff Nn Hf). }
  intros m Hm Hp Hz f Hf. apply (K d [] [] m eq_refl eq_refl Hm Hp Hz f Hf).
Qed.

(** the length prefix of a part is that of the whole: either the bytes end too early, or the part is the whole and fails itself *)
Lemma dec_bytes_short n b : 0 <= n < 2 ^ 64 -> (zlen b <= n) ->
  dec_bytes (enc_varint n ++ b) = if zlen b <? n then None else Some (b, []).
Proof.
  intros Hn Hb. unfold dec_bytes. rewrite dec_enc_varint by exact Hn. destruct (Z.ltb_spec (zlen b) n); [reflexivity|].
  assert (n = zlen b) as -> by lia. unfold zlen. rewrite Nat2Z.id, firstn_all, skipn_all. reflexivity.
Qed.

Lemma part_zlen d m : zlen (fst (part_msg d m)) <= zlen (raw_msg d m).
Proof. destruct (part_of_msg d m) as [L _]. unfold zlen. lia. Qed.

Lemma bad_nested (rep : bool) d m0 num : Forall (fun f => bad_slot (snd f)) d -> desc_wf d -> msg_int d m0 -> 1 <= num <= 536870911 ->
  snd (part_msg d m0) = false -> zlen (raw_msg d m0) < 2 ^ 64 ->
  forall d0 m i f old, find_field d0 num = Some (i, if rep then KRep d else KMsg d) -> nth_error m i = Some old ->
    (if rep then True else old = SM None) ->
    (List.length (fst (nested num (zlen (raw_msg d m0)) (part_msg d m0))) < f)%nat ->
    dec_msg f d0 m (fst (nested num (zlen (raw_msg d m0)) (part_msg d m0))) = None.
Proof.
  intros G W Hi Hn Hp Hz d0 m i f old Hf Ho Hk Hl. unfold nested in *. cbn [fst] in *.
  pose proof (tag_length num 2). rewrite !app_length in Hl. destruct f as [|f]; [lia|].
  rewrite dec_msg_S by lia. rewrite Hf. pose proof (zlen_nonneg (raw_msg d m0)).
  destruct rep; change (2 =? 2) with true; cbv iota; rewrite dec_bytes_short by (try apply part_zlen; lia);
    destruct (zlen (fst (part_msg d m0)) <? zlen (raw_msg d m0)); try reflexivity; rewrite Ho.
  - cbv zeta. rewrite (bad_fields d G W m0 Hi Hp Hz f) by lia. reflexivity.
  - subst old. cbv zeta. rewrite (bad_fields d G W m0 Hi Hp Hz f) by lia. reflexivity.
Qed.

Lemma bad_all k : bad_slot k.
Proof.
  induction k as [| | | | |d G|d G] using kind_ind'; intros W num s Hi Hn Hp Hz d0 m i f Hf Hm Hl.
  - destruct s; discriminate.
  - destruct s; discriminate.
  - destruct s; discriminate.
  - destruct s; try discriminate. cbn [part_slot fst snd] in *. cbn [raw_slot] in *.
    destruct (Z.eqb_spec (slen s) 0) as [E|E]. { destruct s; [discriminate|unfold slen in E; cbn in E; lia]. }
    pose proof (tag_length num 2). rewrite !app_length in Hl. destruct f as [|f]; [lia|].
    rewrite dec_msg_S by lia. rewrite Hf. change (2 =? 2) with true. cbv iota.
    apply zlen_payload in Hz. rewrite <- (app_nil_r (enc_bytes (bytes_of s))), dec_enc_bytes by exact Hz. cbv zeta.
    rewrite bytes_string, Hp. reflexivity.
  - destruct s; discriminate.
  - destruct s as [| | | |[m0|]|]; try discriminate. rewrite part_slot_msg in *. rewrite raw_slot_msg in Hz.
    apply (bad_nested false d m0 num G W Hi Hn) with (i := i) (old := SM None); auto. apply zlen_payload in Hz. exact Hz.
  - destruct s as [| | | | |l]; try discriminate. rewrite part_slot_rep in *. rewrite raw_slot_rep in Hz.
    apply slot_int_rep in Hi. cbn [zero_slot] in Hm.
    assert (Hm' : exists acc, nth_error m i = Some (SR acc)) by eauto. destruct Hm' as [acc Hm']. clear Hm. rename Hm' into Hm. revert acc m Hm f Hl.
    induction l as [|m0 l IH]; intros acc m Hm f Hl; [discriminate|].
    inversion Hi as [|? ? Hi1 Hi2]; subst. cbn [fold_right flat_map] in *. apply zlen_app_lt in Hz. destruct Hz as [Z1 Z2].
    apply zlen_payload in Z1. unfold and_then in *.
    assert (En : snd (nested num (zlen (raw_msg d m0)) (part_msg d m0)) = snd (part_msg d m0)) by reflexivity.
    rewrite En in *. destruct (snd (part_msg d m0)) eqn:E.
    + set (rest := fold_right _ _ _) in *. cbn [fst snd] in *.
      pose proof (part_of_msg d m0) as [_ P]. rewrite E in P. destruct P as [P _].
      assert (Eb : fst (nested num (zlen (raw_msg d m0)) (part_msg d m0)) = enc_tag num 2 ++ enc_bytes (fst (part_msg d m0))).
      { unfold nested, enc_bytes. cbn [fst]. now rewrite P. }
      rewrite Eb, <- !app_assoc in *.
      assert (Zp : zlen (fst (part_msg d m0)) < 2 ^ 64) by (rewrite P; exact Z1).
      destruct (dec_elem d (fst (part_msg d m0)) m0 acc Zp (whole_msg d m0 W Hi1 E Z1) d0 m i num (fst rest) f Hf Hm Hn Hl) as (f' & F1 & F2).
      rewrite F2. apply (IH Hi2 Hp Z2 (acc ++ [m0])); auto. eapply nth_error_set; eauto.
    + apply (bad_nested true d m0 num G W Hi1 Hn E Z1 d0 m i f (SR acc)); auto.
Qed.

Lemma bad_msg d m : desc_wf d -> msg_int d m -> zlen (raw_msg d m) < 2 ^ 64 -> snd (part_msg d m) = false ->
  unmarshal d (fst (part_msg d m)) = None.
Proof.
  intros W Hi Hz Hp. apply bad_fields; auto. apply Forall_forall. intros f _. apply bad_all.
Qed.

(** ** packets *)
Lemma in_M {A} (w : A -> msg) d (P : A -> Prop) o : (forall x, msg_int d (w x) <-> P x) ->
  (slot_int (KMsg d) (SM (option_map w o)) <-> if_set P o).
Proof. intros H. destruct o as [x|]; cbn [option_map if_set]; [apply H|cbn; tauto]. Qed.
Lemma in_R {A} (w : A -> msg) d (P : A -> Prop) l : (forall x, msg_int d (w x) <-> P x) ->
  (slot_int (KRep d) (SR (map w l)) <-> Forall P l).
Proof. intros H. rewrite slot_int_rep, Forall_map. apply Forall_iff. exact H. Qed.

Section Packets.
Context {T : Type} {B : Bits64 T} (HB : bits_law T).
Lemma in_F x : slot_int KDouble (SF (to_bits x)) <-> True.
Proof. split; [trivial|]. intros _. apply HB. Qed.
Lemma in_DBattery x : msg_int d_DBattery (w_DBattery x) <-> int64_DBattery x.
Proof.
  unfold int64_DBattery, w_DBattery, d_DBattery. cbn [msg_int].
  rewrite in_F.
  unfold is_int64. cbn [slot_int]. tauto.
Qed.
Lemma in_DTrack x : msg_int d_DTrack (w_DTrack x) <-> int64_DTrack x.
Proof.
  unfold int64_DTrack, w_DTrack, d_DTrack. cbn [msg_int].
  rewrite in_F.
  unfold is_int64. cbn [slot_int]. tauto.
Qed.
Lemma in_DRoute x : msg_int d_DRoute (w_DRoute x) <-> int64_DRoute x.
Proof.
  unfold int64_DRoute, w_DRoute, d_DRoute. cbn [msg_int].
  rewrite (in_R w_DTrack d_DTrack _ _ in_DTrack), in_F.
  unfold is_int64. cbn [slot_int]. tauto.
Qed.
Lemma in_DRoutes x : msg_int d_DRoutes (w_DRoutes x) <-> int64_DRoutes x.
Proof.
  unfold int64_DRoutes, w_DRoutes, d_DRoutes. cbn [msg_int].
  rewrite (in_R w_DRoute d_DRoute _ _ in_DRoute).
  unfold is_int64. cbn [slot_int]. tauto.
Qed.
Lemma in_DSensor x : msg_int d_DSensor (w_DSensor x) <-> int64_DSensor x.
Proof.
  unfold int64_DSensor, w_DSensor, d_DSensor. cbn [msg_int].
  rewrite in_F, in_F.
  unfold is_int64. cbn [slot_int]. tauto.
Qed.
Lemma in_DNavigator x : msg_int d_DNavigator (w_DNavigator x) <-> int64_DNavigator x.
Proof.
  unfold int64_DNavigator, w_DNavigator, d_DNavigator. cbn [msg_int].
  unfold is_int64. cbn [slot_int]. tauto.
Qed.
Lemma in_DDistance x : msg_int d_DDistance (w_DDistance x) <-> int64_DDistance x.
Proof.
  unfold int64_DDistance, w_DDistance, d_DDistance. cbn [msg_int].
  rewrite in_F, in_F, in_F, in_F, in_F, in_F, in_F, in_F.
  unfold is_int64. cbn [slot_int]. tauto.
Qed.
Lemma in_DMS x : msg_int d_DMS (w_DMS x) <-> int64_DMS x.
Proof.
  unfold int64_DMS, w_DMS, d_DMS. cbn [msg_int].
  rewrite in_F.
  unfold is_int64. cbn [slot_int]. tauto.
Qed.
Lemma in_UTM x : msg_int d_UTM (w_UTM x) <-> int64_UTM x.
Proof.
  unfold int64_UTM, w_UTM, d_UTM. cbn [msg_int].
  rewrite in_F, in_F, in_F.
  unfold is_int64. cbn [slot_int]. tauto.
Qed.
Lemma in_DLocation x : msg_int d_DLocation (w_DLocation x) <-> int64_DLocation x.
Proof.
  unfold int64_DLocation, w_DLocation, d_DLocation. cbn [msg_int].
  rewrite in_F, in_F, in_F, in_F, (in_M w_DMS d_DMS _ _ in_DMS), (in_M w_DMS d_DMS _ _ in_DMS), (in_M w_UTM d_UTM _ _ in_UTM).
  unfold is_int64. cbn [slot_int]. tauto.
Qed.
Lemma in_DUnit x : msg_int d_DUnit (w_DUnit x) <-> int64_DUnit x.
Proof.
  unfold int64_DUnit, w_DUnit, d_DUnit. cbn [msg_int].
  unfold is_int64. cbn [slot_int]. tauto.
Qed.
Lemma in_Device x : msg_int d_Device (w_Device x) <-> int64_Device x.
Proof.
  unfold int64_Device, w_Device, d_Device. cbn [msg_int].
  rewrite in_F, in_F, in_F, (in_M w_DDistance d_DDistance _ _ in_DDistance), (in_M w_DBattery d_DBattery _ _ in_DBattery), (in_M w_DRoutes d_DRoutes _ _ in_DRoutes), (in_M w_DLocation d_DLocation _ _ in_DLocation), (in_M w_DNavigator d_DNavigator _ _ in_DNavigator), (in_R w_DSensor d_DSensor _ _ in_DSensor), in_F, (in_M w_DUnit d_DUnit _ _ in_DUnit).
  unfold is_int64. cbn [slot_int]. tauto.
Qed.
Lemma in_Packet x : msg_int d_Packet (w_Packet x) <-> int64_Packet x.
Proof.
  unfold int64_Packet, w_Packet, d_Packet. cbn [msg_int].
  rewrite (in_R w_Device d_Device _ _ in_Device).
  unfold is_int64. cbn [slot_int]. tauto.
Qed.
Lemma part_packet (p : pbPacket T) : int64_Packet p ->
  (utf8_Packet p /\ exists b, part_msg d_Packet (w_Packet p) = (b, true) /\ MarshalPacket p = GOk b /\ b = raw_msg d_Packet (w_Packet p)) \/
  (~ utf8_Packet p /\ exists b, part_msg d_Packet (w_Packet p) = (b, false) /\ MarshalPacket p = GErr ErrUTF8).
Proof.
  intros Hi. pose proof (part_of_msg d_Packet (w_Packet p)) as [_ P]. unfold MarshalPacket, to_bytes, marshal.
  destruct (part_msg d_Packet (w_Packet p)) as [b [|]]; cbn [fst snd] in P.
  - left. destruct P as [-> E]. rewrite E. split; [|eauto]. apply utf_Packet. eapply enc_utf8. exact E.
  - right. rewrite P. split; [|eauto]. intros Hu. destruct (C37_packet_proof HB p Hi) as [H _]. destruct (H Hu) as (x & E & _).
    unfold MarshalPacket, to_bytes, marshal in E. rewrite P in E. discriminate.
Qed.

Lemma C80_delivered_proof (p : pbPacket T) : int64_Packet p -> utf8_Packet p -> fits p -> forall e,
  gets p (deliver e true p) /\ deliver e false p = [].
Proof.
  intros Hi Hu Hf e. destruct (part_packet p Hi) as [(_ & b & E & M & R)|[X _]]; [|contradiction].
  unfold deliver. rewrite E. cbn [negb andb]. split; [|reflexivity]. exists b. split; [reflexivity|].
  destruct (C37_packet_proof HB p Hi) as [H _]. destruct (H Hu) as (x & E' & D). rewrite M in E'. injection E' as <-.
  destruct D as [D1 D2]; [unfold fits in Hf; rewrite R; exact Hf|]. destruct b; [right; auto|left; apply D1; discriminate].
Qed.
Lemma bad_part (p : pbPacket T) : ~ utf8_Packet p -> exists b, part_msg d_Packet (w_Packet p) = (b, false).
Proof.
  intros Hu. pose proof (part_of_msg d_Packet (w_Packet p)) as [_ P].
  destruct (part_msg d_Packet (w_Packet p)) as [b [|]]; [|eauto]. exfalso. apply Hu, utf_Packet. eapply enc_utf8. apply P.
Qed.
Lemma C80_error_proof (p : pbPacket T) : ~ utf8_Packet p -> forall h, deliver true h p = [ToOnError ErrUTF8].
Proof. intros Hu h. destruct (bad_part p Hu) as (b & E). unfold deliver. now rewrite E. Qed.
Lemma C80_garbage_proof (p : pbPacket T) : int64_Packet p -> ~ utf8_Packet p -> fits p -> gets_garbage (T := T) (deliver false true p).
Proof.
  intros Hi Hu Hf. destruct (part_packet p Hi) as [[X _]|(_ & b & E & M)]; [contradiction|]. unfold deliver. rewrite E. cbn [negb andb].
  pose proof (bad_msg d_Packet (w_Packet p) wf_Packet (proj2 (in_Packet p) Hi)) as D. rewrite E in D. cbn [fst snd] in D.
  exists b. unfold PacketFromBytes. destruct b; [eexists; split; reflexivity|].
  rewrite D; [eexists; split; reflexivity| |reflexivity]. unfold fits in Hf. lia.
Qed.

(** ** ticks *)

Lemma seen_deliver h (p : pbPacket T) : int64_Packet p -> fits p ->
  (utf8_Packet p -> seen (deliver h true p) = ppk_devices p) /\ (~ utf8_Packet p -> seen (T := T) (deliver h true p) = []).
Proof.
  intros Hi Hf. split; intros Hu.
  - destruct (C80_delivered_proof p Hi Hu Hf h) as [(b & E & D) _]. rewrite E. unfold seen. cbn [flat_map]. rewrite app_nil_r.
    destruct D as [->|[-> ->]]; reflexivity.
  - destruct h; [rewrite C80_error_proof by exact Hu; reflexivity|].
    destruct (C80_garbage_proof p Hi Hu Hf) as (b & e & E & D). rewrite E. unfold seen. cbn [flat_map]. now rewrite D.
Qed.

Definition utf8_dec (p : pbPacket T) : int64_Packet p -> utf8_Packet p \/ ~ utf8_Packet p.
Proof. intros Hi. destruct (part_packet p Hi) as [[H _]|[H _]]; auto. Qed.

Lemma seen_reports h stamp : (forall i, is_int64 (stamp i)) -> forall ls i,
  Forall (Forall int64_Device) ls -> Forall (fun l => forall ts, is_int64 ts -> fits (mkPbPacket l ts)) ls ->
  exists kept, seen (reports h true stamp i ls) = List.concat kept /\
    Forall2 (fun l k => (Forall utf8_Device l -> k = l) /\ (~ Forall utf8_Device l -> k = [])) ls kept.
Proof.
  intros Hs ls. induction ls as [|l ls IH]; intros i Hi Hf.
  - exists []. split; [reflexivity|constructor].
  - inversion Hi as [|? ? Hi1 Hi2]; inversion Hf as [|? ? Hf1 Hf2]; subst. destruct (IH (S i) Hi2 Hf2) as (kept & E & F).
    exists (seen (deliver h true (mkPbPacket l (stamp i))) :: kept). cbn [reports List.concat]. split.
    + unfold seen in *. now rewrite flat_map_app, E.
    + constructor; [|exact F]. apply (seen_deliver h (mkPbPacket l (stamp i))); [split; [exact Hi1|apply Hs]|apply Hf1, Hs].
Qed.

Lemma Forall2_same {A} (P : A -> Prop) (ls kept : list (list A)) :
  Forall2 (fun l k => (Forall P l -> k = l) /\ (~ Forall P l -> k = [])) ls kept -> Forall P (List.concat ls) -> List.concat kept = List.concat ls.
Proof.
  induction 1 as [|l k ls kept [H _] F IH]; cbn; [auto|]. intros Hp. apply Forall_app in Hp. destruct Hp as [A1 A2].
  rewrite H by exact A1. now rewrite IH.
Qed.
Lemma Forall_concat {A} (P : A -> Prop) (ls : list (list A)) : Forall P (List.concat ls) -> Forall (Forall P) ls.
Proof. induction ls as [|l ls IH]; cbn; intros H; constructor; apply Forall_app in H; tauto. Qed.

Lemma at_positions_Forall {A} (P : A -> Prop) f (l : list A) : forall i, Forall P l -> Forall P (at_positions f i l).
Proof.
  induction l as [|x l IH]; intros i H; cbn; [constructor|]. inversion H; subst. destruct (f i); cbn; auto.
Qed.

Lemma tick_Forall (P : pbDevice T -> Prop) c states : conf_ok c -> Forall P states -> Forall (Forall P) (tick_packets c states).
Proof. intros H F. apply Forall_concat. rewrite tick_concat by exact H. now apply at_positions_Forall. Qed.

Lemma C80_seen_proof h c (states : list (pbDevice T)) stamp : conf_ok c -> (forall i, is_int64 (stamp i)) -> Forall int64_Device states ->
  Forall (fun l => forall ts, is_int64 ts -> fits (mkPbPacket l ts)) (tick_packets c states) ->
  exists kept, seen (tick_reports h true c states stamp) = List.concat kept /\
    Forall2 (fun l k => (Forall utf8_Device l -> k = l) /\ (~ Forall utf8_Device l -> k = [])) (tick_packets c states) kept.
Proof. intros Hc Hs Hi Hf. apply seen_reports; auto. now apply tick_Forall. Qed.

Lemma reports_one h stamp (ls : list (list (pbDevice T))) : forall i, List.length (reports h true stamp i ls) = List.length ls.
Proof.
  induction ls as [|l ls IH]; intros i; cbn; [reflexivity|]. rewrite app_length, IH. unfold deliver.
  destruct (part_msg _ _) as [b ok]. destruct (negb ok && h); reflexivity.
Qed.

Lemma C80_tick_proof h c (states : list (pbDevice T)) stamp : conf_ok c -> (List.length states < c_packet c)%nat ->
  (forall i, is_int64 (stamp i)) -> Forall int64_Device states -> Forall utf8_Device states ->
  Forall (fun l => forall ts, is_int64 ts -> fits (mkPbPacket l ts)) (tick_packets c states) ->
  seen (tick_reports h true c states stamp) = states /\ ~ List.Exists is_error (tick_reports h true c states stamp) /\
  List.length (tick_reports h true c states stamp) = List.length (tick_packets c states).
Proof.
  intros Hc Hl Hs Hi Hu Hf. split; [|split].
  - destruct (C80_seen_proof h c states stamp Hc Hs Hi Hf) as (kept & E & F). rewrite E.
    rewrite (Forall2_same _ _ _ F); rewrite C50_few by auto; auto.
  - unfold tick_reports. generalize (tick_Forall _ c states Hc Hi), (tick_Forall _ c states Hc Hu), 0%nat. revert Hf.
    generalize (tick_packets c states) as ls. induction ls as [|l ls IH]; intros Hf A B' i X; cbn in X; [inversion X|].
    inversion Hf; inversion A; inversion B'; subst. apply List.Exists_app in X. destruct X as [X|X]; [|eapply IH; eauto].
    destruct (C80_delivered_proof (mkPbPacket l (stamp i))) with (e := h) as [(b & E & _) _]; auto.
    { split; auto. apply Hs. }
    rewrite E in X. inversion X as [? ? Y|? ? Y]; subst; [exact Y|inversion Y].
  - apply reports_one.
Qed.

Lemma one_packet {A} c (l : list A) : conf_ok c -> one_flush c (List.length l) -> l <> [] -> tick_packets c l = [l].
Proof.
  intros Hc [L1 L2] Hl. unfold tick_packets.
  assert (F : forall r buf : list A, (List.length buf + List.length r < c_packet c)%nat -> fill (c_packet c) buf r = [buf ++ r]).
  { induction r as [|x r IH]; intros buf H; cbn; [now rewrite app_nil_r|]. cbn in H.
    destruct (Nat.eqb_spec (List.length buf + 1) (c_packet c)); [lia|]. rewrite IH; [now rewrite <- app_assoc|]. rewrite app_length. cbn. lia. }
  rewrite F by (cbn; lia). cbn [app map List.concat]. rewrite app_nil_r. unfold flush_packets, flush_slices, one_slice.
  destruct (Nat.leb_spec (List.length l) (c_workers c + c_workerSize c)); [|lia]. destruct l as [|x l]; [congruence|].
  cbn [filter is_zero fst snd List.length Nat.eqb andb negb map]. unfold sub_list. cbn [fst snd skipn]. rewrite Nat.sub_0_r.
  now rewrite firstn_all2 by (cbn; lia).
Qed.

Lemma bad_device (st : pbDevice T) : utf8_valid (pde_description st) = false -> ~ utf8_Device st.
Proof. intros H X. unfold utf8_Device, is_utf8 in X. intuition congruence. Qed.

Lemma C80_lost_proof h c (before after : list (pbDevice T)) (d : device T) descr stamp : conf_ok c ->
  let states := before ++ d_state (SetDescription d descr) :: after in
  one_flush c (List.length states) -> utf8_valid descr = false ->
  (forall i, is_int64 (stamp i)) -> Forall int64_Device states -> (forall ts, is_int64 ts -> fits (mkPbPacket states ts)) ->
  seen (T := T) (tick_reports h true c states stamp) = [].
Proof.
  intros Hc states Hl Hd Hs Hi Hf.
  assert (E : tick_packets c states = [states]). { apply one_packet; auto. unfold states. intros X. apply app_eq_nil in X. now destruct X. }
  destruct (C80_seen_proof h c states stamp Hc Hs Hi) as (kept & E1 & F). { rewrite E. constructor; [exact Hf|constructor]. }
  rewrite E in F. inversion F as [|? k ? ? [_ K] F']; subst. inversion F'; subst. rewrite E1. cbn. rewrite app_nil_r. apply K.
  intros X. unfold states in X. apply Forall_elt in X. revert X. apply bad_device. exact Hd.
Qed.
End Packets.
