(** C77: packets of devices that are used by other goroutines. *)
From Coq Require Import Lia.
From Verif.Model Require Import Base Utf8 Num Geo Curve PropMap Types Pb TypesSnap Track Route Navigator Device Wire WireMsgs IO Mutex DeviceConc PacketConc.
From Verif.Spec Require Import WireSpec WireMsgSpec NavSpec TypesSpec DeviceSpec MutexSpec DeviceConcSpec PacketConcSpec.
From Verif.Proofs Require Import BaseLemmas WireProofs WireMsgProofs WireTop MutexProofs DeviceConcProofs DeviceConcRefuted.
Open Scope num_scope.

(** ** Programs that keep a part of the memory *)
Section Fine.
Context {M V A : Type} (g : M -> A) (a : A).

Inductive fine (Q : V -> Prop) : prog M V -> Prop :=
| fi_return v : Q v -> fine Q (Return v)
| fi_crash : fine Q Crash
| fi_access f k : (forall m, g m = a -> g (f m) = a) -> (forall m, g m = a -> fine Q (k m)) -> fine Q (Access f k)
| fi_load k : (forall z, fine Q (k z)) -> fine Q (Load k)
| fi_store z k : fine Q k -> fine Q (Store z k)
| fi_inc k : fine Q k -> fine Q (Inc k)
| fi_lock k : fine Q k -> fine Q (Lock k)
| fi_wait k : fine Q k -> fine Q (LockWait k)
| fi_unlock k : fine Q k -> fine Q (Unlock k)
| fi_rlock k : fine Q k -> fine Q (RLock k)
| fi_runlock k : fine Q k -> fine Q (RUnlock k)
| fi_try k : (forall b, fine Q (k b)) -> fine Q (TryLock k).

Lemma fine_act Q s p s' p' : act s p s' p' -> g (sh_mem s) = a -> fine Q p -> g (sh_mem s') = a /\ fine Q p'.
Proof.
  intros H E F. destruct H; inversion F; subst; try (split; [exact E|auto; try (constructor; auto)]; fail).
  split; cbn; auto.
Qed.

Definition go_fine (Qs : list (V -> Prop)) (h : goroutine M V) : Prop :=
  exists Q1 Q2, Qs = Q1 ++ Q2 /\ Forall2 (fun Q v => Q v) Q1 (go_results h) /\ Forall2 fine Q2 (go_calls h).

Definition sys_fine (Qss : list (list (V -> Prop))) (x : system M V) : Prop :=
  g (sh_mem (sy_shared x)) = a /\ Forall2 go_fine Qss (sy_gos x).

Lemma Forall2_set {X Y} (R : X -> Y -> Prop) l l' i y y' : Forall2 R l l' -> nth_error l' i = Some y ->
  (forall x, R x y -> R x y') -> Forall2 R l (set_nth i y' l').
Proof.
  intros H. revert i. induction H as [|x z l l' Hx Hl IH]; intros [|i] E K; cbn in *; try discriminate; constructor; auto.
  injection E as ->. auto.
Qed.

Lemma step_fine Qss i b x y : sys_fine Qss x -> step i b x y -> sys_fine Qss y.
Proof.
  intros [E F] H. destruct H as [i p l r s p' s' gs Hi Ha|i v l r s gs Hi|i l r s gs Hi]; cbn in *.
  - assert (G : exists Qs, go_fine Qs (mkGo (p :: l) r)).
    { clear - F Hi. revert i Hi. induction F as [|Qs h Qss gs Hh Hr IH]; intros [|i] Hi; cbn in Hi; try discriminate; eauto.
      injection Hi as ->. eauto. }
    destruct G as (Qs & Q1 & Q2 & -> & G1 & G2). cbn in G2. inversion G2 as [|Q ? Q3 ? G3 G4]; subst.
    destruct (fine_act _ _ _ _ _ Ha E G3) as [E' _]. split; [exact E'|].
    cbn. eapply Forall2_set; [exact F|exact Hi|]. intros Qs' (P1 & P2 & -> & K1 & K2). cbn in *.
    inversion K2 as [|P ? P3 ? K3 K4]; subst. exists P1, (P :: P3). split; [reflexivity|]. split; [exact K1|]. cbn. constructor; [|exact K4].
    exact (proj2 (fine_act _ _ _ _ _ Ha E K3)).
  - split; [exact E|]. cbn. eapply Forall2_set; [exact F|exact Hi|]. intros Qs' (P1 & P2 & -> & K1 & K2). cbn in *.
    inversion K2 as [|P ? P3 ? K3 K4]; subst. exists (P1 ++ [P]), P3. split; [now rewrite <- app_assoc|]. cbn. split; [|exact K4].
    apply Forall2_app; [exact K1|]. constructor; [|constructor]. now inversion K3.
  - split; [exact E|exact F].
Qed.

Lemma steps_fine Qss ps x y : steps ps x y -> sys_fine Qss x -> sys_fine Qss y.
Proof. induction 1 as [|? ? ? ? ? S _ IH|? ? ? ? ? S _ IH]; intros F; auto; apply IH; eapply step_fine; eauto. Qed.

Lemma start_fine Qss m c calls : g m = a -> Forall2 (Forall2 fine) Qss calls -> sys_fine Qss (start m c calls).
Proof.
  intros E H. split; [exact E|]. cbn. induction H as [|Qs l Qss ls H Hs IH]; cbn; constructor; auto.
  exists [], Qs. split; [reflexivity|]. split; [constructor|exact H].
Qed.
End Fine.

Section P.
Context {T : Type} {N : Num T} {J : JsonLib T} {U : UtmLib T} {B : Bits64 T}.
Implicit Types (d : device T).

Lemma opt_app_assoc x y z : opt_app x (opt_app y z) = opt_app (opt_app x y) z.
Proof. destruct x, y, z; cbn; auto. now rewrite app_assoc. Qed.
Lemma opt_app_nil x : opt_app x (Some []) = x.
Proof. destruct x; cbn; auto. now rewrite app_nil_r. Qed.

Definition enc_entries (l : list (pbDevice T)) : option (list byte) := enc_slot (KRep d_Device) 1 (SR (map w_Device l)).
Lemma enc_entries_cons e l : enc_entries (e :: l) =
  opt_app (option_map (fun b => enc_tag 1 2 ++ enc_bytes b) (enc_msg d_Device (w_Device e))) (enc_entries l).
Proof.
  unfold enc_entries. cbn [map].
  change (enc_slot (KRep d_Device) 1 (SR (w_Device e :: map w_Device l))) with
    (opt_app (match enc_msg d_Device (w_Device e) with Some b => Some (enc_tag 1 2 ++ enc_bytes b) | None => None end)
             (enc_slot (KRep d_Device) 1 (SR (map w_Device l)))).
  now destruct (enc_msg _ _).
Qed.
Lemma enc_entries_app l l' : enc_entries (l ++ l') = opt_app (enc_entries l) (enc_entries l').
Proof.
  induction l as [|e l IH]; [change (enc_entries []) with (@Some (list byte) []); cbn [app]; destruct (enc_entries l'); reflexivity|].
  cbn [app]. rewrite !enc_entries_cons, IH. apply opt_app_assoc.
Qed.

Lemma packet_bytes_ok before after ts (e : pbDevice T) :
  packet_bytes before after ts (entry_size e) e = MarshalPacket (mkPbPacket (before ++ e :: after) ts).
Proof.
  unfold packet_bytes, MarshalPacket, to_bytes, marshal, w_Packet. cbn [ppk_devices ppk_timestamp].
  assert (Q : forall x, x = opt_app (enc_entries (before ++ e :: after)) (enc_slot KInt 2 (SI ts)) -> enc_msg d_Packet [SR (map w_Device (before ++ e :: after)); SI ts] = x).
  { intros x ->. cbn [enc_msg d_Packet]. now rewrite opt_app_nil. }
  erewrite Q; [|reflexivity]. fold (enc_entries before). fold (enc_entries after).
  rewrite enc_entries_app, enc_entries_cons. unfold entry_size.
  destruct (enc_msg d_Device (w_Device e)) as [b|]; cbn [option_map].
  - unfold enc_bytes. now rewrite <- !opt_app_assoc.
  - rewrite <- !opt_app_assoc. destruct (enc_entries before); reflexivity.
Qed.

Lemma Packet_fine before after ts d0 :
  fine (@d_state T) (d_state d0) (fun v => v = VPacket (MarshalPacket (packet_of before after ts d0))) (Packet_prog before after ts).
Proof.
  unfold Packet_prog, look. do 2 constructor. apply fi_access; [auto|]. intros d En. rewrite En. cbv zeta.
  do 18 (apply fi_access; [auto|]; let E := fresh "E" in intros ? E; rewrite E; clear E; cbv zeta).
  constructor. f_equal. unfold packet_of. rewrite <- packet_bytes_ok. f_equal. now destruct (d_state d0).
Qed.

Lemma call_fine d0 (c : dev_call T) : keeps_state (PCall c) -> fine (@d_state T) (d_state d0) (fun _ => True) (call_prog c).
Proof.
  destruct c as [tick x|o|f]; cbn [keeps_state call_prog]; [contradiction| |]; intros H.
  - unfold change, part. constructor. apply fi_access.
    + intros d E. destruct (run_dev d o) as [d'| |] eqn:R; cbn [bind]; auto. now rewrite (H _ _ R).
    + intros d E. destruct (run_dev d o); cbn [bind]; repeat constructor.
  - unfold query, look. constructor. apply fi_access; [auto|]. intros d E. repeat constructor.
Qed.

Definition told d0 (c : pcall T) (v : dval T) : Prop :=
  match c with PPacket b a ts => v = VPacket (MarshalPacket (packet_of b a ts d0)) | PCall _ => True end.

Lemma C77_proof d0 cnt (calls : list (list (pcall T))) turns x : Forall (Forall keeps_state) calls ->
  steps turns (start d0 cnt (map (map pcall_prog) calls)) x ->
  forall i l h j before after ts v, nth_error calls i = Some l -> nth_error (sy_gos x) i = Some h ->
    nth_error l j = Some (PPacket before after ts) -> nth_error (go_results h) j = Some v ->
    v = VPacket (MarshalPacket (packet_of before after ts d0)).
Proof.
  intros K S i l h j before after ts v Hi Hh Hj Hv.
  assert (F : sys_fine (@d_state T) (d_state d0) (map (map (told d0)) calls) x).
  { eapply steps_fine; [exact S|]. apply start_fine; [reflexivity|]. clear - K.
    induction K as [|l calls Kl Ks IH]; cbn; constructor; auto. clear - Kl.
    induction Kl as [|c l Kc Kl IH]; cbn; constructor; auto. destruct c as [b a ts|c]; [apply Packet_fine|].
    exact (call_fine d0 c Kc). }
  destruct F as [_ F]. assert (G : go_fine (@d_state T) (d_state d0) (map (told d0) l) h).
  { clear - F Hi Hh. revert x i F Hi Hh. enough (X : forall (gs : list (goroutine (device T) (dval T))) calls i, Forall2 (go_fine (@d_state T) (d_state d0)) (map (map (told d0)) calls) gs ->
      nth_error calls i = Some l -> nth_error gs i = Some h -> go_fine (@d_state T) (d_state d0) (map (told d0) l) h) by eauto.
    intros gs cs. revert gs. induction cs as [|c cs IH]; intros gs [|i] F Hi Hh; cbn in *; try discriminate; inversion F; subst.
    - injection Hi as ->. injection Hh as ->. assumption.
    - eauto. }
  destruct G as (Q1 & Q2 & EQ & G1 & _).
  assert (X : nth_error Q1 j = Some (told d0 (PPacket before after ts))).
  { assert (L : (j < List.length Q1)%nat).
    { assert (Len : List.length Q1 = List.length (go_results h)) by (clear - G1; induction G1; cbn; auto).
      rewrite Len. apply nth_error_Some. congruence. }
    rewrite <- (nth_error_app1 Q1 Q2 L), <- EQ. now apply map_nth_error. }
  clear - G1 X Hv. revert j X Hv. induction G1 as [|Q w Q1 rs Hw Hr IH]; intros [|j] X Hv; cbn in *; try discriminate; eauto.
  injection X as ->. injection Hv as ->. exact Hw.
Qed.

Lemma moves_keep r t s draw m rid tid :
  Forall (fun o => keeps_state (PCall (T := T) (CChange o)))
    [DToNextRoute; DToPrevRoute; DMoveToRouteByID rid; DMoveToTrackByID rid tid; DMoveToRoute r; DMoveToTrack r t;
     DMoveToSegment r t s; DDestinationTo m; DToOffline draw; DResetNavigator; DMount; DUnmount].
Proof.
  repeat (apply Forall_cons || apply Forall_nil); cbn [keeps_state]; intros d d'; cbn [run_dev]; unfold device_move, device_ToOffline, mount, unmount;
    try (match goal with |- context [let '(_, _) := ?x in _] => destruct x end; intros [= <-]; reflexivity); try (intros [= <-]; reflexivity).
  - destruct (ToOffline (d_nav d) draw); cbn; try discriminate. now intros [= <-].
  - destruct (d_status d =? Running)%Z; now intros [= <-].
  - destruct (d_status d =? Stopped)%Z; now intros [= <-].
Qed.

(** ** One at a time *)
Lemma Packet_alone before after ts d d' v : alone (Packet_prog before after ts) d d' v ->
  d' = d /\ v = VPacket (MarshalPacket (packet_of before after ts d)).
Proof.
  intros H. unfold Packet_prog, look in H.
  do 21 (inversion H; subst; clear H; match goal with X : alone _ _ _ _ |- _ => rename X into H end; cbv beta zeta in H).
  inversion H; subst. split; [reflexivity|]. f_equal. unfold packet_of. rewrite <- packet_bytes_ok. f_equal. now destruct (d_state d').
Qed.

(** ** The size of an entry and its description *)
Definition describe (e : pbDevice T) (s : string) : pbDevice T := st_ident e (pde_id e) (pde_user_id e) (pde_model e) s (pde_color e).
Definition rename (e : pbDevice T) (s : string) : pbDevice T := st_ident e (pde_id e) s (pde_model e) (pde_description e) (pde_color e).

Lemma enc_msg_app (d1 : desc) : forall m1 (d2 : desc) m2, List.length d1 = List.length m1 ->
  enc_msg (d1 ++ d2) (m1 ++ m2) = opt_app (enc_msg d1 m1) (enc_msg d2 m2).
Proof.
  induction d1 as [|[n k] d1 IH]; intros [|x m1] d2 m2 L; try discriminate L.
  - cbn [app enc_msg]. now destruct (enc_msg d2 m2).
  - cbn [app enc_msg]. rewrite IH by now injection L. apply opt_app_assoc.
Qed.
Lemma enc_split (e : pbDevice T) : exists a c, forall s,
  enc_msg d_Device (w_Device (describe e s)) = opt_app a (opt_app (enc_slot KStr 14 (SS s)) c).
Proof.
  eexists _, _. intros s.
  change d_Device with (firstn 12 d_Device ++ (14, KStr) :: skipn 13 d_Device)%Z.
  change (w_Device (describe e s)) with (firstn 12 (w_Device e) ++ SS s :: skipn 13 (w_Device e)).
  rewrite enc_msg_app by reflexivity. cbn [enc_msg]. reflexivity.
Qed.
Lemma describe_same (e : pbDevice T) : describe e (pde_description e) = e.
Proof. now destruct e. Qed.

Lemma size_same (e : pbDevice T) s : is_utf8 s -> is_utf8 (pde_description e) -> slen s = slen (pde_description e) ->
  entry_size (describe e s) = entry_size e.
Proof.
  intros Hs He L. destruct (enc_split e) as (a & c & E). unfold entry_size. rewrite <- (describe_same e) at 2. rewrite !E.
  cbn [enc_slot]. unfold is_utf8 in *. rewrite Hs, He, L. destruct (slen (pde_description e) =? 0)%Z; [reflexivity|].
  destruct a as [a|]; [|reflexivity]. destruct c as [c|]; [|reflexivity]. cbn [opt_app].
  unfold enc_bytes. rewrite !zlen_app, !bytes_length. now rewrite L.
Qed.

(** Dropping a long description between the two passes leaves too few bytes. *)
Lemma size_less (e : pbDevice T) b : enc_msg d_Device (w_Device e) = Some b -> pde_description e <> ""%string ->
  exists b', enc_msg d_Device (w_Device (describe e "")) = Some b' /\ (zlen b' + slen (pde_description e) + 2 <= zlen b)%Z.
Proof.
  intros Eb Hn. destruct (enc_split e) as (a & c & E).
  rewrite <- (describe_same e) in Eb at 1. rewrite E in Eb. rewrite !E.
  cbn [enc_slot] in *. destruct (utf8_valid (pde_description e)); [|destruct a; discriminate].
  assert (L : (0 < slen (pde_description e))%Z) by (destruct (pde_description e); [congruence|unfold slen; cbn; lia]).
  destruct (Z.eqb_spec (slen (pde_description e)) 0) as [|_]; [lia|]. change (utf8_valid "") with true. change (slen "" =? 0)%Z with true. cbv iota in *.
  destruct a as [a|]; [|discriminate]. destruct c as [c|]; [|discriminate]. cbn [opt_app app] in *.
  injection Eb as <-. eexists. split; [reflexivity|]. rewrite !zlen_app.
  pose proof (enc_bytes_length (bytes_of (pde_description e))) as Q. pose proof (tag_length 14 2) as Q'.
  pose proof (bytes_length (pde_description e)) as Q2. unfold zlen in *. cbn [List.length]. rewrite List.app_length. unfold byte in *. lia.
Qed.

Lemma timestamp_short ts : exists b, enc_slot KInt 2 (SI ts) = Some b /\ (zlen b <= 11)%Z.
Proof.
  cbn [enc_slot]. eexists. split; [reflexivity|]. destruct (ts =? 0)%Z; [unfold zlen; cbn; lia|]. rewrite zlen_app.
  assert (X : forall k n, (zlen (varint_enc k n) <= Z.of_nat k)%Z).
  { induction k as [|k IH]; intros n; cbn [varint_enc]; [unfold zlen; cbn; lia|]. destruct (n <? 128)%Z; unfold zlen in *; cbn [List.length]; [lia|].
    specialize (IH (n / 128)%Z). lia. }
  change (zlen (enc_tag 2 0)) with 1%Z. specialize (X 10%nat (u64 ts)). unfold enc_varint. lia.
Qed.

Lemma dec_cut f z l r : l <> [] -> dec_tag l = Some (1, 2, r)%Z -> dec_bytes r = None -> dec_msg (S f) d_Packet z l = None.
Proof.
  intros Hl Ht Hr. destruct l as [|x l]; [congruence|]. cbn [dec_msg]. rewrite Ht.
  change (find_field d_Packet 1) with (Some (O, KRep d_Device)). cbv iota beta. cbn [Z.eqb Pos.eqb]. now rewrite Hr.
Qed.

Lemma cut_short (e : pbDevice T) ts n b : enc_msg d_Device (w_Device e) = Some b -> (zlen b + 11 < n < 2 ^ 63)%Z ->
  exists x, packet_bytes [] [] ts n e = GOk x /\ PacketFromBytes (T := T) x = GErr ErrWire.
Proof.
  intros Eb Hn. destruct (timestamp_short ts) as (t & Et & Lt). unfold packet_bytes. rewrite Et, Eb. cbn [option_map map].
  change (enc_slot (KRep d_Device) 1 (SR [])) with (@Some (list byte) []). cbn [opt_app app]. eexists. split; [reflexivity|].
  rewrite <- !app_assoc. unfold PacketFromBytes. destruct (tag_cons 1 2 (enc_varint n ++ b ++ t)) as (x & l & El). rewrite El.
  rewrite <- El. cbv iota beta. unfold unmarshal.
  assert (Z0 : (0 <= zlen b /\ 0 <= zlen t)%Z) by (unfold zlen; lia).
  assert (D : dec_msg (S (List.length (enc_tag 1 2 ++ enc_varint n ++ b ++ t))) d_Packet (zero_msg d_Packet) (enc_tag 1 2 ++ enc_varint n ++ b ++ t) = None).
  { generalize (zero_msg d_Packet). intros z. generalize (List.length (enc_tag 1 2 ++ enc_varint n ++ b ++ t)). intros f.
    apply dec_cut with (r := enc_varint n ++ b ++ t); [rewrite El; discriminate|apply dec_enc_tag; lia|].
    unfold dec_bytes. rewrite dec_enc_varint by lia. rewrite zlen_app. destruct (Z.ltb_spec (zlen b + zlen t) n); [reflexivity|lia]. }
  rewrite D. reflexivity.
Qed.

(** ** Schedules *)
Ltac pmachine := cbv beta iota zeta delta [step_fn act_fn start set_mem set_cnt set_mu sh_mem sh_cnt sh_mu sy_shared sy_gos sy_crashed
  leaves nth_error set_nth map app call_prog change query part part_ look Packet_prog bind].
Ltac pgo i := eapply (reach_step i); [pmachine; reflexivity|].
Ltac pgos l := lazymatch l with [] => idtac | ?i :: ?r => pgo i; pgos r end.

Definition two_changes u e : list (list (dprog T)) :=
  [[Packet_prog [] [] 0]; [call_prog (CChange (DSetUserID u)); call_prog (CChange (DSetDescription e))]].

Definition shown x := mkPbPacket (T := T) [x] 0.

(** The sizes are taken and the user is written, then both changes are made, then the rest is written. *)
Lemma torn_run d u e : reach (start d 0 (two_changes u e)) (fun _ x => finished x /\
  map go_results (sy_gos x) = [[VPacket (packet_bytes [] [] 0 (entry_size (d_state d)) (describe (d_state d) e))]; [VUnit; VUnit]]).
Proof.
  unfold two_changes. pgos [0;0;0;0;0;1;1;1;1;1;1;1;1;1;1;0;0;0;0;0;0;0;0;0;0;0;0;0;0;0;0;0]%nat.
  apply reach_here. split; [repeat constructor|]. reflexivity.
Qed.
Lemma broken_run d ts e : reach (start d 0 [[Packet_prog [] [] ts]; [call_prog (CChange (DSetDescription e))]]) (fun _ x => finished x /\
  map go_results (sy_gos x) = [[VPacket (packet_bytes [] [] ts (entry_size (d_state d)) (describe (d_state d) e))]; [VUnit]]).
Proof.
  pgos [0;0;0;1;1;1;1;1;0;0;0;0;0;0;0;0;0;0;0;0;0;0;0;0;0;0;0]%nat.
  apply reach_here. split; [repeat constructor|]. reflexivity.
Qed.

(** One at a time, the packet shows the old user and the old description, the new and the old, or both new. *)
Lemma Packet_in_turn d u e turns d' gs v :
  one_by_one turns d (map (fun p => mkGo p []) (two_changes u e)) d' gs ->
  map go_results gs = [[v]; [VUnit; VUnit]] ->
  let st := d_state d in
  v = VPacket (MarshalPacket (shown st)) \/ v = VPacket (MarshalPacket (shown (rename st u))) \/
  v = VPacket (MarshalPacket (shown (describe (rename st u) e))).
Proof.
  assert (C0 : forall d d' v, alone (Packet_prog [] [] 0) d d' v -> d' = d /\ v = VPacket (MarshalPacket (shown (d_state d)))).
  { intros a b w H. apply Packet_alone in H. exact H. }
  assert (C1 : forall d d' v, alone (call_prog (CChange (DSetUserID u))) d d' v -> d_state d' = rename (d_state d) u).
  { intros a b w H. apply alone_change in H. destruct H as [[= <-] _]. reflexivity. }
  assert (C2 : forall d d' v, alone (call_prog (CChange (DSetDescription e))) d d' v -> d_state d' = describe (d_state d) e).
  { intros a b w H. apply alone_change in H. destruct H as [[= <-] _]. reflexivity. }
  unfold two_changes.
  generalize dependent (call_prog (T:=T) (CChange (DSetDescription e))). generalize dependent (call_prog (T:=T) (CChange (DSetUserID u))).
  generalize dependent (Packet_prog (T := T) [] [] 0).
  intros p0 C0 p1 C1 p2 C2 O R. cbn [map] in O. try subst st. cbv zeta.
  repeat match goal with
  | X : one_by_one _ _ _ _ _ |- _ =>
      inversion X; subst; clear X;
      [cbn in R; try discriminate R; try (injection R as R; congruence)
      |match goal with Q : nth_error _ ?i = Some _ |- _ =>
         destruct i as [|[|i]]; cbn in Q; [try discriminate Q; injection Q as <- <- <-|try discriminate Q; injection Q as <- <- <-|destruct i; discriminate Q] end;
       match goal with
       | A : alone p0 _ _ _ |- _ => apply C0 in A; destruct A as (-> & ->)
       | A : alone p1 _ _ _ |- _ => apply C1 in A
       | A : alone p2 _ _ _ |- _ => apply C2 in A
       end; cbn in *]
  end.
  all: injection R as R1 R2 R3; subst.
  - left. reflexivity.
  - right; left. congruence.
  - right; right. congruence.
Qed.

Lemma changed_int64 e u s : int64_Packet (shown e) ->
  int64_Packet (shown (describe e s)) /\ int64_Packet (shown (rename e u)) /\ int64_Packet (shown (describe (rename e u) s)).
Proof.
  intros [H K]. inversion H; subst. split; [|split]; (split; [constructor; [assumption|constructor]|exact K]).
Qed.
Lemma changed_utf8 (e : pbDevice T) u s : utf8_Packet (shown e) -> is_utf8 u -> is_utf8 s ->
  utf8_Packet (shown (describe e s)) /\ utf8_Packet (shown (rename e u)) /\ utf8_Packet (shown (describe (rename e u) s)).
Proof.
  intros H Hu Hs. unfold utf8_Packet, shown in *. cbn [ppk_devices] in *. inversion H; subst.
  split; [|split]; (constructor; [|constructor]); destruct e; unfold utf8_Device in *; cbn in *; tauto.
Qed.

Lemma decoded p b : bits_law T -> int64_Packet p -> utf8_Packet (T := T) p -> p <> mkPbPacket [] 0 -> (zlen b < 2 ^ 63)%Z -> MarshalPacket p = GOk b -> PacketFromBytes b = GOk p.
Proof.
  intros HB Hi Hu Hp Hb E. destruct (C37_packet_proof HB p Hi) as [C _]. destruct (C Hu) as (b' & E' & D).
  rewrite E in E'. injection E' as <-. destruct (D Hb) as [D1 D2]. apply D1. intros ->. now apply Hp, D2.
Qed.

Lemma torn_proof d u e b : bits_law T -> let st := d_state d in
  int64_Packet (shown st) -> MarshalPacket (shown st) = GOk b -> (zlen b < 2 ^ 63)%Z -> is_utf8 u -> is_utf8 e ->
  slen e = slen (pde_description st) -> e <> pde_description st -> u <> pde_user_id st ->
  exists ps x v, steps ps (start d 0 (two_changes u e)) x /\ finished x /\ map go_results (sy_gos x) = [[v]; [VUnit; VUnit]] /\
    read_entry v = Some (pde_user_id st, e) /\
    forall turns d' gs, one_by_one turns d (map (fun p => mkGo p []) (two_changes u e)) d' gs -> map go_results gs <> map go_results (sy_gos x).
Proof.
  intros HB st Hi Eb Lb Uu Ue L Ne Nu.
  assert (Hu : utf8_Packet (shown st)).
  { apply utf_Packet. unfold MarshalPacket, to_bytes in Eb. destruct (marshal d_Packet (w_Packet (shown st))) eqn:E; [|discriminate Eb]. eapply enc_utf8; exact E. }
  destruct (torn_run d u e) as (ps & x & S & F & R). fold st in R.
  destruct (changed_int64 st u e Hi) as (I1 & I2 & I3). destruct (changed_utf8 st u e Hu Uu Ue) as (U1 & U2 & U3).
  assert (Us : is_utf8 (pde_description st)) by (inversion Hu as [|? ? [? H] _]; subst; tauto).
  assert (P : packet_bytes [] [] 0 (entry_size st) (describe st e) = MarshalPacket (shown (describe st e))).
  { rewrite <- (size_same st e Ue Us L). apply (packet_bytes_ok [] [] 0 (describe st e)). }
  rewrite P in R. destruct (C37_packet_proof HB _ I1) as [C _]. destruct (C U1) as (b1 & E1 & _).
  assert (Lb1 : (zlen b1 < 2 ^ 63)%Z).
  { pose proof (packet_bytes_ok [] [] 0 st) as K0. pose proof (packet_bytes_ok [] [] 0 (describe st e)) as K1.
    cbn [app] in K0, K1. fold (shown st) in K0. fold (shown (describe st e)) in K1. rewrite Eb in K0. rewrite E1, (size_same st e Ue Us L) in K1.
    unfold packet_bytes in K0, K1. change (enc_slot (KRep d_Device) 1 (SR (map (@w_Device T B) []))) with (@Some (list byte) []) in K0, K1.
    change (enc_slot KInt 2 (SI 0)) with (@Some (list byte) []) in K0, K1.
    pose proof (size_same st e Ue Us L) as Z0. unfold entry_size in Z0.
    destruct (enc_msg d_Device (w_Device st)) as [c0|]; [|discriminate K0].
    destruct (enc_msg d_Device (w_Device (describe st e))) as [c1|]; [|discriminate K1].
    cbn [opt_app option_map app] in K0, K1. injection K0 as <-. injection K1 as <-. unfold zlen, byte in *. cbn [List.length] in *. rewrite !List.app_length in *. lia. }
  exists ps, x, (VPacket (GOk b1)). rewrite E1 in R. split; [exact S|]. split; [exact F|]. split; [exact R|].
  assert (Dn : forall y, shown y <> mkPbPacket [] 0) by discriminate.
  pose proof (decoded _ _ HB I1 U1 (Dn _) Lb1 E1) as D1. split.
  - cbn [read_entry]. now rewrite D1.
  - intros turns d' gs O Eq. rewrite R in Eq.
    destruct (Packet_in_turn d u e turns d' gs _ O Eq) as [H|[H|H]]; fold st in H; injection H as H; symmetry in H.
    + rewrite (decoded _ _ HB Hi Hu (Dn _) Lb1 H) in D1. apply (f_equal (fun r => match r with GOk (mkPbPacket [y] _) => pde_description y | _ => ""%string end)) in D1. cbn in D1. congruence.
    + rewrite (decoded _ _ HB I2 U2 (Dn _) Lb1 H) in D1. apply (f_equal (fun r => match r with GOk (mkPbPacket [y] _) => pde_user_id y | _ => ""%string end)) in D1. cbn in D1. congruence.
    + rewrite (decoded _ _ HB I3 U3 (Dn _) Lb1 H) in D1. apply (f_equal (fun r => match r with GOk (mkPbPacket [y] _) => pde_user_id y | _ => ""%string end)) in D1. cbn in D1. congruence.
Qed.

Lemma broken_proof d ts b : MarshalPacket (packet_of [] [] ts d) = GOk b -> (zlen b < 2 ^ 63)%Z ->
  (10 <= slen (pde_description (d_state d)))%Z ->
  exists ps x v, steps ps (start d 0 [[Packet_prog [] [] ts]; [call_prog (CChange (DSetDescription ""))]]) x /\ finished x /\
    map go_results (sy_gos x) = [[v]; [VUnit]] /\ unreadable v.
Proof.
  intros Eb Lb L. set (st := d_state d) in *.
  destruct (broken_run d ts "") as (ps & x & S & F & R). fold st in R.
  pose proof (packet_bytes_ok [] [] ts st) as K. cbn [app] in K. unfold packet_of in Eb. cbn [app] in Eb. fold st in Eb. rewrite Eb in K.
  unfold packet_bytes in K. change (enc_slot (KRep d_Device) 1 (SR (map (@w_Device T B) []))) with (@Some (list byte) []) in K.
  destruct (timestamp_short ts) as (t & Et & _). rewrite Et in K.
  destruct (enc_msg d_Device (w_Device st)) as [c|] eqn:Ec; [|discriminate K]. cbn [opt_app option_map app] in K. injection K as <-.
  assert (Nd : pde_description st <> ""%string) by (intros Q; rewrite Q in L; unfold slen in L; cbn in L; lia).
  destruct (size_less st c Ec Nd) as (c' & Ec' & Lc).
  assert (Hn : entry_size st = zlen c) by (unfold entry_size; now rewrite Ec).
  assert (Lb' : (zlen c < 2 ^ 63)%Z) by (unfold zlen, byte in *; cbn [List.length] in *; rewrite !List.app_length in *; lia).
  destruct (cut_short (describe st "") ts (entry_size st) c' Ec') as (y & Ey & Dy); [lia|].
  exists ps, x, (VPacket (GOk y)). rewrite Ey in R. split; [exact S|]. split; [exact F|]. split; [exact R|]. cbn. eauto.
Qed.
End P.
