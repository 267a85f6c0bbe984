(** C80: what OnPacket and OnError get. *)
From Coq Require Import Lia.
From Verif.Model Require Import Base Num NumF64 Utf8 Geo Curve PropMap Types Pb Track Route Navigator Device Generator Wire WireMsgs WireF64 IO Worker.
From Verif.Spec Require Import GenSpec GenConcSpec WireSpec WireMsgSpec WorkerSpec.
From Verif.Proofs Require Import BaseLemmas WireF64Proofs WorkerProofs.
Open Scope Z_scope.

(** C80 for states whose strings are UTF-8: OnPacket gets every packet once, as bytes PacketFromBytes turns into that packet
    again, whether OnError is set or not. Missing from the full property: states with other strings and no OnError, where it
    is false. *)
Theorem C80_delivered_partial : forall (T : Type) (B : Bits64 T), bits_law T -> forall p : pbPacket T,
  int64_Packet p -> utf8_Packet p -> fits p -> forall has_error,
    gets p (deliver has_error true p) /\ deliver has_error false p = [].
Proof. exact @C80_delivered_proof. Qed.
Print Assumptions C80_delivered_partial.

(** A packet with any other string goes to OnError, if there is one, and not to OnPacket. *)
Theorem C80_error_partial : forall (T : Type) (B : Bits64 T) (p : pbPacket T), ~ utf8_Packet p ->
  forall has_packet, deliver true has_packet p = [ToOnError ErrUTF8].
Proof. exact @C80_error_proof. Qed.
Print Assumptions C80_error_partial.

(** A tick with fewer devices than the packet size: decoding what OnPacket gets gives the states of all devices, in
    attachment order, and OnError is not called. *)
Theorem C80_tick_partial : forall (T : Type) (B : Bits64 T), bits_law T ->
  forall has_error c (states : list (pbDevice T)) stamp, conf_ok c -> (List.length states < c_packet c)%nat ->
    (forall i, is_int64 (stamp i)) -> Forall int64_Device states -> Forall utf8_Device states ->
    Forall (fun l => forall ts, is_int64 ts -> fits (mkPbPacket l ts)) (tick_packets c states) ->
    seen (tick_reports has_error true c states stamp) = states /\
    ~ List.Exists is_error (tick_reports has_error true c states stamp) /\
    List.length (tick_reports has_error true c states stamp) = List.length (tick_packets c states).
Proof. exact @C80_tick_proof. Qed.
Print Assumptions C80_tick_partial.

(** For any strings and any number of devices: exactly the packets all of whose strings are UTF-8 are seen. *)
Theorem C80_seen : forall (T : Type) (B : Bits64 T), bits_law T ->
  forall has_error c (states : list (pbDevice T)) stamp, conf_ok c ->
    (forall i, is_int64 (stamp i)) -> Forall int64_Device states ->
    Forall (fun l => forall ts, is_int64 ts -> fits (mkPbPacket l ts)) (tick_packets c states) ->
    exists kept, seen (tick_reports has_error true c states stamp) = List.concat kept /\
      Forall2 (fun l k => (Forall utf8_Device l -> k = l) /\ (~ Forall utf8_Device l -> k = [])) (tick_packets c states) kept.
Proof. exact @C80_seen_proof. Qed.
Print Assumptions C80_seen.

(** C80 is false when OnError is not set: for every packet that cannot be encoded OnPacket gets what the encoder had written
    so far, which PacketFromBytes never accepts. *)
Theorem C80_garbage_refuted : forall (T : Type) (B : Bits64 T), bits_law T -> forall p : pbPacket T,
  int64_Packet p -> ~ utf8_Packet p -> fits p -> gets_garbage (T := T) (deliver false true p).
Proof. exact @C80_garbage_proof. Qed.
Print Assumptions C80_garbage_refuted.

(** A description that is not UTF-8, which SetDescription accepts, hides all the devices that go into the same packet, with or
    without OnError: for every device and all the other devices of a generator that fit into one packet, none is seen. *)
Theorem C80_lost_refuted : forall (T : Type) (B : Bits64 T), bits_law T ->
  forall has_error c (before after : list (pbDevice T)) (d : device T) descr stamp, conf_ok c ->
    let states := before ++ d_state (SetDescription d descr) :: after in
    one_flush c (List.length states) -> utf8_valid descr = false ->
    (forall i, is_int64 (stamp i)) -> Forall int64_Device states -> (forall ts, is_int64 ts -> fits (mkPbPacket states ts)) ->
    seen (T := T) (tick_reports has_error true c states stamp) = [].
Proof. exact @C80_lost_proof. Qed.
Print Assumptions C80_lost_refuted.

(** Examples: three devices, the description of the second is not UTF-8; two of them fit into each packet. *)
#[local] Existing Instance F64Bits.
Definition plain (id : string) : pbDevice f64 :=
  mkPbDevice id "user" (f64_ofZ 1) (f64_ofZ 60) "model" (f64_ofZ (-7)) None (Some (mkPbDBattery (f64_ofZ 99) (-5)))
    None None None [mkPbDSensor "s" "temp" (f64_ofZ 3) (f64_ofZ 4)] "van" true 12 "" (f64_ofZ 0) None.
Definition broken (id : string) : pbDevice f64 :=
  st_ident (plain id) id "user" "model" (String (Ascii.ascii_of_nat 255) "van") "".
Definition conf : genConf := mkConf 2 9 1.

Lemma good_states : Forall int64_Device [plain "a"; broken "b"; plain "c"; plain "d"] /\ Forall utf8_Device [plain "a"; plain "c"; plain "d"].
Proof. split; repeat first [split | constructor]; cbn; try lia. Qed.
Lemma small_packets l ts : In l [[plain "a"]; [plain "a"; plain "c"; plain "d"]; [plain "a"; broken "b"]; [plain "c"; plain "d"]; [plain "a"; broken "b"; plain "c"]] ->
  is_int64 ts -> fits (mkPbPacket l ts).
Proof.
  intros Hl Ht. unfold fits.
  assert (S : zlen (raw_msg d_Packet (w_Packet (mkPbPacket l ts))) <= 100000).
  { assert (V : forall k n, (Z.of_nat (List.length (varint_enc k n)) <= Z.of_nat k)).
    { induction k as [|k IH]; intros n; [cbn; lia|]. cbn [varint_enc]. destruct (n <? 128); [cbn; lia|].
      cbn [List.length]. specialize (IH (n / 128)). lia. }
    assert (G : raw_msg d_Packet (w_Packet (mkPbPacket l ts)) =
      raw_slot (KRep d_Device) 1 (SR (map w_Device l)) ++ (if ts =? 0 then [] else enc_tag 2 0 ++ enc_varint (u64 ts)) ++ []) by reflexivity.
    rewrite G, !zlen_app. assert (A : zlen (raw_slot (KRep d_Device) 1 (SR (map w_Device l))) <= 10000).
    { repeat (destruct Hl as [<-|Hl]; [vm_compute; discriminate|]). destruct Hl. }
    destruct (ts =? 0); [unfold zlen in *; cbn [List.length]; lia|]. rewrite zlen_app.
    pose proof (V 10%nat (u64 ts)). unfold zlen, enc_varint in *. change (Z.of_nat (List.length (enc_tag 2 0))) with 1. cbn [List.length]. lia. }
  lia.
Qed.

Lemma conf_good : conf_ok conf.
Proof. split; cbn; lia. Qed.
Definition noon (i : nat) : Z := 1700000000.
Lemma noon_int64 i : is_int64 (noon i).
Proof. unfold is_int64, noon. lia. Qed.

Example C80_example_good : seen (tick_reports false true conf [plain "a"; plain "c"; plain "d"] noon) = [plain "a"; plain "c"; plain "d"].
Proof.
  destruct good_states as [G U].
  refine (proj1 (C80_tick_partial f64 F64Bits F64_bits_law false conf _ noon conf_good _ noon_int64 _ U _)).
  - cbn. lia.
  - inversion G as [|? ? A G1]; inversion G1 as [|? ? _ G2]. constructor; [exact A|exact G2].
  - change (tick_packets conf [plain "a"; plain "c"; plain "d"]) with [[plain "a"; plain "c"; plain "d"]].
    constructor; [|constructor]. intros ts. apply small_packets. cbn. auto.
Qed.
(** four devices make two packets; the first has the bad description *)
Example C80_example_bad :
  seen (tick_reports true true conf [plain "a"; broken "b"; plain "c"; plain "d"] noon) = [plain "c"; plain "d"] /\
  seen (tick_reports false true conf [plain "a"; broken "b"; plain "c"; plain "d"] noon) = [plain "c"; plain "d"] /\
  deliver true true (mkPbPacket [plain "a"; broken "b"] (noon 0)) = [ToOnError ErrUTF8] /\
  gets_garbage (T := f64) (deliver false true (mkPbPacket [plain "a"; broken "b"] (noon 0))).
Proof.
  destruct good_states as [G U].
  assert (E : tick_packets conf [plain "a"; broken "b"; plain "c"; plain "d"] = [[plain "a"; broken "b"]; [plain "c"; plain "d"]]) by reflexivity.
  assert (N : ~ Forall utf8_Device [plain "a"; broken "b"]).
  { intros X. inversion X as [|? ? _ X1]; inversion X1 as [|? ? Y _]. unfold utf8_Device, is_utf8, broken, st_ident, plain in Y. cbn in Y. intuition discriminate. }
  assert (P : Forall utf8_Device [plain "c"; plain "d"]) by (inversion U; assumption).
  assert (S : forall h, seen (tick_reports h true conf [plain "a"; broken "b"; plain "c"; plain "d"] noon) = [plain "c"; plain "d"]).
  { intros h. destruct (C80_seen f64 F64Bits F64_bits_law h conf _ noon conf_good noon_int64 G) as (kept & E1 & F).
    - rewrite E. constructor; [intros ts; apply small_packets; cbn; auto|]. constructor; [intros ts; apply small_packets; cbn; auto 6|constructor].
    - rewrite E1. rewrite E in F. inversion F as [|? k ? ? [_ K] F1]; subst. inversion F1 as [|? k' ? ? [K' _] F2]; subst. inversion F2; subst.
      rewrite (K N), (K' P). reflexivity. }
  split; [apply S|]. split; [apply S|]. split.
  - apply C80_error_partial. exact N.
  - apply C80_garbage_refuted; [exact F64_bits_law| |exact N|apply small_packets; [cbn; auto|apply (noon_int64 0)]].
    split; [|apply (noon_int64 0)]. inversion G as [|? ? A G1]; inversion G1 as [|? ? A' _]. constructor; [exact A|constructor; [exact A'|constructor]].
Qed.
(** and when all devices fit into one packet, a description is enough to hide them all *)
Example C80_example_lost : one_flush conf 3 /\ utf8_valid (String (Ascii.ascii_of_nat 255) "van") = false /\
  seen (tick_reports true true conf [plain "a"; broken "b"; plain "c"] noon) = [].
Proof.
  split; [split; cbn; lia|]. split; [reflexivity|]. destruct good_states as [G U].
  refine (C80_lost_refuted f64 F64Bits F64_bits_law true conf [plain "a"] [plain "c"] (dset_state (device_zero (N := F64Num idMath)) (plain "b"))
    (String (Ascii.ascii_of_nat 255) "van") noon conf_good _ eq_refl noon_int64 _ _).
  - split; cbn; lia.
  - inversion G as [|? ? A G1]; inversion G1 as [|? ? A' G2]; inversion G2 as [|? ? A2 _].
    constructor; [exact A|constructor; [exact A'|constructor; [exact A2|constructor]]].
  - intros ts. apply small_packets. cbn. auto 8.
Qed.
