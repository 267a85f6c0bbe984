(** C77: packets of devices that other goroutines use. *)
From Coq Require Import Lia.
From Verif.Model Require Import Base Num NumF64 Utf8 Geo Curve PropMap Types Pb TypesSnap Track Route Navigator Device Wire WireMsgs WireF64 IO Mutex DeviceConc PacketConc.
From Verif.Spec Require Import NumLaws WireSpec WireMsgSpec NavSpec TypesSpec DeviceSpec MutexSpec DeviceConcSpec PacketConcSpec Examples DeviceExamples.
From Verif.Proofs Require Import WireMsgProofs WireF64Proofs WireTop MutexProofs DeviceConcProofs DeviceConcRefuted PacketConcProofs.
From Verif.Props Require Import DeviceConc.
Open Scope num_scope.

(** C77. While other goroutines only ask, or make changes that leave alone what State() returns, every packet, under every
    schedule, is the encoding of the devices as they are (C37: PacketFromBytes returns them). *)
Theorem C77_untouched_partial :
  forall (T : Type) (N : Num T) (J : JsonLib T) (U : UtmLib T) (B : Bits64 T) (d0 : device T) cnt (calls : list (list (pcall T))) turns x,
    Forall (Forall keeps_state) calls -> steps turns (start d0 cnt (map (map pcall_prog) calls)) x ->
    forall i l h j before after ts v, nth_error calls i = Some l -> nth_error (sy_gos x) i = Some h ->
      nth_error l j = Some (PPacket before after ts) -> nth_error (go_results h) j = Some v ->
      v = VPacket (MarshalPacket (packet_of before after ts d0)).
Proof. exact @C77_proof. Qed.
Print Assumptions C77_untouched_partial.

(** Such changes are: moving the device, sending it offline, sending it back to the start, attaching and detaching it. *)
Theorem C77_moves_partial :
  forall (T : Type) (N : Num T) (J : JsonLib T) (U : UtmLib T) r t s draw m rid tid,
    Forall (fun o => keeps_state (PCall (CChange o)))
      [DToNextRoute; DToPrevRoute; DMoveToRouteByID rid; DMoveToTrackByID rid tid; DMoveToRoute r; DMoveToTrack r t;
       DMoveToSegment r t s; DDestinationTo m; DToOffline draw; DResetNavigator; DMount; DUnmount].
Proof. exact @moves_keep. Qed.
Print Assumptions C77_moves_partial.

(** C77. When nobody else is there, a packet shows the device as it is and leaves it as it was. *)
Theorem C77_alone :
  forall (T : Type) (N : Num T) (J : JsonLib T) (U : UtmLib T) (B : Bits64 T) before after ts (d d' : device T) v,
    alone (Packet_prog before after ts) d d' v -> d' = d /\ v = VPacket (MarshalPacket (packet_of before after ts d)).
Proof. intros T N J U B. exact (@Packet_alone T B). Qed.
Print Assumptions C77_alone.

(** C77 is false beside changes: a packet may show the user from before and the description from after two changes made
    in this order, which no order of the calls explains. Of every device that can be encoded, with any user and any
    description of the same length: *)
Theorem C77_torn_refuted :
  forall (T : Type) (N : Num T) (J : JsonLib T) (U : UtmLib T) (B : Bits64 T) (d : device T) u e b,
    bits_law T -> let st := d_state d in let p := mkPbPacket [st] 0 in
    int64_Packet p -> MarshalPacket p = GOk b -> (zlen b < 2 ^ 63)%Z -> is_utf8 u -> is_utf8 e ->
    slen e = slen (pde_description st) -> e <> pde_description st -> u <> pde_user_id st ->
    let calls := [[Packet_prog [] [] 0]; [call_prog (CChange (DSetUserID u)); call_prog (CChange (DSetDescription e))]] in
    exists ps x v, steps ps (start d 0 calls) x /\ finished x /\ map go_results (sy_gos x) = [[v]; [VUnit; VUnit]] /\
      read_entry v = Some (pde_user_id st, e) /\
      forall turns d' gs, one_by_one turns d (map (fun p => mkGo p []) calls) d' gs -> map go_results gs <> map go_results (sy_gos x).
Proof. exact @torn_proof. Qed.
Print Assumptions C77_torn_refuted.

(** C77 is false beside changes: a packet may not be readable at all. Of every device that can be encoded and whose
    description has ten bytes or more, when the description is removed at the wrong moment: *)
Theorem C77_unreadable_refuted :
  forall (T : Type) (N : Num T) (J : JsonLib T) (U : UtmLib T) (B : Bits64 T) (d : device T) ts b,
    MarshalPacket (packet_of [] [] ts d) = GOk b -> (zlen b < 2 ^ 63)%Z -> (10 <= slen (pde_description (d_state d)))%Z ->
    exists ps x v, steps ps (start d 0 [[Packet_prog [] [] ts]; [call_prog (CChange (DSetDescription ""))]]) x /\ finished x /\
      map go_results (sy_gos x) = [[v]; [VUnit]] /\ unreadable v.
Proof. exact @broken_proof. Qed.
Print Assumptions C77_unreadable_refuted.

#[local] Existing Instance F64Bits.
(** a device that moves, with a description *)
Definition described : device f64 := SetDescription (SetUserID slow_moved "bob") "a slow blue van".

(** a packet, a move of the device and a question, all at once *)
Definition quiet : list (list (pcall f64)) :=
  [[PPacket [] [] 1700000000]; [PCall (CChange (DMoveToSegment 0 0 1)); PCall (CQuery (fun d => VText (pde_user_id (d_state d))))]].
Example C77_example :
  Forall (Forall keeps_state) quiet /\
  exists turns x v, steps turns (start described 0 (map (map pcall_prog) quiet)) x /\ finished x /\
    map go_results (sy_gos x) = [[v]; [VUnit; VText "bob"%string]] /\
    v = VPacket (MarshalPacket (packet_of [] [] 1700000000 described)) /\
    (n_si (d_nav described), n_si (d_nav (sh_mem (sy_shared x)))) = (0, 1)%Z.
Proof.
  assert (K : Forall (Forall keeps_state) quiet).
  { constructor; [repeat constructor|]. constructor; [|constructor]. constructor; [|repeat constructor].
    pose proof (C77_moves_partial f64 _ _ _ 0 0 1 0 (f64_ofZ 0) "" "")%Z as M.
    rewrite Forall_forall in M. apply M. cbn. auto 20. }
  split; [exact K|].
  destruct (run_view ([0;0;0;0;0] ++ repeat 1 9 ++ repeat 0 17)%nat%list (start described 0 (map (map pcall_prog) quiet))
    (fun t x => (left_to_do x, map (fun g => List.length (go_results g)) (sy_gos x), match sy_gos x with [_; g] => go_results g | _ => [] end, (n_si (d_nav described), n_si (d_nav (sh_mem (sy_shared x))))))
    ([0;0]%nat, [1;2]%nat, [VUnit; VText "bob"%string], (0, 1)%Z)) as (t & x & S & C).
  { vm_compute. reflexivity. }
  apply pair_equal_spec in C. destruct C as [C C4]. apply pair_equal_spec in C. destruct C as [C C3]. apply pair_equal_spec in C. destruct C as [C1 C2].
  pose proof (fun h v A => C77_untouched_partial f64 _ _ _ F64Bits described 0%Z quiet t x K S 0%nat _ h 0%nat [] [] 1700000000%Z v eq_refl A eq_refl) as Q.
  assert (G : exists g0 g1, sy_gos x = [g0; g1]).
  { unfold left_to_do in C1. apply (f_equal (@List.length _)) in C1. rewrite List.map_length in C1. destruct (sy_gos x) as [|g0 [|g1 [|]]]; try discriminate C1. eauto. }
  destruct G as (g0 & g1 & G). rewrite G in *. cbn [map] in C2.
  assert (E : exists v, go_results g0 = [v]) by (injection C2 as C2 _; destruct (go_results g0) as [|v [|]]; try discriminate C2; eauto).
  destruct E as [v E]. exists t, x, v. split; [exact S|]. split; [apply nothing_left; rewrite C1; repeat constructor|].
  rewrite G. cbn [map]. rewrite E, C3. split; [reflexivity|]. split; [|exact C4]. apply (Q g0 v eq_refl). now rewrite E.
Qed.

Ltac check_msg := hnf; lazymatch goal with
  | |- True => exact I
  | |- _ /\ _ => split; check_msg
  | |- Forall _ _ => first [apply Forall_nil|apply Forall_cons; check_msg]
  | |- _ => vm_compute; first [reflexivity|discriminate]
  end.
Lemma described_ok : int64_Packet (mkPbPacket [d_state described] 0) /\ utf8_Packet (mkPbPacket [d_state described] 0) /\
  exists b, MarshalPacket (B := F64Bits) (mkPbPacket [d_state described] 0) = GOk b /\ (zlen b < 2 ^ 63)%Z.
Proof.
  assert (K : int64_Packet (mkPbPacket [d_state described] 0) /\ utf8_Packet (mkPbPacket [d_state described] 0)).
  { apply ok_Packet; [exact F64_bits_law|]. let m := eval vm_compute in (w_Packet (mkPbPacket [d_state described] 0)) in
      assert (E : w_Packet (mkPbPacket [d_state described] 0) = m) by (vm_compute; reflexivity). rewrite E. clear E.
    check_msg. }
  split; [exact (proj1 K)|]. split; [exact (proj2 K)|].
  assert (X : match MarshalPacket (B := F64Bits) (mkPbPacket [d_state described] 0) with GOk b => (zlen b <? 2 ^ 63)%Z | _ => false end = true)
    by (vm_compute; reflexivity).
  destruct (MarshalPacket _) as [b|] eqn:E; [|discriminate].
  exists b. split; [reflexivity|]. exact (proj1 (Z.ltb_lt _ _) X).
Qed.

Example C77_refuted_example :
  (exists ps x v, steps ps (start described 0 [[Packet_prog [] [] 0]; [call_prog (CChange (DSetUserID "ann")); call_prog (CChange (DSetDescription "a slow grey van"))]]) x /\
     map go_results (sy_gos x) = [[v]; [VUnit; VUnit]] /\ read_entry v = Some ("bob", "a slow grey van")%string) /\
  (exists ps x v, steps ps (start described 0 [[Packet_prog [] [] 0]; [call_prog (CChange (DSetDescription ""))]]) x /\
     map go_results (sy_gos x) = [[v]; [VUnit]] /\ unreadable v).
Proof.
  destruct described_ok as (I & U8 & b & E & L).
  assert (D : pde_description (d_state described) = "a slow blue van"%string) by (vm_compute; reflexivity).
  assert (W : pde_user_id (d_state described) = "bob"%string) by (vm_compute; reflexivity). split.
  - pose proof (C77_torn_refuted f64 _ _ _ F64Bits described "ann" "a slow grey van" b F64_bits_law) as H. cbv zeta in H. rewrite D, W in H.
    destruct (H I E L eq_refl eq_refl eq_refl ltac:(discriminate) ltac:(discriminate)) as (ps & x & v & S & _ & R & V & _).
    exists ps, x, v. auto.
  - pose proof (C77_unreadable_refuted f64 _ _ _ F64Bits described 0%Z b) as H. rewrite D in H.
    destruct (H E L ltac:(vm_compute; discriminate)) as (ps & x & v & S & _ & R & V). exists ps, x, v. auto.
Qed.
