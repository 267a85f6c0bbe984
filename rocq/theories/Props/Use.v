(** C76: using devices whatever bytes they were decoded from. *)
From Verif.Model Require Import Base Num NumF64 Utf8 Geo Curve PropMap Types Pb TypesSnap Track Route Navigator Device Wire WireMsgs WireF64 IO.
From Verif.Spec Require Import ListSpec NumLaws TrackSpec RouteSpec NavSpec TypesSpec DeviceSpec DecodeSpec UseSpec Examples.
From Verif.Proofs Require Import UseProofs.
Open Scope num_scope.

(** C76. A device that was made, or decoded from bytes whose message has its parts and whose curves have control
    points, never panics, whatever is called on it, whatever such bytes are unmarshalled into it and whatever
    routes are reloaded; DestinationTo with three routes excepted (C20_refuted). *)
Theorem C76_no_panic_partial : forall (T : Type) (N : Num T) (J : JsonLib T) (U : UtmLib T) (B : Bits64 T) (d : device T) (l : list (use T)),
  zero_eq_zero N -> new_device d \/ decoded_device d -> Forall good_use l -> use_jumps_on_at_most_two_routes d l ->
  exists d', run_uses d l = Ret d'.
Proof. intros T N J U B d l Z. exact (C76_proof Z d l). Qed.
Print Assumptions C76_no_panic_partial.

(** If the speed is not constant and its curve has no points, a decoded device with a route panics at its first step. *)
Theorem C76_stuck : forall (T : Type) (N : Num T) (J : JsonLib T) (U : UtmLib T) (B : Bits64 T) (b : list byte) m (d : device T) tick x,
  unmarshal d_Snapshot b = Some m -> DecodeTracker b = Ret (GOk d) ->
  set_and (fun n => pna_routes n <> []) (psn_navigator (r_Snapshot (T := T) m)) -> ~ set_and drawn_speed (psn_speed (r_Snapshot (T := T) m)) ->
  Next d true tick x = Panic.
Proof. exact @C76_stuck_proof. Qed.
Print Assumptions C76_stuck.

Lemma accepted_test (m : MathLib) (J : JsonLib f64) (U : UtmLib f64) (B := F64Bits) s :
  match to_bytes d_Snapshot (w_Snapshot s) with
  | GOk b => match @DecodeTracker f64 (F64Num m) J U B b with
             | Ret (GOk d) => match @Next f64 (F64Num m) J U d true (f64_ofZ 1) (use_draws) with Panic => true | _ => false end
             | _ => false end
  | GErr _ => false end = true -> accepted_and_panics m s.
Proof.
  unfold accepted_and_panics, use_num. destruct (to_bytes _ _) as [b|]; [|discriminate].
  destruct (DecodeTracker b) as [[d|]| |] eqn:E; try discriminate. intros H. exists b, d. split; [reflexivity|]. split; [exact E|].
  destruct (Next _ _ _ _); [discriminate|reflexivity|discriminate].
Qed.

(** Accepted bytes are not enough: a curve without points, of the elevation, the speed or a sensor. *)
Theorem C76_refuted : forall (m : MathLib) (J : JsonLib f64) (U : UtmLib f64) (B := F64Bits),
  accepted_and_panics m (use_message m [] (use_point m) (use_point m)) /\
  accepted_and_panics m (use_message m (use_point m) [] (use_point m)) /\
  accepted_and_panics m (use_message m (use_point m) (use_point m) []).
Proof.
  intros m J U B. repeat split; apply accepted_test; vm_compute; reflexivity.
Qed.
Print Assumptions C76_refuted.

(** a device decoded from good bytes; a history with steps, an unmarshal and a reloaded route *)
Definition use_u : UtmLib f64 := {| utm_of := fun _ _ => mkPbUTM f0 f0 f0 0 "" "" 0 |}.
#[local] Existing Instance use_u.
#[local] Existing Instance F64Bits.
Definition use_bytes : list byte :=
  match to_bytes d_Snapshot (w_Snapshot (use_message idMath (use_point idMath) (use_point idMath) (use_point idMath))) with GOk b => b | GErr _ => [] end.
Definition use_dev : device f64 := match DecodeTracker use_bytes with Ret (GOk d) => d | _ => device_zero end.
Definition use_history : list (use f64) :=
  [UCall (DNext true (f64_ofZ 1) use_draws); UReloadRoute 0 (use_route idMath); UUnmarshal use_bytes;
   UCall (DDestinationTo (f64_ofZ 1)); UUnmarshal [0x0a]%Z; UCall (DNext true (f64_ofZ 1) use_draws)].
Definition test_parts : bool :=
  match unmarshal d_Snapshot use_bytes with
  | Some m0 =>
    match r_Snapshot (T := f64) m0 with
    | mkPbSnapshot _ _ _ _ _ _ _ _
       (Some (mkPbNavigator [mkPbRoute _ _ _ [mkPbTrack _ [mkPbSegment (Some _) (Some _) _ _ _ _] _ _ _ _ _ _] _ _ _] i _ _ _ _ _ _ _ (Some _)
               (Some (mkPbSensor _ _ _ _ _ _ (Some (mkPbCurve [mkPbCtrl (Some _) (Some _)] _ _ _)))) _ _ _ _ _))
       (Some (mkPbCommon _ _ _ (Some (mkPbCurve [mkPbCtrl (Some _) (Some _)] _ _ _)))) (Some _)
       [mkPbSensor _ _ _ _ _ _ (Some (mkPbCurve [mkPbCtrl (Some _) (Some _)] _ _ _))] => (i =? 0)%Z
    | _ => false
    end
  | None => false
  end.
Lemma test_parts_ok : test_parts = true.
Proof. vm_compute. reflexivity. Qed.
Lemma use_bytes_parts : exists m0, unmarshal d_Snapshot use_bytes = Some m0 /\ complete_snapshot (r_Snapshot (T := f64) m0) /\ drawn_snapshot (r_Snapshot (T := f64) m0).
Proof.
  pose proof test_parts_ok as H. unfold test_parts in H. destruct (unmarshal d_Snapshot use_bytes) as [m0|]; [|discriminate].
  exists m0. split; [reflexivity|]. destruct (r_Snapshot m0) as [? ? ? ? ? ? ? ? nav sp bt se].
  repeat match type of H with context [match ?q with _ => _ end] => destruct q; try discriminate H end.
  apply Z.eqb_eq in H. subst.
  split.
  - assert (K : (0 <= 0 < 1)%Z) by (split; [discriminate|reflexivity]).
    repeat split; try (right; exact K); repeat constructor; discriminate.
  - split; [discriminate|]. split; [right; discriminate|]. repeat constructor. discriminate.
Qed.
Example use_bytes_good : good_bytes (T := f64) use_bytes.
Proof.
  intros m _. assert (E : exists m0, unmarshal d_Snapshot use_bytes = Some m0 /\ complete_snapshot (r_Snapshot (T := f64) m0) /\ drawn_snapshot (r_Snapshot (T := f64) m0)).
  { exact use_bytes_parts. }
  destruct E as (m0 & -> & E). intros [= <-]. exact E.
Qed.
Lemma use_route_good : complete_route (use_route idMath).
Proof. repeat constructor; discriminate. Qed.
Example C76_example : zero_eq_zero exN /\ decoded_device use_dev /\ Forall good_use use_history /\ use_jumps_on_at_most_two_routes use_dev use_history /\
  match run_uses use_dev use_history with Ret d => f0 <? n_cd (d_nav d) | _ => false end = true.
Proof.
  split; [vm_compute; reflexivity|]. split.
  { exists use_bytes. split; [exact use_bytes_good|]. assert (H : match DecodeTracker use_bytes with Ret (GOk _) => true | _ => false end = true) by (vm_compute; reflexivity).
    unfold use_dev. destruct (DecodeTracker use_bytes) as [[d|]| |]; [reflexivity|discriminate..]. }
  split; [|split; [vm_compute; repeat split; discriminate|vm_compute; reflexivity]].
  constructor; [exact I|]. constructor; [exact use_route_good|]. constructor; [exact use_bytes_good|]. constructor; [exact I|].
  constructor; [intros m _ H; vm_compute in H; discriminate|]. constructor; [exact I|constructor].
Qed.
