(** The messages of the two .proto files. *)
From Coq Require Import Lia.
From Verif.Model Require Import Base Num Utf8 Pb Types Track Route Navigator Device PropMap TypesSnap Wire WireMsgs IO.
From Verif.Spec Require Import WireSpec WireMsgSpec DecodeSpec Utf8Spec ProtoSpec.
From Verif.Proofs Require Import BaseLemmas WireProofs WireMsgProofs WireTop DecodeProofs Utf8Proofs ProtoProofs.
Open Scope string_scope.
Open Scope list_scope.
Open Scope Z_scope.

Lemma deep_ty_mono n : forall n' ty, (n <= n')%nat -> deep_ty n ty = true -> deep_ty n' ty = true.
Proof.
  induction n as [|n IH]; intros n' ty Hn H; destruct ty; try (destruct n'; reflexivity); try discriminate;
    (destruct n' as [|n']; [lia|]; cbn [deep_ty] in *; rewrite forallb_forall in *; intros x Hx; apply IH; [lia|auto]).
Qed.
Lemma deep_mono n n' m : deep n m = true -> (n <= n')%nat -> deep n' m = true.
Proof. unfold deep. rewrite !forallb_forall. intros H Hn x Hx. eapply deep_ty_mono; eauto. Qed.

Section Messages.
Context {T : Type} {B : Bits64 T}.

Lemma gM_messages {A} (r : msg -> A) g b f t : (forall t, r (b t) = g t) ->
  gM r (SM (match messages f t with [] => None | l => Some (b (List.concat l)) end)) = the_message g f t.
Proof. intros H. unfold the_message, gM. destruct (messages f t); [reflexivity|]. now rewrite H. Qed.
Lemma gR_messages {A} (r : msg -> A) g b f t : (forall t, r (b t) = g t) -> gR r (SR (map b (messages f t))) = the_list g f t.
Proof. intros H. unfold the_list, gR. rewrite map_map. apply map_ext. exact H. Qed.

Definition from (n : nat) (m : string) (t : tree) : msg := build n m (zero_msg (desc_of n m)) t.
Lemma gM_from {A} (r : msg -> A) g n m f t : (forall t, r (from n m t) = g t) ->
  gM r (SM (match messages f t with [] => None | l => Some (build n m (zero_msg (desc_of n m)) (List.concat l)) end)) = the_message g f t.
Proof. intros H. exact (gM_messages r g (from n m) f t H). Qed.
Lemma gR_from {A} (r : msg -> A) g n m f t : (forall t, r (from n m t) = g t) ->
  gR r (SR (map (build n m (zero_msg (desc_of n m))) (messages f t))) = the_list g f t.
Proof. intros H. exact (gR_messages r g (from n m) f t H). Qed.

Lemma read_PointLatLon n t : (0 <= n)%nat -> r_PointLatLon (from n "Snapshot.PointLatLon" t) = PointLatLon_of t.
Proof.
  intros Hn. unfold from. rewrite build_slots by (apply (deep_mono 0); [vm_compute; reflexivity|exact Hn]).
  let F := eval vm_compute in (fields "Snapshot.PointLatLon") in change (fields "Snapshot.PointLatLon") with F.
  unfold r_PointLatLon, PointLatLon_of, slot_of, fld. cbn [map fst snd nth gF gI gB gS].
  reflexivity.
Qed.

Lemma read_CurvePoint n t : (0 <= n)%nat -> r_CurvePoint (from n "Snapshot.Curve.Point" t) = CurvePoint_of t.
Proof.
  intros Hn. unfold from. rewrite build_slots by (apply (deep_mono 0); [vm_compute; reflexivity|exact Hn]).
  let F := eval vm_compute in (fields "Snapshot.Curve.Point") in change (fields "Snapshot.Curve.Point") with F.
  unfold r_CurvePoint, CurvePoint_of, slot_of, fld. cbn [map fst snd nth gF gI gB gS].
  reflexivity.
Qed.

Lemma read_ControlPoint n t : (1 <= n)%nat -> r_ControlPoint (from n "Snapshot.Curve.ControlPoint" t) = ControlPoint_of t.
Proof.
  intros Hn. unfold from. rewrite build_slots by (apply (deep_mono 1); [vm_compute; reflexivity|exact Hn]).
  let F := eval vm_compute in (fields "Snapshot.Curve.ControlPoint") in change (fields "Snapshot.Curve.ControlPoint") with F.
  unfold r_ControlPoint, ControlPoint_of, slot_of, fld. cbn [map fst snd nth gF gI gB gS].
  rewrite !(gM_from r_CurvePoint CurvePoint_of) by (intros; apply read_CurvePoint; lia).
  reflexivity.
Qed.

Lemma read_Curve n t : (2 <= n)%nat -> r_Curve (from n "Snapshot.Curve" t) = Curve_of t.
Proof.
  intros Hn. unfold from. rewrite build_slots by (apply (deep_mono 2); [vm_compute; reflexivity|exact Hn]).
  let F := eval vm_compute in (fields "Snapshot.Curve") in change (fields "Snapshot.Curve") with F.
  unfold r_Curve, Curve_of, slot_of, fld. cbn [map fst snd nth gF gI gB gS].
  rewrite !(gR_from r_ControlPoint ControlPoint_of) by (intros; apply read_ControlPoint; lia).
  reflexivity.
Qed.

Lemma read_Common n t : (3 <= n)%nat -> r_Common (from n "Snapshot.CommonType" t) = Common_of t.
Proof.
  intros Hn. unfold from. rewrite build_slots by (apply (deep_mono 3); [vm_compute; reflexivity|exact Hn]).
  let F := eval vm_compute in (fields "Snapshot.CommonType") in change (fields "Snapshot.CommonType") with F.
  unfold r_Common, Common_of, slot_of, fld. cbn [map fst snd nth gF gI gB gS].
  rewrite !(gM_from r_Curve Curve_of) by (intros; apply read_Curve; lia).
  reflexivity.
Qed.

Lemma read_Battery n t : (0 <= n)%nat -> r_Battery (from n "Snapshot.BatteryType" t) = Battery_of t.
Proof.
  intros Hn. unfold from. rewrite build_slots by (apply (deep_mono 0); [vm_compute; reflexivity|exact Hn]).
  let F := eval vm_compute in (fields "Snapshot.BatteryType") in change (fields "Snapshot.BatteryType") with F.
  unfold r_Battery, Battery_of, slot_of, fld. cbn [map fst snd nth gF gI gB gS].
  reflexivity.
Qed.

Lemma read_Sensor n t : (3 <= n)%nat -> r_Sensor (from n "Snapshot.SensorType" t) = Sensor_of t.
Proof.
  intros Hn. unfold from. rewrite build_slots by (apply (deep_mono 3); [vm_compute; reflexivity|exact Hn]).
  let F := eval vm_compute in (fields "Snapshot.SensorType") in change (fields "Snapshot.SensorType") with F.
  unfold r_Sensor, Sensor_of, slot_of, fld. cbn [map fst snd nth gF gI gB gS].
  rewrite !(gM_from r_Curve Curve_of) by (intros; apply read_Curve; lia).
  reflexivity.
Qed.

Lemma read_Sensors n t : (4 <= n)%nat -> r_Sensors (from n "Snapshot.Sensors" t) = Sensors_of t.
Proof.
  intros Hn. unfold from. rewrite build_slots by (apply (deep_mono 4); [vm_compute; reflexivity|exact Hn]).
  let F := eval vm_compute in (fields "Snapshot.Sensors") in change (fields "Snapshot.Sensors") with F.
  unfold r_Sensors, Sensors_of, slot_of, fld. cbn [map fst snd nth gF gI gB gS].
  rewrite !(gR_from r_Sensor Sensor_of) by (intros; apply read_Sensor; lia).
  reflexivity.
Qed.

Lemma read_Segment n t : (1 <= n)%nat -> r_Segment (from n "Snapshot.Navigator.Route.Track.Segment" t) = Segment_of t.
Proof.
  intros Hn. unfold from. rewrite build_slots by (apply (deep_mono 1); [vm_compute; reflexivity|exact Hn]).
  let F := eval vm_compute in (fields "Snapshot.Navigator.Route.Track.Segment") in change (fields "Snapshot.Navigator.Route.Track.Segment") with F.
  unfold r_Segment, Segment_of, slot_of, fld. cbn [map fst snd nth gF gI gB gS].
  rewrite !(gM_from r_PointLatLon PointLatLon_of) by (intros; apply read_PointLatLon; lia).
  reflexivity.
Qed.

Lemma read_Track n t : (2 <= n)%nat -> r_Track (from n "Snapshot.Navigator.Route.Track" t) = Track_of t.
Proof.
  intros Hn. unfold from. rewrite build_slots by (apply (deep_mono 2); [vm_compute; reflexivity|exact Hn]).
  let F := eval vm_compute in (fields "Snapshot.Navigator.Route.Track") in change (fields "Snapshot.Navigator.Route.Track") with F.
  unfold r_Track, Track_of, slot_of, fld. cbn [map fst snd nth gF gI gB gS].
  rewrite !(gR_from r_Segment Segment_of) by (intros; apply read_Segment; lia).
  reflexivity.
Qed.

Lemma read_Route n t : (3 <= n)%nat -> r_Route (from n "Snapshot.Navigator.Route" t) = Route_of t.
Proof.
  intros Hn. unfold from. rewrite build_slots by (apply (deep_mono 3); [vm_compute; reflexivity|exact Hn]).
  let F := eval vm_compute in (fields "Snapshot.Navigator.Route") in change (fields "Snapshot.Navigator.Route") with F.
  unfold r_Route, Route_of, slot_of, fld. cbn [map fst snd nth gF gI gB gS].
  rewrite !(gR_from r_Track Track_of) by (intros; apply read_Track; lia).
  reflexivity.
Qed.

Lemma read_Routes n t : (4 <= n)%nat -> r_Routes (from n "Snapshot.Navigator.Routes" t) = Routes_of t.
Proof.
  intros Hn. unfold from. rewrite build_slots by (apply (deep_mono 4); [vm_compute; reflexivity|exact Hn]).
  let F := eval vm_compute in (fields "Snapshot.Navigator.Routes") in change (fields "Snapshot.Navigator.Routes") with F.
  unfold r_Routes, Routes_of, slot_of, fld. cbn [map fst snd nth gF gI gB gS].
  rewrite !(gR_from r_Route Route_of) by (intros; apply read_Route; lia).
  reflexivity.
Qed.

Lemma read_Navigator n t : (4 <= n)%nat -> r_Navigator (from n "Snapshot.Navigator" t) = Navigator_of t.
Proof.
  intros Hn. unfold from. rewrite build_slots by (apply (deep_mono 4); [vm_compute; reflexivity|exact Hn]).
  let F := eval vm_compute in (fields "Snapshot.Navigator") in change (fields "Snapshot.Navigator") with F.
  unfold r_Navigator, Navigator_of, slot_of, fld. cbn [map fst snd nth gF gI gB gS].
  rewrite !(gR_from r_Route Route_of) by (intros; apply read_Route; lia).
  rewrite !(gM_from r_PointLatLon PointLatLon_of) by (intros; apply read_PointLatLon; lia).
  rewrite !(gM_from r_Sensor Sensor_of) by (intros; apply read_Sensor; lia).
  reflexivity.
Qed.

Lemma read_Snapshot n t : (5 <= n)%nat -> r_Snapshot (from n "Snapshot" t) = Snapshot_of t.
Proof.
  intros Hn. unfold from. rewrite build_slots by (apply (deep_mono 5); [vm_compute; reflexivity|exact Hn]).
  let F := eval vm_compute in (fields "Snapshot") in change (fields "Snapshot") with F.
  unfold r_Snapshot, Snapshot_of, slot_of, fld. cbn [map fst snd nth gF gI gB gS].
  rewrite !(gM_from r_Navigator Navigator_of) by (intros; apply read_Navigator; lia).
  rewrite !(gM_from r_Common Common_of) by (intros; apply read_Common; lia).
  rewrite !(gM_from r_Battery Battery_of) by (intros; apply read_Battery; lia).
  rewrite !(gR_from r_Sensor Sensor_of) by (intros; apply read_Sensor; lia).
  reflexivity.
Qed.

Lemma read_DBattery n t : (0 <= n)%nat -> r_DBattery (from n "Device.Battery" t) = DBattery_of t.
Proof.
  intros Hn. unfold from. rewrite build_slots by (apply (deep_mono 0); [vm_compute; reflexivity|exact Hn]).
  let F := eval vm_compute in (fields "Device.Battery") in change (fields "Device.Battery") with F.
  unfold r_DBattery, DBattery_of, slot_of, fld. cbn [map fst snd nth gF gI gB gS].
  reflexivity.
Qed.

Lemma read_DTrack n t : (0 <= n)%nat -> r_DTrack (from n "Device.Routes.Route.Track" t) = DTrack_of t.
Proof.
  intros Hn. unfold from. rewrite build_slots by (apply (deep_mono 0); [vm_compute; reflexivity|exact Hn]).
  let F := eval vm_compute in (fields "Device.Routes.Route.Track") in change (fields "Device.Routes.Route.Track") with F.
  unfold r_DTrack, DTrack_of, slot_of, fld. cbn [map fst snd nth gF gI gB gS].
  reflexivity.
Qed.

Lemma read_DRoute n t : (1 <= n)%nat -> r_DRoute (from n "Device.Routes.Route" t) = DRoute_of t.
Proof.
  intros Hn. unfold from. rewrite build_slots by (apply (deep_mono 1); [vm_compute; reflexivity|exact Hn]).
  let F := eval vm_compute in (fields "Device.Routes.Route") in change (fields "Device.Routes.Route") with F.
  unfold r_DRoute, DRoute_of, slot_of, fld. cbn [map fst snd nth gF gI gB gS].
  rewrite !(gR_from r_DTrack DTrack_of) by (intros; apply read_DTrack; lia).
  reflexivity.
Qed.

Lemma read_DRoutes n t : (2 <= n)%nat -> r_DRoutes (from n "Device.Routes" t) = DRoutes_of t.
Proof.
  intros Hn. unfold from. rewrite build_slots by (apply (deep_mono 2); [vm_compute; reflexivity|exact Hn]).
  let F := eval vm_compute in (fields "Device.Routes") in change (fields "Device.Routes") with F.
  unfold r_DRoutes, DRoutes_of, slot_of, fld. cbn [map fst snd nth gF gI gB gS].
  rewrite !(gR_from r_DRoute DRoute_of) by (intros; apply read_DRoute; lia).
  reflexivity.
Qed.

Lemma read_DSensor n t : (0 <= n)%nat -> r_DSensor (from n "Device.Sensor" t) = DSensor_of t.
Proof.
  intros Hn. unfold from. rewrite build_slots by (apply (deep_mono 0); [vm_compute; reflexivity|exact Hn]).
  let F := eval vm_compute in (fields "Device.Sensor") in change (fields "Device.Sensor") with F.
  unfold r_DSensor, DSensor_of, slot_of, fld. cbn [map fst snd nth gF gI gB gS].
  reflexivity.
Qed.

Lemma read_DNavigator n t : (0 <= n)%nat -> r_DNavigator (from n "Device.Navigator" t) = DNavigator_of t.
Proof.
  intros Hn. unfold from. rewrite build_slots by (apply (deep_mono 0); [vm_compute; reflexivity|exact Hn]).
  let F := eval vm_compute in (fields "Device.Navigator") in change (fields "Device.Navigator") with F.
  unfold r_DNavigator, DNavigator_of, slot_of, fld. cbn [map fst snd nth gF gI gB gS].
  reflexivity.
Qed.

Lemma read_DDistance n t : (0 <= n)%nat -> r_DDistance (from n "Device.Distance" t) = DDistance_of t.
Proof.
  intros Hn. unfold from. rewrite build_slots by (apply (deep_mono 0); [vm_compute; reflexivity|exact Hn]).
  let F := eval vm_compute in (fields "Device.Distance") in change (fields "Device.Distance") with F.
  unfold r_DDistance, DDistance_of, slot_of, fld. cbn [map fst snd nth gF gI gB gS].
  reflexivity.
Qed.

Lemma read_DMS n t : (0 <= n)%nat -> r_DMS (from n "Device.Location.DMS" t) = DMS_of t.
Proof.
  intros Hn. unfold from. rewrite build_slots by (apply (deep_mono 0); [vm_compute; reflexivity|exact Hn]).
  let F := eval vm_compute in (fields "Device.Location.DMS") in change (fields "Device.Location.DMS") with F.
  unfold r_DMS, DMS_of, slot_of, fld. cbn [map fst snd nth gF gI gB gS].
  reflexivity.
Qed.

Lemma read_UTM n t : (0 <= n)%nat -> r_UTM (from n "Device.Location.UTM" t) = UTM_of t.
Proof.
  intros Hn. unfold from. rewrite build_slots by (apply (deep_mono 0); [vm_compute; reflexivity|exact Hn]).
  let F := eval vm_compute in (fields "Device.Location.UTM") in change (fields "Device.Location.UTM") with F.
  unfold r_UTM, UTM_of, slot_of, fld. cbn [map fst snd nth gF gI gB gS].
  reflexivity.
Qed.

Lemma read_DLocation n t : (1 <= n)%nat -> r_DLocation (from n "Device.Location" t) = DLocation_of t.
Proof.
  intros Hn. unfold from. rewrite build_slots by (apply (deep_mono 1); [vm_compute; reflexivity|exact Hn]).
  let F := eval vm_compute in (fields "Device.Location") in change (fields "Device.Location") with F.
  unfold r_DLocation, DLocation_of, slot_of, fld. cbn [map fst snd nth gF gI gB gS].
  rewrite !(gM_from r_DMS DMS_of) by (intros; apply read_DMS; lia).
  rewrite !(gM_from r_UTM UTM_of) by (intros; apply read_UTM; lia).
  reflexivity.
Qed.

Lemma read_DUnit n t : (0 <= n)%nat -> r_DUnit (from n "Device.Unit" t) = DUnit_of t.
Proof.
  intros Hn. unfold from. rewrite build_slots by (apply (deep_mono 0); [vm_compute; reflexivity|exact Hn]).
  let F := eval vm_compute in (fields "Device.Unit") in change (fields "Device.Unit") with F.
  unfold r_DUnit, DUnit_of, slot_of, fld. cbn [map fst snd nth gF gI gB gS].
  reflexivity.
Qed.

Lemma read_Device n t : (3 <= n)%nat -> r_Device (from n "Device" t) = Device_of t.
Proof.
  intros Hn. unfold from. rewrite build_slots by (apply (deep_mono 3); [vm_compute; reflexivity|exact Hn]).
  let F := eval vm_compute in (fields "Device") in change (fields "Device") with F.
  unfold r_Device, Device_of, slot_of, fld. cbn [map fst snd nth gF gI gB gS].
  rewrite !(gM_from r_DDistance DDistance_of) by (intros; apply read_DDistance; lia).
  rewrite !(gM_from r_DBattery DBattery_of) by (intros; apply read_DBattery; lia).
  rewrite !(gM_from r_DRoutes DRoutes_of) by (intros; apply read_DRoutes; lia).
  rewrite !(gM_from r_DLocation DLocation_of) by (intros; apply read_DLocation; lia).
  rewrite !(gM_from r_DNavigator DNavigator_of) by (intros; apply read_DNavigator; lia).
  rewrite !(gR_from r_DSensor DSensor_of) by (intros; apply read_DSensor; lia).
  rewrite !(gM_from r_DUnit DUnit_of) by (intros; apply read_DUnit; lia).
  reflexivity.
Qed.

Lemma read_Packet n t : (4 <= n)%nat -> r_Packet (from n "Packet" t) = Packet_of t.
Proof.
  intros Hn. unfold from. rewrite build_slots by (apply (deep_mono 4); [vm_compute; reflexivity|exact Hn]).
  let F := eval vm_compute in (fields "Packet") in change (fields "Packet") with F.
  unfold r_Packet, Packet_of, slot_of, fld. cbn [map fst snd nth gF gI gB gS].
  rewrite !(gR_from r_Device Device_of) by (intros; apply read_Device; lia).
  reflexivity.
Qed.

(** ** decoding and encoding *)
Lemma unmarshal_iff {A} (r : msg -> A) (g : tree -> A) d m : d = desc_of 8 m -> deep 8 m = true -> (forall t, r (from 8 m t) = g t) ->
  forall (b : list byte) x, bytes b -> (option_map r (unmarshal d b) = Some x <-> exists t, doc m t b /\ x = g t).
Proof.
  intros -> Hd Hr b x Hb. unfold unmarshal. pose proof (dec_iff (S (List.length b)) 8 m (zero_msg (desc_of 8 m)) b) as H. split.
  - intros E. destruct (dec_msg _ _ _ _) as [s'|] eqn:Es; [|discriminate]. cbn in E. injection E as <-.
    destruct (proj1 (H s' Hd (Nat.lt_succ_diag_r _) Hb) eq_refl) as (t & Dt & ->). exists t. split; [exact Dt|apply Hr].
  - intros (t & Dt & ->). rewrite (proj2 (H _ Hd (Nat.lt_succ_diag_r _) Hb) (ex_intro _ t (conj Dt eq_refl))). cbn [option_map]. f_equal. exact (Hr t).
Qed.
Lemma unmarshal_Packet b x : bytes b -> (option_map r_Packet (unmarshal d_Packet b) = Some x <-> exists t, doc "Packet" t b /\ x = Packet_of t).
Proof. apply unmarshal_iff; [vm_compute; reflexivity|vm_compute; reflexivity|]. intros t. apply read_Packet. lia. Qed.
Lemma unmarshal_Snapshot b x : bytes b -> (option_map r_Snapshot (unmarshal d_Snapshot b) = Some x <-> exists t, doc "Snapshot" t b /\ x = Snapshot_of t).
Proof. apply unmarshal_iff; [vm_compute; reflexivity|vm_compute; reflexivity|]. intros t. apply read_Snapshot. lia. Qed.
Lemma unmarshal_Routes b x : bytes b -> (option_map r_Routes (unmarshal d_Routes b) = Some x <-> exists t, doc "Snapshot.Navigator.Routes" t b /\ x = Routes_of t).
Proof. apply unmarshal_iff; [vm_compute; reflexivity|vm_compute; reflexivity|]. intros t. apply read_Routes. lia. Qed.
Lemma unmarshal_Sensors b x : bytes b -> (option_map r_Sensors (unmarshal d_Sensors b) = Some x <-> exists t, doc "Snapshot.Sensors" t b /\ x = Sensors_of t).
Proof. apply unmarshal_iff; [vm_compute; reflexivity|vm_compute; reflexivity|]. intros t. apply read_Sensors. lia. Qed.

Lemma C75_packet_proof b p : bytes b -> (PacketFromBytes b = GOk p <-> b <> [] /\ exists t, doc "Packet" t b /\ p = Packet_of t).
Proof.
  intros Hb. rewrite <- (unmarshal_Packet b p Hb). unfold PacketFromBytes. destruct b as [|x b]; [split; [discriminate|intros [H _]; congruence]|].
  destruct (unmarshal d_Packet (x :: b)) as [m|]; cbn; split; try discriminate.
  - intros [= <-]. split; [discriminate|reflexivity].
  - intros [_ [= <-]]. reflexivity.
  - intros [_ E]. discriminate.
Qed.

Section Encode.
Context (HB : bits_law T).
Lemma encode_of {A} d (w : A -> msg) (r : msg -> A) (g : tree -> A) m x b : desc_wf d -> survives d w r x ->
  (forall b x, bytes b -> (option_map r (unmarshal d b) = Some x <-> exists t, doc m t b /\ x = g t)) ->
  marshal d (w x) = Some b -> zlen b < 2 ^ 63 -> bytes b /\ exists t, doc m t b /\ g t = x.
Proof.
  intros W (b' & Eb & D) H E Hz. rewrite E in Eb. injection Eb as <-. pose proof (marshal_bytes _ _ _ W E) as Hb. split; [exact Hb|].
  destruct (proj1 (H b x Hb) (D Hz)) as (t & Dt & ->). exists t. split; [exact Dt|reflexivity].
Qed.
Lemma marshal_Packet x b : int64_Packet x -> utf8_Packet x -> marshal d_Packet (w_Packet x) = Some b -> zlen b < 2 ^ 63 ->
  bytes b /\ exists t, doc "Packet" t b /\ Packet_of t = x.
Proof.
  intros Hi Hu. apply encode_of with (r := r_Packet); [apply wf_Packet|apply survives_of; [apply wf_Packet|apply ok_Packet; auto|now apply rw_Packet]|].
  exact (@unmarshal_Packet).
Qed.
Lemma marshal_Snapshot x b : int64_Snapshot x -> utf8_Snapshot x -> marshal d_Snapshot (w_Snapshot x) = Some b -> zlen b < 2 ^ 63 ->
  bytes b /\ exists t, doc "Snapshot" t b /\ Snapshot_of t = x.
Proof.
  intros Hi Hu. apply encode_of with (r := r_Snapshot); [apply wf_Snapshot|apply survives_of; [apply wf_Snapshot|apply ok_Snapshot; auto|now apply rw_Snapshot]|].
  exact (@unmarshal_Snapshot).
Qed.
Lemma marshal_Routes x b : int64_Routes x -> utf8_Routes x -> marshal d_Routes (w_Routes x) = Some b -> zlen b < 2 ^ 63 ->
  bytes b /\ exists t, doc "Snapshot.Navigator.Routes" t b /\ Routes_of t = x.
Proof.
  intros Hi Hu. apply encode_of with (r := r_Routes); [apply wf_Routes|apply survives_of; [apply wf_Routes|apply ok_Routes; auto|now apply rw_Routes]|].
  exact (@unmarshal_Routes).
Qed.
Lemma marshal_Sensors x b : int64_Sensors x -> utf8_Sensors x -> marshal d_Sensors (w_Sensors x) = Some b -> zlen b < 2 ^ 63 ->
  bytes b /\ exists t, doc "Snapshot.Sensors" t b /\ Sensors_of t = x.
Proof.
  intros Hi Hu. apply encode_of with (r := r_Sensors); [apply wf_Sensors|apply survives_of; [apply wf_Sensors|apply ok_Sensors; auto|now apply rw_Sensors]|].
  exact (@unmarshal_Sensors).
Qed.

Lemma C75_marshal_packet_proof p b : int64_Packet p -> MarshalPacket p = GOk b -> zlen b < 2 ^ 63 ->
  bytes b /\ exists t, doc "Packet" t b /\ Packet_of t = p.
Proof.
  intros Hi. unfold MarshalPacket, to_bytes. destruct (marshal d_Packet (w_Packet p)) eqn:E; [|discriminate]. intros [= <-] Hz.
  apply marshal_Packet; auto. apply utf_Packet. eapply enc_utf8; exact E.
Qed.
Context {N : Num T} {J : JsonLib T} {U : UtmLib T}.
Lemma C75_marshal_device_proof (d : device T) x b : device_Snapshot d = Ret x -> int64_Snapshot x -> MarshalBinary d = Ret (GOk b) -> zlen b < 2 ^ 63 ->
  bytes b /\ exists t, doc "Snapshot" t b /\ Snapshot_of t = x.
Proof.
  intros Ed Hi. unfold MarshalBinary. rewrite Ed. cbn [bind]. unfold to_bytes. destruct (marshal d_Snapshot (w_Snapshot x)) eqn:E; [|discriminate]. intros [= <-] Hz.
  apply marshal_Snapshot; auto. apply utf_Snapshot. eapply enc_utf8; exact E.
Qed.
Lemma C75_encode_routes_proof (rs : list (route T)) b : Forall int64_route rs -> EncodeRoutes rs = GOk b -> zlen b < 2 ^ 63 ->
  bytes b /\ exists t, doc "Snapshot.Navigator.Routes" t b /\ prs_routes (Routes_of t) = map route_Snapshot rs.
Proof.
  intros Hi. unfold EncodeRoutes. destruct rs as [|r rs]; [discriminate|]. unfold to_bytes.
  destruct (marshal d_Routes (w_Routes (mkPbRoutes (map route_Snapshot (r :: rs))))) eqn:E; [|discriminate]. intros [= <-] Hz.
  destruct (marshal_Routes (mkPbRoutes (map route_Snapshot (r :: rs))) l) as (Hb & t & Dt & Et); auto.
  - now apply int64_route_iff.
  - apply utf_Routes. eapply enc_utf8; exact E.
  - split; [exact Hb|]. exists t. split; [exact Dt|]. now rewrite Et.
Qed.
Lemma C75_encode_sensors_proof (ss : list (sensor T)) b : Forall int64_sensor ss -> EncodeSensors ss = GOk b -> zlen b < 2 ^ 63 ->
  bytes b /\ exists t, doc "Snapshot.Sensors" t b /\ pss_sensors (Sensors_of t) = map sensor_Snapshot ss.
Proof.
  intros Hi. unfold EncodeSensors. destruct ss as [|r ss]; [discriminate|]. unfold to_bytes.
  destruct (marshal d_Sensors (w_Sensors (mkPbSensors (map sensor_Snapshot (r :: ss))))) eqn:E; [|discriminate]. intros [= <-] Hz.
  destruct (marshal_Sensors (mkPbSensors (map sensor_Snapshot (r :: ss))) l) as (Hb & t & Dt & Et); auto.
  - now apply int64_sensor_iff.
  - apply utf_Sensors. eapply enc_utf8; exact E.
  - split; [exact Hb|]. exists t. split; [exact Dt|]. now rewrite Et.
Qed.
End Encode.

Section Decode.
Context {N : Num T} {J : JsonLib T} {U : UtmLib T}.
Lemma unmarshal_cases {A} (r : msg -> A) (g : tree -> A) d m b :
  (forall x, option_map r (unmarshal d b) = Some x <-> exists t, doc m t b /\ x = g t) ->
  (unmarshal d b = None <-> ~ exists t, doc m t b) /\ (forall t, doc m t b -> exists s, unmarshal d b = Some s /\ r s = g t).
Proof.
  intros H. split.
  - destruct (unmarshal d b) as [s|] eqn:E; split; try discriminate.
    + intros Hn. exfalso. apply Hn. destruct (proj1 (H (r s)) eq_refl) as (t & Dt & _). exists t. exact Dt.
    + intros _ (t & Dt). specialize (proj2 (H (g t)) (ex_intro _ t (conj Dt eq_refl))). discriminate.
    + reflexivity.
  - intros t Dt. specialize (proj2 (H (g t)) (ex_intro _ t (conj Dt eq_refl))). destruct (unmarshal d b) as [s|]; [|discriminate].
    cbn. intros [= E]. exists s. split; [reflexivity|exact E].
Qed.
Lemma C75_decode_tracker_proof b : bytes b -> b <> [] ->
  ((~ exists t, doc "Snapshot" t b) -> DecodeTracker b = Ret (GErr ErrWire)) /\
  (forall t, doc "Snapshot" t b ->
     DecodeTracker b = let* d := device_FromSnapshot device_zero (Snapshot_of t) in let* d := device_Update d in Ret (GOk d)).
Proof.
  intros Hb Hn. destruct (unmarshal_cases r_Snapshot Snapshot_of d_Snapshot _ b (fun x => unmarshal_Snapshot b x Hb)) as [H1 H2].
  unfold DecodeTracker, UnmarshalBinary. destruct b as [|b0 b]; [congruence|]. split.
  - intros H. apply H1 in H. rewrite H. reflexivity.
  - intros t Dt. destruct (H2 t Dt) as (s & -> & ->). destruct (device_FromSnapshot device_zero (Snapshot_of t)); reflexivity.
Qed.
Lemma C75_decode_routes_proof b : bytes b -> b <> [] ->
  ((~ exists t, doc "Snapshot.Navigator.Routes" t b) -> DecodeRoutes (T := T) b = Ret (GErr ErrWire)) /\
  (forall t, doc "Snapshot.Navigator.Routes" t b ->
     DecodeRoutes b = let* l := mapM (fun r => let* er := RouteFromSnapshot route_zero r in Ret (snd er)) (prs_routes (Routes_of t)) in Ret (GOk l)).
Proof.
  intros Hb Hn. destruct (unmarshal_cases r_Routes Routes_of d_Routes _ b (fun x => unmarshal_Routes b x Hb)) as [H1 H2].
  unfold DecodeRoutes. destruct b as [|b0 b]; [congruence|]. split.
  - intros H. apply H1 in H. rewrite H. reflexivity.
  - intros t Dt. destruct (H2 t Dt) as (s & -> & ->). reflexivity.
Qed.
Lemma C75_decode_sensors_proof b : bytes b -> b <> [] ->
  ((~ exists t, doc "Snapshot.Sensors" t b) -> DecodeSensors (T := T) b = Ret (GErr ErrWire)) /\
  (forall t, doc "Snapshot.Sensors" t b ->
     DecodeSensors b = let* l := mapM (fun s => sensor_FromSnapshot (Some s)) (pss_sensors (Sensors_of t)) in Ret (GOk l)).
Proof.
  intros Hb Hn. destruct (unmarshal_cases r_Sensors Sensors_of d_Sensors _ b (fun x => unmarshal_Sensors b x Hb)) as [H1 H2].
  unfold DecodeSensors. destruct b as [|b0 b]; [congruence|]. split.
  - intros H. apply H1 in H. rewrite H. reflexivity.
  - intros t Dt. destruct (H2 t Dt) as (s & -> & ->). reflexivity.
Qed.
End Decode.
End Messages.
