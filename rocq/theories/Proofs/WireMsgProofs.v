(** The record conversions of WireMsgs.v lose nothing (generated). *)
From Coq Require Import Lia.
From Verif.Model Require Import Base Utf8 Pb Wire WireMsgs.
From Verif.Spec Require Import WireSpec WireMsgSpec.
From Verif.Proofs Require Import BaseLemmas WireProofs.
Open Scope Z_scope.

Lemma if_set_iff {A} (P Q : A -> Prop) o : (forall x, P x <-> Q x) -> (if_set P o <-> if_set Q o).
Proof. intros H. destruct o; cbn; [apply H|tauto]. Qed.
Lemma Forall_iff {A} (P Q : A -> Prop) l : (forall x, P x <-> Q x) -> (Forall P l <-> Forall Q l).
Proof. intros H. split; intros F; (eapply Forall_impl; [|exact F]); intros x; apply H. Qed.
Lemma Forall_and {A} (P Q : A -> Prop) l : Forall (fun x => P x /\ Q x) l <-> Forall P l /\ Forall Q l.
Proof.
  split.
  - intros F. split; (eapply Forall_impl; [|exact F]); cbn; tauto.
  - intros [F G]. induction F; inversion G; subst; constructor; auto.
Qed.
Lemma ok_M {A} (w : A -> msg) d (P Q : A -> Prop) o : (forall x, msg_ok d (w x) <-> P x /\ Q x) ->
  (slot_ok (KMsg d) (SM (option_map w o)) <-> if_set P o /\ if_set Q o).
Proof. intros H. destruct o as [x|]; cbn [option_map if_set]; [apply H|cbn; tauto]. Qed.
Lemma ok_R {A} (w : A -> msg) d (P Q : A -> Prop) l : (forall x, msg_ok d (w x) <-> P x /\ Q x) ->
  (slot_ok (KRep d) (SR (map w l)) <-> Forall P l /\ Forall Q l).
Proof. intros H. rewrite <- Forall_and, slot_ok_rep, Forall_map. apply Forall_iff. exact H. Qed.
Lemma utf_M {A} (w : A -> msg) d (Q : A -> Prop) o : (forall x, msg_utf8 d (w x) <-> Q x) ->
  (slot_utf8 (KMsg d) (SM (option_map w o)) <-> if_set Q o).
Proof. intros H. destruct o as [x|]; cbn [option_map if_set]; [apply H|cbn; tauto]. Qed.
Lemma utf_R {A} (w : A -> msg) d (Q : A -> Prop) l : (forall x, msg_utf8 d (w x) <-> Q x) ->
  (slot_utf8 (KRep d) (SR (map w l)) <-> Forall Q l).
Proof. intros H. change (Forall (msg_utf8 d) (map w l) <-> Forall Q l). rewrite Forall_map. apply Forall_iff. exact H. Qed.
Lemma gM_w {A} (w : A -> msg) r o : (forall x, r (w x) = x) -> gM r (SM (option_map w o)) = o.
Proof. intros H. destruct o; cbn; [now rewrite H|reflexivity]. Qed.
Lemma gR_w {A} (w : A -> msg) r l : (forall x, r (w x) = x) -> gR r (SR (map w l)) = l.
Proof. intros H. cbn. rewrite map_map. rewrite (map_ext _ (fun x => x)) by exact H. apply map_id. Qed.

Section Records.
Context {T : Type} {B : Bits64 T} (HB : bits_law T).
Lemma ok_F x : slot_ok KDouble (SF (to_bits x)) <-> True.
Proof. split; [trivial|]. intros _. apply HB. Qed.
Lemma gF_w x : gF (SF (to_bits x)) = x.
Proof. apply HB. Qed.

Lemma ok_PointLatLon x : msg_ok d_PointLatLon (w_PointLatLon x) <-> int64_PointLatLon x /\ utf8_PointLatLon x.
Proof.
  unfold int64_PointLatLon, utf8_PointLatLon, w_PointLatLon, d_PointLatLon. cbn [msg_ok].
  rewrite ok_F, ok_F.
  unfold is_int64, is_utf8. cbn [slot_ok]. tauto.
Qed.
Lemma utf_PointLatLon x : msg_utf8 d_PointLatLon (w_PointLatLon x) <-> utf8_PointLatLon x.
Proof.
  unfold utf8_PointLatLon, w_PointLatLon, d_PointLatLon. cbn [msg_utf8].
  unfold is_utf8. cbn [slot_utf8]. tauto.
Qed.
Lemma rw_PointLatLon x : r_PointLatLon (w_PointLatLon x) = x.
Proof.
  unfold r_PointLatLon, w_PointLatLon, fld. cbn [nth].
  rewrite gF_w, gF_w.
  destruct x; reflexivity.
Qed.
Lemma wf_PointLatLon : desc_wf d_PointLatLon.
Proof. repeat first [split | apply NoDup_cons | apply NoDup_nil | exact I | lia | cbn; lia | cbn; tauto]; cbn; try lia; intuition lia. Qed.

Lemma ok_CurvePoint x : msg_ok d_CurvePoint (w_CurvePoint x) <-> int64_CurvePoint x /\ utf8_CurvePoint x.
Proof.
  unfold int64_CurvePoint, utf8_CurvePoint, w_CurvePoint, d_CurvePoint. cbn [msg_ok].
  rewrite ok_F, ok_F.
  unfold is_int64, is_utf8. cbn [slot_ok]. tauto.
Qed.
Lemma utf_CurvePoint x : msg_utf8 d_CurvePoint (w_CurvePoint x) <-> utf8_CurvePoint x.
Proof.
  unfold utf8_CurvePoint, w_CurvePoint, d_CurvePoint. cbn [msg_utf8].
  unfold is_utf8. cbn [slot_utf8]. tauto.
Qed.
Lemma rw_CurvePoint x : r_CurvePoint (w_CurvePoint x) = x.
Proof.
  unfold r_CurvePoint, w_CurvePoint, fld. cbn [nth].
  rewrite gF_w, gF_w.
  destruct x; reflexivity.
Qed.
Lemma wf_CurvePoint : desc_wf d_CurvePoint.
Proof. repeat first [split | apply NoDup_cons | apply NoDup_nil | exact I | lia | cbn; lia | cbn; tauto]; cbn; try lia; intuition lia. Qed.

Lemma ok_ControlPoint x : msg_ok d_ControlPoint (w_ControlPoint x) <-> int64_ControlPoint x /\ utf8_ControlPoint x.
Proof.
  unfold int64_ControlPoint, utf8_ControlPoint, w_ControlPoint, d_ControlPoint. cbn [msg_ok].
  rewrite (ok_M w_CurvePoint d_CurvePoint _ _ _ ok_CurvePoint), (ok_M w_CurvePoint d_CurvePoint _ _ _ ok_CurvePoint).
  unfold is_int64, is_utf8. cbn [slot_ok]. tauto.
Qed.
Lemma utf_ControlPoint x : msg_utf8 d_ControlPoint (w_ControlPoint x) <-> utf8_ControlPoint x.
Proof.
  unfold utf8_ControlPoint, w_ControlPoint, d_ControlPoint. cbn [msg_utf8].
  rewrite (utf_M w_CurvePoint d_CurvePoint _ _ utf_CurvePoint), (utf_M w_CurvePoint d_CurvePoint _ _ utf_CurvePoint).
  unfold is_utf8. cbn [slot_utf8]. tauto.
Qed.
Lemma rw_ControlPoint x : r_ControlPoint (w_ControlPoint x) = x.
Proof.
  unfold r_ControlPoint, w_ControlPoint, fld. cbn [nth].
  rewrite (gM_w w_CurvePoint r_CurvePoint _ rw_CurvePoint), (gM_w w_CurvePoint r_CurvePoint _ rw_CurvePoint).
  destruct x; reflexivity.
Qed.
Lemma wf_ControlPoint : desc_wf d_ControlPoint.
Proof. repeat first [split | apply NoDup_cons | apply NoDup_nil | exact I | lia | cbn; lia | cbn; tauto]; cbn; try lia; intuition lia. Qed.

Lemma ok_Curve x : msg_ok d_Curve (w_Curve x) <-> int64_Curve x /\ utf8_Curve x.
Proof.
  unfold int64_Curve, utf8_Curve, w_Curve, d_Curve. cbn [msg_ok].
  rewrite (ok_R w_ControlPoint d_ControlPoint _ _ _ ok_ControlPoint), ok_F, ok_F.
  unfold is_int64, is_utf8. cbn [slot_ok]. tauto.
Qed.
Lemma utf_Curve x : msg_utf8 d_Curve (w_Curve x) <-> utf8_Curve x.
Proof.
  unfold utf8_Curve, w_Curve, d_Curve. cbn [msg_utf8].
  rewrite (utf_R w_ControlPoint d_ControlPoint _ _ utf_ControlPoint).
  unfold is_utf8. cbn [slot_utf8]. tauto.
Qed.
Lemma rw_Curve x : r_Curve (w_Curve x) = x.
Proof.
  unfold r_Curve, w_Curve, fld. cbn [nth].
  rewrite (gR_w w_ControlPoint r_ControlPoint _ rw_ControlPoint), gF_w, gF_w.
  destruct x; reflexivity.
Qed.
Lemma wf_Curve : desc_wf d_Curve.
Proof. repeat first [split | apply NoDup_cons | apply NoDup_nil | exact I | lia | cbn; lia | cbn; tauto]; cbn; try lia; intuition lia. Qed.

Lemma ok_Common x : msg_ok d_Common (w_Common x) <-> int64_Common x /\ utf8_Common x.
Proof.
  unfold int64_Common, utf8_Common, w_Common, d_Common. cbn [msg_ok].
  rewrite ok_F, ok_F, ok_F, (ok_M w_Curve d_Curve _ _ _ ok_Curve).
  unfold is_int64, is_utf8. cbn [slot_ok]. tauto.
Qed.
Lemma utf_Common x : msg_utf8 d_Common (w_Common x) <-> utf8_Common x.
Proof.
  unfold utf8_Common, w_Common, d_Common. cbn [msg_utf8].
  rewrite (utf_M w_Curve d_Curve _ _ utf_Curve).
  unfold is_utf8. cbn [slot_utf8]. tauto.
Qed.
Lemma rw_Common x : r_Common (w_Common x) = x.
Proof.
  unfold r_Common, w_Common, fld. cbn [nth].
  rewrite gF_w, gF_w, gF_w, (gM_w w_Curve r_Curve _ rw_Curve).
  destruct x; reflexivity.
Qed.
Lemma wf_Common : desc_wf d_Common.
Proof. repeat first [split | apply NoDup_cons | apply NoDup_nil | exact I | lia | cbn; lia | cbn; tauto]; cbn; try lia; intuition lia. Qed.

Lemma ok_Battery x : msg_ok d_Battery (w_Battery x) <-> int64_Battery x /\ utf8_Battery x.
Proof.
  unfold int64_Battery, utf8_Battery, w_Battery, d_Battery. cbn [msg_ok].
  rewrite ok_F, ok_F, ok_F.
  unfold is_int64, is_utf8. cbn [slot_ok]. tauto.
Qed.
Lemma utf_Battery x : msg_utf8 d_Battery (w_Battery x) <-> utf8_Battery x.
Proof.
  unfold utf8_Battery, w_Battery, d_Battery. cbn [msg_utf8].
  unfold is_utf8. cbn [slot_utf8]. tauto.
Qed.
Lemma rw_Battery x : r_Battery (w_Battery x) = x.
Proof.
  unfold r_Battery, w_Battery, fld. cbn [nth].
  rewrite gF_w, gF_w, gF_w.
  destruct x; reflexivity.
Qed.
Lemma wf_Battery : desc_wf d_Battery.
Proof. repeat first [split | apply NoDup_cons | apply NoDup_nil | exact I | lia | cbn; lia | cbn; tauto]; cbn; try lia; intuition lia. Qed.

Lemma ok_Sensor x : msg_ok d_Sensor (w_Sensor x) <-> int64_Sensor x /\ utf8_Sensor x.
Proof.
  unfold int64_Sensor, utf8_Sensor, w_Sensor, d_Sensor. cbn [msg_ok].
  rewrite ok_F, ok_F, ok_F, ok_F, (ok_M w_Curve d_Curve _ _ _ ok_Curve).
  unfold is_int64, is_utf8. cbn [slot_ok]. tauto.
Qed.
Lemma utf_Sensor x : msg_utf8 d_Sensor (w_Sensor x) <-> utf8_Sensor x.
Proof.
  unfold utf8_Sensor, w_Sensor, d_Sensor. cbn [msg_utf8].
  rewrite (utf_M w_Curve d_Curve _ _ utf_Curve).
  unfold is_utf8. cbn [slot_utf8]. tauto.
Qed.
Lemma rw_Sensor x : r_Sensor (w_Sensor x) = x.
Proof.
  unfold r_Sensor, w_Sensor, fld. cbn [nth].
  rewrite gF_w, gF_w, gF_w, gF_w, (gM_w w_Curve r_Curve _ rw_Curve).
  destruct x; reflexivity.
Qed.
Lemma wf_Sensor : desc_wf d_Sensor.
Proof. repeat first [split | apply NoDup_cons | apply NoDup_nil | exact I | lia | cbn; lia | cbn; tauto]; cbn; try lia; intuition lia. Qed.

Lemma ok_Sensors x : msg_ok d_Sensors (w_Sensors x) <-> int64_Sensors x /\ utf8_Sensors x.
Proof.
  unfold int64_Sensors, utf8_Sensors, w_Sensors, d_Sensors. cbn [msg_ok].
  rewrite (ok_R w_Sensor d_Sensor _ _ _ ok_Sensor).
  unfold is_int64, is_utf8. cbn [slot_ok]. tauto.
Qed.
Lemma utf_Sensors x : msg_utf8 d_Sensors (w_Sensors x) <-> utf8_Sensors x.
Proof.
  unfold utf8_Sensors, w_Sensors, d_Sensors. cbn [msg_utf8].
  rewrite (utf_R w_Sensor d_Sensor _ _ utf_Sensor).
  unfold is_utf8. cbn [slot_utf8]. tauto.
Qed.
Lemma rw_Sensors x : r_Sensors (w_Sensors x) = x.
Proof.
  unfold r_Sensors, w_Sensors, fld. cbn [nth].
  rewrite (gR_w w_Sensor r_Sensor _ rw_Sensor).
  destruct x; reflexivity.
Qed.
Lemma wf_Sensors : desc_wf d_Sensors.
Proof. repeat first [split | apply NoDup_cons | apply NoDup_nil | exact I | lia | cbn; lia | cbn; tauto]; cbn; try lia; intuition lia. Qed.

Lemma ok_Segment x : msg_ok d_Segment (w_Segment x) <-> int64_Segment x /\ utf8_Segment x.
Proof.
  unfold int64_Segment, utf8_Segment, w_Segment, d_Segment. cbn [msg_ok].
  rewrite (ok_M w_PointLatLon d_PointLatLon _ _ _ ok_PointLatLon), (ok_M w_PointLatLon d_PointLatLon _ _ _ ok_PointLatLon), ok_F, ok_F.
  unfold is_int64, is_utf8. cbn [slot_ok]. tauto.
Qed.
Lemma utf_Segment x : msg_utf8 d_Segment (w_Segment x) <-> utf8_Segment x.
Proof.
  unfold utf8_Segment, w_Segment, d_Segment. cbn [msg_utf8].
  rewrite (utf_M w_PointLatLon d_PointLatLon _ _ utf_PointLatLon), (utf_M w_PointLatLon d_PointLatLon _ _ utf_PointLatLon).
  unfold is_utf8. cbn [slot_utf8]. tauto.
Qed.
Lemma rw_Segment x : r_Segment (w_Segment x) = x.
Proof.
  unfold r_Segment, w_Segment, fld. cbn [nth].
  rewrite (gM_w w_PointLatLon r_PointLatLon _ rw_PointLatLon), (gM_w w_PointLatLon r_PointLatLon _ rw_PointLatLon), gF_w, gF_w.
  destruct x; reflexivity.
Qed.
Lemma wf_Segment : desc_wf d_Segment.
Proof. repeat first [split | apply NoDup_cons | apply NoDup_nil | exact I | lia | cbn; lia | cbn; tauto]; cbn; try lia; intuition lia. Qed.

Lemma ok_Track x : msg_ok d_Track (w_Track x) <-> int64_Track x /\ utf8_Track x.
Proof.
  unfold int64_Track, utf8_Track, w_Track, d_Track. cbn [msg_ok].
  rewrite (ok_R w_Segment d_Segment _ _ _ ok_Segment), ok_F.
  unfold is_int64, is_utf8. cbn [slot_ok]. tauto.
Qed.
Lemma utf_Track x : msg_utf8 d_Track (w_Track x) <-> utf8_Track x.
Proof.
  unfold utf8_Track, w_Track, d_Track. cbn [msg_utf8].
  rewrite (utf_R w_Segment d_Segment _ _ utf_Segment).
  unfold is_utf8. cbn [slot_utf8]. tauto.
Qed.
Lemma rw_Track x : r_Track (w_Track x) = x.
Proof.
  unfold r_Track, w_Track, fld. cbn [nth].
  rewrite (gR_w w_Segment r_Segment _ rw_Segment), gF_w.
  destruct x; reflexivity.
Qed.
Lemma wf_Track : desc_wf d_Track.
Proof. repeat first [split | apply NoDup_cons | apply NoDup_nil | exact I | lia | cbn; lia | cbn; tauto]; cbn; try lia; intuition lia. Qed.

Lemma ok_Route x : msg_ok d_Route (w_Route x) <-> int64_Route x /\ utf8_Route x.
Proof.
  unfold int64_Route, utf8_Route, w_Route, d_Route. cbn [msg_ok].
  rewrite ok_F, (ok_R w_Track d_Track _ _ _ ok_Track).
  unfold is_int64, is_utf8. cbn [slot_ok]. tauto.
Qed.
Lemma utf_Route x : msg_utf8 d_Route (w_Route x) <-> utf8_Route x.
Proof.
  unfold utf8_Route, w_Route, d_Route. cbn [msg_utf8].
  rewrite (utf_R w_Track d_Track _ _ utf_Track).
  unfold is_utf8. cbn [slot_utf8]. tauto.
Qed.
Lemma rw_Route x : r_Route (w_Route x) = x.
Proof.
  unfold r_Route, w_Route, fld. cbn [nth].
  rewrite gF_w, (gR_w w_Track r_Track _ rw_Track).
  destruct x; reflexivity.
Qed.
Lemma wf_Route : desc_wf d_Route.
Proof. repeat first [split | apply NoDup_cons | apply NoDup_nil | exact I | lia | cbn; lia | cbn; tauto]; cbn; try lia; intuition lia. Qed.

Lemma ok_Routes x : msg_ok d_Routes (w_Routes x) <-> int64_Routes x /\ utf8_Routes x.
Proof.
  unfold int64_Routes, utf8_Routes, w_Routes, d_Routes. cbn [msg_ok].
  rewrite (ok_R w_Route d_Route _ _ _ ok_Route).
  unfold is_int64, is_utf8. cbn [slot_ok]. tauto.
Qed.
Lemma utf_Routes x : msg_utf8 d_Routes (w_Routes x) <-> utf8_Routes x.
Proof.
  unfold utf8_Routes, w_Routes, d_Routes. cbn [msg_utf8].
  rewrite (utf_R w_Route d_Route _ _ utf_Route).
  unfold is_utf8. cbn [slot_utf8]. tauto.
Qed.
Lemma rw_Routes x : r_Routes (w_Routes x) = x.
Proof.
  unfold r_Routes, w_Routes, fld. cbn [nth].
  rewrite (gR_w w_Route r_Route _ rw_Route).
  destruct x; reflexivity.
Qed.
Lemma wf_Routes : desc_wf d_Routes.
Proof. repeat first [split | apply NoDup_cons | apply NoDup_nil | exact I | lia | cbn; lia | cbn; tauto]; cbn; try lia; intuition lia. Qed.

Lemma ok_Navigator x : msg_ok d_Navigator (w_Navigator x) <-> int64_Navigator x /\ utf8_Navigator x.
Proof.
  unfold int64_Navigator, utf8_Navigator, w_Navigator, d_Navigator. cbn [msg_ok].
  rewrite (ok_R w_Route d_Route _ _ _ ok_Route), ok_F, ok_F, ok_F, ok_F, (ok_M w_PointLatLon d_PointLatLon _ _ _ ok_PointLatLon), (ok_M w_Sensor d_Sensor _ _ _ ok_Sensor), ok_F.
  unfold is_int64, is_utf8. cbn [slot_ok]. tauto.
Qed.
Lemma utf_Navigator x : msg_utf8 d_Navigator (w_Navigator x) <-> utf8_Navigator x.
Proof.
  unfold utf8_Navigator, w_Navigator, d_Navigator. cbn [msg_utf8].
  rewrite (utf_R w_Route d_Route _ _ utf_Route), (utf_M w_PointLatLon d_PointLatLon _ _ utf_PointLatLon), (utf_M w_Sensor d_Sensor _ _ utf_Sensor).
  unfold is_utf8. cbn [slot_utf8]. tauto.
Qed.
Lemma rw_Navigator x : r_Navigator (w_Navigator x) = x.
Proof.
  unfold r_Navigator, w_Navigator, fld. cbn [nth].
  rewrite (gR_w w_Route r_Route _ rw_Route), gF_w, gF_w, gF_w, gF_w, (gM_w w_PointLatLon r_PointLatLon _ rw_PointLatLon), (gM_w w_Sensor r_Sensor _ rw_Sensor), gF_w.
  destruct x; reflexivity.
Qed.
Lemma wf_Navigator : desc_wf d_Navigator.
Proof. repeat first [split | apply NoDup_cons | apply NoDup_nil | exact I | lia | cbn; lia | cbn; tauto]; cbn; try lia; intuition lia. Qed.

Lemma ok_Snapshot x : msg_ok d_Snapshot (w_Snapshot x) <-> int64_Snapshot x /\ utf8_Snapshot x.
Proof.
  unfold int64_Snapshot, utf8_Snapshot, w_Snapshot, d_Snapshot. cbn [msg_ok].
  rewrite ok_F, ok_F, (ok_M w_Navigator d_Navigator _ _ _ ok_Navigator), (ok_M w_Common d_Common _ _ _ ok_Common), (ok_M w_Battery d_Battery _ _ _ ok_Battery), (ok_R w_Sensor d_Sensor _ _ _ ok_Sensor).
  unfold is_int64, is_utf8. cbn [slot_ok]. tauto.
Qed.
Lemma utf_Snapshot x : msg_utf8 d_Snapshot (w_Snapshot x) <-> utf8_Snapshot x.
Proof.
  unfold utf8_Snapshot, w_Snapshot, d_Snapshot. cbn [msg_utf8].
  rewrite (utf_M w_Navigator d_Navigator _ _ utf_Navigator), (utf_M w_Common d_Common _ _ utf_Common), (utf_M w_Battery d_Battery _ _ utf_Battery), (utf_R w_Sensor d_Sensor _ _ utf_Sensor).
  unfold is_utf8. cbn [slot_utf8]. tauto.
Qed.
Lemma rw_Snapshot x : r_Snapshot (w_Snapshot x) = x.
Proof.
  unfold r_Snapshot, w_Snapshot, fld. cbn [nth].
  rewrite gF_w, gF_w, (gM_w w_Navigator r_Navigator _ rw_Navigator), (gM_w w_Common r_Common _ rw_Common), (gM_w w_Battery r_Battery _ rw_Battery), (gR_w w_Sensor r_Sensor _ rw_Sensor).
  destruct x; reflexivity.
Qed.
Lemma wf_Snapshot : desc_wf d_Snapshot.
Proof. repeat first [split | apply NoDup_cons | apply NoDup_nil | exact I | lia | cbn; lia | cbn; tauto]; cbn; try lia; intuition lia. Qed.

Lemma ok_DBattery x : msg_ok d_DBattery (w_DBattery x) <-> int64_DBattery x /\ utf8_DBattery x.
Proof.
  unfold int64_DBattery, utf8_DBattery, w_DBattery, d_DBattery. cbn [msg_ok].
  rewrite ok_F.
  unfold is_int64, is_utf8. cbn [slot_ok]. tauto.
Qed.
Lemma utf_DBattery x : msg_utf8 d_DBattery (w_DBattery x) <-> utf8_DBattery x.
Proof.
  unfold utf8_DBattery, w_DBattery, d_DBattery. cbn [msg_utf8].
  unfold is_utf8. cbn [slot_utf8]. tauto.
Qed.
Lemma rw_DBattery x : r_DBattery (w_DBattery x) = x.
Proof.
  unfold r_DBattery, w_DBattery, fld. cbn [nth].
  rewrite gF_w.
  destruct x; reflexivity.
Qed.
Lemma wf_DBattery : desc_wf d_DBattery.
Proof. repeat first [split | apply NoDup_cons | apply NoDup_nil | exact I | lia | cbn; lia | cbn; tauto]; cbn; try lia; intuition lia. Qed.

Lemma ok_DTrack x : msg_ok d_DTrack (w_DTrack x) <-> int64_DTrack x /\ utf8_DTrack x.
Proof.
  unfold int64_DTrack, utf8_DTrack, w_DTrack, d_DTrack. cbn [msg_ok].
  rewrite ok_F.
  unfold is_int64, is_utf8. cbn [slot_ok]. tauto.
Qed.
Lemma utf_DTrack x : msg_utf8 d_DTrack (w_DTrack x) <-> utf8_DTrack x.
Proof.
  unfold utf8_DTrack, w_DTrack, d_DTrack. cbn [msg_utf8].
  unfold is_utf8. cbn [slot_utf8]. tauto.
Qed.
Lemma rw_DTrack x : r_DTrack (w_DTrack x) = x.
Proof.
  unfold r_DTrack, w_DTrack, fld. cbn [nth].
  rewrite gF_w.
  destruct x; reflexivity.
Qed.
Lemma wf_DTrack : desc_wf d_DTrack.
Proof. repeat first [split | apply NoDup_cons | apply NoDup_nil | exact I | lia | cbn; lia | cbn; tauto]; cbn; try lia; intuition lia. Qed.

Lemma ok_DRoute x : msg_ok d_DRoute (w_DRoute x) <-> int64_DRoute x /\ utf8_DRoute x.
Proof.
  unfold int64_DRoute, utf8_DRoute, w_DRoute, d_DRoute. cbn [msg_ok].
  rewrite (ok_R w_DTrack d_DTrack _ _ _ ok_DTrack), ok_F.
  unfold is_int64, is_utf8. cbn [slot_ok]. tauto.
Qed.
Lemma utf_DRoute x : msg_utf8 d_DRoute (w_DRoute x) <-> utf8_DRoute x.
Proof.
  unfold utf8_DRoute, w_DRoute, d_DRoute. cbn [msg_utf8].
  rewrite (utf_R w_DTrack d_DTrack _ _ utf_DTrack).
  unfold is_utf8. cbn [slot_utf8]. tauto.
Qed.
Lemma rw_DRoute x : r_DRoute (w_DRoute x) = x.
Proof.
  unfold r_DRoute, w_DRoute, fld. cbn [nth].
  rewrite (gR_w w_DTrack r_DTrack _ rw_DTrack), gF_w.
  destruct x; reflexivity.
Qed.
Lemma wf_DRoute : desc_wf d_DRoute.
Proof. repeat first [split | apply NoDup_cons | apply NoDup_nil | exact I | lia | cbn; lia | cbn; tauto]; cbn; try lia; intuition lia. Qed.

Lemma ok_DRoutes x : msg_ok d_DRoutes (w_DRoutes x) <-> int64_DRoutes x /\ utf8_DRoutes x.
Proof.
  unfold int64_DRoutes, utf8_DRoutes, w_DRoutes, d_DRoutes. cbn [msg_ok].
  rewrite (ok_R w_DRoute d_DRoute _ _ _ ok_DRoute).
  unfold is_int64, is_utf8. cbn [slot_ok]. tauto.
Qed.
Lemma utf_DRoutes x : msg_utf8 d_DRoutes (w_DRoutes x) <-> utf8_DRoutes x.
Proof.
  unfold utf8_DRoutes, w_DRoutes, d_DRoutes. cbn [msg_utf8].
  rewrite (utf_R w_DRoute d_DRoute _ _ utf_DRoute).
  unfold is_utf8. cbn [slot_utf8]. tauto.
Qed.
Lemma rw_DRoutes x : r_DRoutes (w_DRoutes x) = x.
Proof.
  unfold r_DRoutes, w_DRoutes, fld. cbn [nth].
  rewrite (gR_w w_DRoute r_DRoute _ rw_DRoute).
  destruct x; reflexivity.
Qed.
Lemma wf_DRoutes : desc_wf d_DRoutes.
Proof. repeat first [split | apply NoDup_cons | apply NoDup_nil | exact I | lia | cbn; lia | cbn; tauto]; cbn; try lia; intuition lia. Qed.

Lemma ok_DSensor x : msg_ok d_DSensor (w_DSensor x) <-> int64_DSensor x /\ utf8_DSensor x.
Proof.
  unfold int64_DSensor, utf8_DSensor, w_DSensor, d_DSensor. cbn [msg_ok].
  rewrite ok_F, ok_F.
  unfold is_int64, is_utf8. cbn [slot_ok]. tauto.
Qed.
Lemma utf_DSensor x : msg_utf8 d_DSensor (w_DSensor x) <-> utf8_DSensor x.
Proof.
  unfold utf8_DSensor, w_DSensor, d_DSensor. cbn [msg_utf8].
  unfold is_utf8. cbn [slot_utf8]. tauto.
Qed.
Lemma rw_DSensor x : r_DSensor (w_DSensor x) = x.
Proof.
  unfold r_DSensor, w_DSensor, fld. cbn [nth].
  rewrite gF_w, gF_w.
  destruct x; reflexivity.
Qed.
Lemma wf_DSensor : desc_wf d_DSensor.
Proof. repeat first [split | apply NoDup_cons | apply NoDup_nil | exact I | lia | cbn; lia | cbn; tauto]; cbn; try lia; intuition lia. Qed.

Lemma ok_DNavigator x : msg_ok d_DNavigator (w_DNavigator x) <-> int64_DNavigator x /\ utf8_DNavigator x.
Proof.
  unfold int64_DNavigator, utf8_DNavigator, w_DNavigator, d_DNavigator. cbn [msg_ok].
  unfold is_int64, is_utf8. cbn [slot_ok]. tauto.
Qed.
Lemma utf_DNavigator x : msg_utf8 d_DNavigator (w_DNavigator x) <-> utf8_DNavigator x.
Proof.
  unfold utf8_DNavigator, w_DNavigator, d_DNavigator. cbn [msg_utf8].
  unfold is_utf8. cbn [slot_utf8]. tauto.
Qed.
Lemma rw_DNavigator x : r_DNavigator (w_DNavigator x) = x.
Proof.
  unfold r_DNavigator, w_DNavigator, fld. cbn [nth].
  destruct x; reflexivity.
Qed.
Lemma wf_DNavigator : desc_wf d_DNavigator.
Proof. repeat first [split | apply NoDup_cons | apply NoDup_nil | exact I | lia | cbn; lia | cbn; tauto]; cbn; try lia; intuition lia. Qed.

Lemma ok_DDistance x : msg_ok d_DDistance (w_DDistance x) <-> int64_DDistance x /\ utf8_DDistance x.
Proof.
  unfold int64_DDistance, utf8_DDistance, w_DDistance, d_DDistance. cbn [msg_ok].
  rewrite ok_F, ok_F, ok_F, ok_F, ok_F, ok_F, ok_F, ok_F.
  unfold is_int64, is_utf8. cbn [slot_ok]. tauto.
Qed.
Lemma utf_DDistance x : msg_utf8 d_DDistance (w_DDistance x) <-> utf8_DDistance x.
Proof.
  unfold utf8_DDistance, w_DDistance, d_DDistance. cbn [msg_utf8].
  unfold is_utf8. cbn [slot_utf8]. tauto.
Qed.
Lemma rw_DDistance x : r_DDistance (w_DDistance x) = x.
Proof.
  unfold r_DDistance, w_DDistance, fld. cbn [nth].
  rewrite gF_w, gF_w, gF_w, gF_w, gF_w, gF_w, gF_w, gF_w.
  destruct x; reflexivity.
Qed.
Lemma wf_DDistance : desc_wf d_DDistance.
Proof. repeat first [split | apply NoDup_cons | apply NoDup_nil | exact I | lia | cbn; lia | cbn; tauto]; cbn; try lia; intuition lia. Qed.

Lemma ok_DMS x : msg_ok d_DMS (w_DMS x) <-> int64_DMS x /\ utf8_DMS x.
Proof.
  unfold int64_DMS, utf8_DMS, w_DMS, d_DMS. cbn [msg_ok].
  rewrite ok_F.
  unfold is_int64, is_utf8. cbn [slot_ok]. tauto.
Qed.
Lemma utf_DMS x : msg_utf8 d_DMS (w_DMS x) <-> utf8_DMS x.
Proof.
  unfold utf8_DMS, w_DMS, d_DMS. cbn [msg_utf8].
  unfold is_utf8. cbn [slot_utf8]. tauto.
Qed.
Lemma rw_DMS x : r_DMS (w_DMS x) = x.
Proof.
  unfold r_DMS, w_DMS, fld. cbn [nth].
  rewrite gF_w.
  destruct x; reflexivity.
Qed.
Lemma wf_DMS : desc_wf d_DMS.
Proof. repeat first [split | apply NoDup_cons | apply NoDup_nil | exact I | lia | cbn; lia | cbn; tauto]; cbn; try lia; intuition lia. Qed.

Lemma ok_UTM x : msg_ok d_UTM (w_UTM x) <-> int64_UTM x /\ utf8_UTM x.
Proof.
  unfold int64_UTM, utf8_UTM, w_UTM, d_UTM. cbn [msg_ok].
  rewrite ok_F, ok_F, ok_F.
  unfold is_int64, is_utf8. cbn [slot_ok]. tauto.
Qed.
Lemma utf_UTM x : msg_utf8 d_UTM (w_UTM x) <-> utf8_UTM x.
Proof.
  unfold utf8_UTM, w_UTM, d_UTM. cbn [msg_utf8].
  unfold is_utf8. cbn [slot_utf8]. tauto.
Qed.
Lemma rw_UTM x : r_UTM (w_UTM x) = x.
Proof.
  unfold r_UTM, w_UTM, fld. cbn [nth].
  rewrite gF_w, gF_w, gF_w.
  destruct x; reflexivity.
Qed.
Lemma wf_UTM : desc_wf d_UTM.
Proof. repeat first [split | apply NoDup_cons | apply NoDup_nil | exact I | lia | cbn; lia | cbn; tauto]; cbn; try lia; intuition lia. Qed.

Lemma ok_DLocation x : msg_ok d_DLocation (w_DLocation x) <-> int64_DLocation x /\ utf8_DLocation x.
Proof.
  unfold int64_DLocation, utf8_DLocation, w_DLocation, d_DLocation. cbn [msg_ok].
  rewrite ok_F, ok_F, ok_F, ok_F, (ok_M w_DMS d_DMS _ _ _ ok_DMS), (ok_M w_DMS d_DMS _ _ _ ok_DMS), (ok_M w_UTM d_UTM _ _ _ ok_UTM).
  unfold is_int64, is_utf8. cbn [slot_ok]. tauto.
Qed.
Lemma utf_DLocation x : msg_utf8 d_DLocation (w_DLocation x) <-> utf8_DLocation x.
Proof.
  unfold utf8_DLocation, w_DLocation, d_DLocation. cbn [msg_utf8].
  rewrite (utf_M w_DMS d_DMS _ _ utf_DMS), (utf_M w_DMS d_DMS _ _ utf_DMS), (utf_M w_UTM d_UTM _ _ utf_UTM).
  unfold is_utf8. cbn [slot_utf8]. tauto.
Qed.
Lemma rw_DLocation x : r_DLocation (w_DLocation x) = x.
Proof.
  unfold r_DLocation, w_DLocation, fld. cbn [nth].
  rewrite gF_w, gF_w, gF_w, gF_w, (gM_w w_DMS r_DMS _ rw_DMS), (gM_w w_DMS r_DMS _ rw_DMS), (gM_w w_UTM r_UTM _ rw_UTM).
  destruct x; reflexivity.
Qed.
Lemma wf_DLocation : desc_wf d_DLocation.
Proof. repeat first [split | apply NoDup_cons | apply NoDup_nil | exact I | lia | cbn; lia | cbn; tauto]; cbn; try lia; intuition lia. Qed.

Lemma ok_DUnit x : msg_ok d_DUnit (w_DUnit x) <-> int64_DUnit x /\ utf8_DUnit x.
Proof.
  unfold int64_DUnit, utf8_DUnit, w_DUnit, d_DUnit. cbn [msg_ok].
  unfold is_int64, is_utf8. cbn [slot_ok]. tauto.
Qed.
Lemma utf_DUnit x : msg_utf8 d_DUnit (w_DUnit x) <-> utf8_DUnit x.
Proof.
  unfold utf8_DUnit, w_DUnit, d_DUnit. cbn [msg_utf8].
  unfold is_utf8. cbn [slot_utf8]. tauto.
Qed.
Lemma rw_DUnit x : r_DUnit (w_DUnit x) = x.
Proof.
  unfold r_DUnit, w_DUnit, fld. cbn [nth].
  destruct x; reflexivity.
Qed.
Lemma wf_DUnit : desc_wf d_DUnit.
Proof. repeat first [split | apply NoDup_cons | apply NoDup_nil | exact I | lia | cbn; lia | cbn; tauto]; cbn; try lia; intuition lia. Qed.

Lemma ok_Device x : msg_ok d_Device (w_Device x) <-> int64_Device x /\ utf8_Device x.
Proof.
  unfold int64_Device, utf8_Device, w_Device, d_Device. cbn [msg_ok].
  rewrite ok_F, ok_F, ok_F, (ok_M w_DDistance d_DDistance _ _ _ ok_DDistance), (ok_M w_DBattery d_DBattery _ _ _ ok_DBattery), (ok_M w_DRoutes d_DRoutes _ _ _ ok_DRoutes), (ok_M w_DLocation d_DLocation _ _ _ ok_DLocation), (ok_M w_DNavigator d_DNavigator _ _ _ ok_DNavigator), (ok_R w_DSensor d_DSensor _ _ _ ok_DSensor), ok_F, (ok_M w_DUnit d_DUnit _ _ _ ok_DUnit).
  unfold is_int64, is_utf8. cbn [slot_ok]. tauto.
Qed.
Lemma utf_Device x : msg_utf8 d_Device (w_Device x) <-> utf8_Device x.
Proof.
  unfold utf8_Device, w_Device, d_Device. cbn [msg_utf8].
  rewrite (utf_M w_DDistance d_DDistance _ _ utf_DDistance), (utf_M w_DBattery d_DBattery _ _ utf_DBattery), (utf_M w_DRoutes d_DRoutes _ _ utf_DRoutes), (utf_M w_DLocation d_DLocation _ _ utf_DLocation), (utf_M w_DNavigator d_DNavigator _ _ utf_DNavigator), (utf_R w_DSensor d_DSensor _ _ utf_DSensor), (utf_M w_DUnit d_DUnit _ _ utf_DUnit).
  unfold is_utf8. cbn [slot_utf8]. tauto.
Qed.
Lemma rw_Device x : r_Device (w_Device x) = x.
Proof.
  unfold r_Device, w_Device, fld. cbn [nth].
  rewrite gF_w, gF_w, gF_w, (gM_w w_DDistance r_DDistance _ rw_DDistance), (gM_w w_DBattery r_DBattery _ rw_DBattery), (gM_w w_DRoutes r_DRoutes _ rw_DRoutes), (gM_w w_DLocation r_DLocation _ rw_DLocation), (gM_w w_DNavigator r_DNavigator _ rw_DNavigator), (gR_w w_DSensor r_DSensor _ rw_DSensor), gF_w, (gM_w w_DUnit r_DUnit _ rw_DUnit).
  destruct x; reflexivity.
Qed.
Lemma wf_Device : desc_wf d_Device.
Proof. repeat first [split | apply NoDup_cons | apply NoDup_nil | exact I | lia | cbn; lia | cbn; tauto]; cbn; try lia; intuition lia. Qed.

Lemma ok_Packet x : msg_ok d_Packet (w_Packet x) <-> int64_Packet x /\ utf8_Packet x.
Proof.
  unfold int64_Packet, utf8_Packet, w_Packet, d_Packet. cbn [msg_ok].
  rewrite (ok_R w_Device d_Device _ _ _ ok_Device).
  unfold is_int64, is_utf8. cbn [slot_ok]. tauto.
Qed.
Lemma utf_Packet x : msg_utf8 d_Packet (w_Packet x) <-> utf8_Packet x.
Proof.
  unfold utf8_Packet, w_Packet, d_Packet. cbn [msg_utf8].
  rewrite (utf_R w_Device d_Device _ _ utf_Device).
  unfold is_utf8. cbn [slot_utf8]. tauto.
Qed.
Lemma rw_Packet x : r_Packet (w_Packet x) = x.
Proof.
  unfold r_Packet, w_Packet, fld. cbn [nth].
  rewrite (gR_w w_Device r_Device _ rw_Device).
  destruct x; reflexivity.
Qed.
Lemma wf_Packet : desc_wf d_Packet.
Proof. repeat first [split | apply NoDup_cons | apply NoDup_nil | exact I | lia | cbn; lia | cbn; tauto]; cbn; try lia; intuition lia. Qed.

End Records.
