(** Encoding lists of routes and sensors; which messages can be decoded. *)
From Verif.Model Require Import Base Num Utf8 Geo Curve PropMap Types Pb TypesSnap Track Route Navigator Device Wire WireMsgs IO.
From Verif.Spec Require Import ListSpec WireMsgSpec.

Section DecodeSpec.
Context {T : Type}.

(** ** What can be encoded: strings are UTF-8, integers are Go integers *)

Definition utf8_track (t : track T) : Prop := is_utf8 (tk_id t) /\ is_utf8 (tk_color t) /\ is_utf8 (tk_name t).
Definition utf8_route (r : route T) : Prop :=
  is_utf8 (rt_id r) /\ is_utf8 (rt_color r) /\ is_utf8 (rt_name r) /\ Forall utf8_track (rt_tracks r).
Definition utf8_sensor (s : sensor T) : Prop := is_utf8 (s_id s) /\ is_utf8 (s_name s).

Definition int64_segment (s : segment T) : Prop := is_int64 (sg_index s) /\ is_int64 (sg_rel s).
Definition int64_track (t : track T) : Prop := is_int64 (tk_version t) /\ Forall int64_segment (tk_segments t).
Definition int64_route (r : route T) : Prop := is_int64 (rt_version r) /\ Forall int64_track (rt_tracks r).
Definition int64_sensor (s : sensor T) : Prop := is_int64 (cv_mode (s_gen s)).

(** ** What can be decoded: the parts the decoder looks into are there *)

Definition set_and {A} (P : A -> Prop) (o : option A) : Prop := match o with Some x => P x | None => False end.
Definition is_set {A} (o : option A) : Prop := o <> None.

Definition complete_curve (c : pbCurve T) : Prop :=
  Forall (fun p => is_set (pct_vp p) /\ is_set (pct_cp p)) (pcv_points c).
Definition complete_sensor (s : pbSensor T) : Prop := set_and complete_curve (pse_gen s).
Definition complete_speed (s : pbCommon T) : Prop := set_and complete_curve (pco_gen s).
Definition complete_segment (s : pbSegment T) : Prop := is_set (psg_point_a s) /\ is_set (psg_point_b s).
Definition complete_track (t : pbTrack T) : Prop := Forall complete_segment (ptr_segments t).
Definition complete_route (r : pbRoute T) : Prop := Forall complete_track (pro_tracks r).
(** the current route exists, if there are routes *)
Definition complete_nav (n : pbNavigator T) : Prop :=
  Forall complete_route (pna_routes n) /\ is_set (pna_point n) /\ set_and complete_sensor (pna_elevation n) /\
  (pna_routes n = [] \/ (0 <= pna_route_index n < zlen (pna_routes n))%Z).
Definition complete_snapshot (s : pbSnapshot T) : Prop :=
  set_and complete_nav (psn_navigator s) /\ set_and complete_speed (psn_speed s) /\ is_set (psn_battery s) /\
  Forall complete_sensor (psn_sensors s).

End DecodeSpec.
