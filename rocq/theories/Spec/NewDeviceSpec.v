(** What NewDevice does with its options. *)
From Verif.Model Require Import Base Num NumF64 Geo Curve PropMap Types Pb TypesSnap Track Route Navigator Device.
From Verif.Spec Require Import DeviceSpec.
Open Scope num_scope.

Section NewDeviceSpec.
Context (m : MathLib).
#[local] Instance newdev_num : Num f64 := F64Num m.

(** The limits of the options; a NaN is below and above nothing. [nd_parsedColor x]: the color, if it is one. *)
Record acceptable (o : deviceOptions f64) (x : newDraws f64) : Prop := {
  a_offline : (0 <= do_offMin o /\ do_offMax o <= 3600)%Z;
  a_elevation : (do_elevMin o <? fofZ 0) = false /\ (do_elevMax o >? fofZ 50000) = false;
  a_elevation_amplitude : (4 <= do_elevAmp o <= 512)%Z;
  a_speed : (do_speedMin o <? fofZ 0) = false /\ (do_speedMax o >? fofZ 1000) = false;
  a_speed_order : (do_speedMax o <=? fofZ 0) = true \/ (do_speedMin o >? do_speedMax o) = false;
  a_speed_amplitude : (4 <= do_speedAmp o <= 512)%Z;
  a_battery : (do_batMin o <? fofZ 0) = false /\ (do_batMax o >? fofZ 100) = false;
  a_model : do_model o = ""%string \/ (3 <= slen (do_model o) <= 64)%Z;
  a_color : do_color o = ""%string \/ nd_parsedColor x <> None }.

Definition given_or (s other : string) : string := if String.eqb s "" then other else s.

(** The snapshot [s] shows a device as the options ask. Limits that need no adjustment are taken over. *)
Record as_asked (o : deviceOptions f64) (x : newDraws f64) (s : pbSnapshot f64) : Prop := {
  k_id : psn_id s = given_or (do_id o) (nd_id x);
  k_user : psn_user_id s = do_userID o;
  k_description : psn_descr s = do_descr o;
  k_model : psn_model s = given_or (do_model o) ("Device-" ++ nd_model x)%string;
  k_color : if String.eqb (do_color o) "" then psn_color s = nd_color x else nd_parsedColor x = Some (psn_color s);
  k_new : psn_status s = Stopped /\ psn_tick s = fofZ 0 /\ psn_duration s = fofZ 0 /\ psn_sensors s = [];
  k_speed : exists v, psn_speed s = Some v /\ pco_val v = fofZ 0 /\
    ((do_speedMax o <=? fofZ 0) = false -> pco_min v = do_speedMin o /\ pco_max v = do_speedMax o) /\
    ((do_speedMax o <=? fofZ 0) = true -> pco_min v = pco_max v /\
       pco_min v = if do_speedMin o =? fofZ 0 then fofZ 1 else do_speedMin o);
  k_battery : exists b, psn_battery s = Some b /\ pba_val b = fofZ 0 /\ pba_max b = do_batMax o /\
    pba_min b = (if do_batMin o >? do_batMax o then do_batMax o else do_batMin o) /\
    pba_charge_time b = (if (do_batCharge o <? 0)%Z then defaultChargeTime else do_batCharge o);
  k_navigator : exists n, psn_navigator s = Some n /\ pna_routes n = [] /\ pna_offline_index n = 0%Z /\
    pna_skip_offline n = do_skipOffline o /\
    (do_skipOffline o = false -> (do_offMin o <= do_offMax o)%Z -> (0 < do_offMax o)%Z ->
       pna_offline_min n = do_offMin o /\ pna_offline_max n = do_offMax o);
  k_elevation : exists n e, psn_navigator s = Some n /\ pna_elevation n = Some e /\
    ((do_elevMin o <=? do_elevMax o) = true -> (fofZ 0 <? do_elevMax o) = true ->
       pse_min e = do_elevMin o /\ pse_max e = do_elevMax o) }.

(** the options of NewTracker, NewKidsTracker, NewAnimalTracker, NewBicycleTracker, NewDroneTracker and NewDevice(nil) *)
Definition presets : list (deviceOptions f64) :=
  [DefaultTrackerOptions; KidsTrackerOptions; DogTrackerOptions; BicycleTrackerOptions; DroneTrackerOptions; NewDeviceOptions].

(** the options with another ID *)
Definition with_id (o : deviceOptions f64) (id : string) : deviceOptions f64 :=
  mkDevOpts id (do_model o) (do_color o) (do_userID o) (do_descr o) (do_skipOffline o) (do_offMin o) (do_offMax o)
    (do_elevMin o) (do_elevMax o) (do_elevAmp o) (do_elevMode o) (do_batMin o) (do_batMax o) (do_batCharge o)
    (do_speedMin o) (do_speedMax o) (do_speedAmp o).
End NewDeviceSpec.
