(** C56, C57: degrees, minutes and seconds; property maps. *)
From Coq Require Import Reals Lra Permutation.
From Flocq Require Import Core BinarySingleNaN.
From Verif.Model Require Import Base Num NumR NumF64 Geo Curve PropMap Types Pb TypesSnap Track Route Navigator Device.
From Verif.Spec Require Import DmsSpec PropsSpec Examples.
From Verif.Proofs Require Import DmsProofs PropsProofs.

(** C56. What the navigator publishes is the coordinate it publishes, exactly over the reals. *)
Theorem C56_exact : forall (U : UtmLib R) (n : navigator R) (st st' : pbDevice R),
  nav_Update n st = Ret st' -> published_dms dms_exact st'.
Proof. exact @C56_real_proof. Qed.
Print Assumptions C56_exact.

(** At binary64, for finite coordinates up to 2^30 degrees: up to rounding. *)
Theorem C56_binary64 : forall (m : MathLib) (N := F64Num m) (U : UtmLib f64) (n : navigator f64) (st st' : pbDevice f64),
  (forall x, In x [lat (n_point n); lon (n_point n)] -> is_finite x = true /\ (Rabs (B2R x) <= bpow radix2 30)%R) ->
  nav_Update n st = Ret st' -> published_dms dms_close st'.
Proof.
  intros m N U n st st' H. apply C56_f64_proof; (apply H; cbn; auto).
Qed.
Print Assumptions C56_binary64.

(** The rounding is visible: the seconds of 0.38333... degrees are negative. *)
Theorem C56_seconds_refuted : forall (m : MathLib) (N := F64Num m),
  let d := dms_of (f64_norm 6905519428634760 (-54)) "N" "S" in
  dms_degrees d = 0%Z /\ dms_minutes d = 23%Z /\ Bltb (dms_seconds d) (f64_ofZ 0) = true.
Proof. intros m. vm_compute. auto. Qed.
Print Assumptions C56_seconds_refuted.

Example C56_example : dms_degrees (dms_of (f64_norm (-97) (-1)) "N" "S") = 48%Z /\
  dms_minutes (dms_of (f64_norm (-97) (-1)) "N" "S") = 30%Z /\
  Beqb (dms_seconds (dms_of (f64_norm (-97) (-1)) "N" "S")) (f64_ofZ 0) = true /\
  dms_direction (dms_of (f64_norm (-97) (-1)) "N" "S") = "S"%string.
Proof. vm_compute. auto. Qed.
Example C56_applies : exists (U : UtmLib f64), match nav_Update ex_nav (mkPbDevice "" "" (f64_ofZ 0) (f64_ofZ 0) "" (f64_ofZ 0) None None None None None [] "" false 0 "" (f64_ofZ 0) None) with Ret _ => True | _ => False end.
Proof. exists {| utm_of := fun _ _ => mkPbUTM (f64_ofZ 0) (f64_ofZ 0) (f64_ofZ 0) 0 "" "" 0 |}. vm_compute. exact I. Qed.

(** C57. Any history of calls does to the map what it does to a function from keys to values. *)
Theorem C57_map : forall (T : Type) (ops : list (prop_op (T := T))) (p : props T) (k : string),
  props_lookup (run_props p ops) k = mean_props (props_lookup p) ops k.
Proof. exact @run_means. Qed.
Print Assumptions C57_map.

(** Merge: the same whatever the order of Go's iteration over the other map. *)
Theorem C57_merge_order : forall (T : Type) (p q : props T) (order : list (string * gval T)) (k : string),
  Permutation order (props_entries q) ->
  props_lookup (props_MergeIn p order) k = match props_lookup q k with Some v => Some v | None => props_lookup p k end.
Proof. exact @lookup_merge_perm. Qed.
Print Assumptions C57_merge_order.

(** The typed getters succeed exactly on a present value of that type, and return it. *)
Theorem C57_getters : forall (T : Type) (N : Num T) (p : props T) (k : string),
  gets (as_string (props_lookup p k)) ""%string (props_String p k) /\
  gets (as_bool (props_lookup p k)) false (props_Bool p k) /\
  gets (as_int (props_lookup p k)) 0%Z (props_Int p k) /\
  gets (as_float (props_lookup p k)) f0 (props_Float64 p k).
Proof. exact @C57_getters_proof. Qed.
Print Assumptions C57_getters.

(** Maps are determined by their entries; the length is the number of keys. *)
Theorem C57_extensional : forall (T : Type) (p q : props T), (forall k, props_lookup p k = props_lookup q k) -> p = q.
Proof. exact @C57_ext_proof. Qed.
Print Assumptions C57_extensional.
Theorem C57_length : forall (T : Type) (p : props T),
  exists keys, NoDup keys /\ (forall k, In k keys <-> props_lookup p k <> None) /\ props_len p = zlen keys.
Proof. exact @C57_len_proof. Qed.
Print Assumptions C57_length.

Example C57_example : let p := run_props (T := f64) props_Make [PSet "a" (GInt 1); PSet "b" (GStr "x"); PSet "a" (GBool true);
    PMerge (props_Set (props_Set props_Make "b" (GInt 2)) "c" GNil); PRemove "zz"] in
  props_Bool p "a" = (true, true) /\ props_Int p "a" = (0, false)%Z /\ props_Int p "b" = (2, true)%Z /\ props_len p = 3%Z.
Proof. vm_compute. auto. Qed.
