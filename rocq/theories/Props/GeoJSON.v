(** GeoJSON: C40 (round trip), C66 (hostile documents), C68 (documents from elsewhere). *)
From Coq Require Import Lia.
From Verif.Model Require Import Base Num NumF64 Utf8 Geo PropMap Pb WireMsgs WireF64 Track Route GeoJSON.
From Verif.Spec Require Import ListSpec TrackSpec SnapSpec WireSpec GeoJSONSpec.
From Verif.Proofs Require Import GeoJSONProofs JsonExample GeoExample WireF64Proofs.
Open Scope num_scope.

Section Any.
Context {T : Type} {N : Num T} {G : GeoLib T}.

(** C40. The claim is [Forall2 same_route]. Proved: IDs, colours, names and properties of routes, the points,
    shape and length of every track. Missing: names of tracks, and IDs, colours and properties of tracks after
    the first one of their route (see the refutations); routes without tracks are left out of documents. *)
Theorem C40_roundtrip_partial : forall (x : geoDraws) (rs : list (route T)), geo_law T -> rs <> [] ->
  Forall (fun r => clean_route r /\ no_own_keys r) rs ->
  exists b rs', geo_Encode rs = GOk b /\ geo_Decode b x = Ret (GOk rs') /\
    Forall2 (fun r r' => same_route_head r r' /\ first_track_data r r') (List.filter has_track rs) rs'.
Proof. exact C40_proof. Qed.

(** everything, for routes of one track without a name *)
Theorem C40_single : forall (x : geoDraws) (rs : list (route T)), geo_law T -> rs <> [] ->
  Forall (fun r => clean_route r /\ no_own_keys r) rs ->
  Forall (fun r => forall t, In t (rt_tracks r) -> rt_tracks r = [t] /\ tk_name t = ""%string) rs ->
  exists b rs', geo_Encode rs = GOk b /\ geo_Decode b x = Ret (GOk rs') /\ Forall2 same_route (List.filter has_track rs) rs'.
Proof. exact C40_single_proof. Qed.

(** a track with a name, or with another ID or colour than the first one, never comes back *)
Theorem C40_tracks_refuted : forall (x : geoDraws) (rs : list (route T)) b rs', geo_law T ->
  Forall (fun r => clean_route r /\ no_own_keys r) rs -> geo_Encode rs = GOk b -> geo_Decode b x = Ret (GOk rs') ->
  forall r t0 rest t, In r rs -> rt_tracks r = t0 :: rest -> In t (t0 :: rest) ->
    (tk_name t <> ""%string \/ tk_id t <> tk_id t0 \/ tk_color t <> tk_color t0) ->
    ~ Forall2 same_route (List.filter has_track rs) rs'.
Proof. exact C40_data_proof. Qed.

(** a property called color replaces the colour of the route *)
Theorem C40_color_refuted : forall (x : geoDraws) (r : route T) c b rs', geo_law T -> clean_route r ->
  props_lookup (entries_of (rt_props r)) "color" = Some (GStr c) ->
  geo_Encode [r] = GOk b -> geo_Decode b x = Ret (GOk rs') -> forall r', In r' rs' -> rt_color r' = c.
Proof. exact C40_color_proof. Qed.

(** what has no JSON text is an error, not a broken document *)
Theorem C40_errors : forall (rs : list (route T)) r, geo_law T -> In r rs -> has_track r = true ->
  (exists t p, In t (rt_tracks r) /\ In p (copyPoints t) /\ ~ finite_pos p) \/ json_unable (entries_of (rt_props r)) ->
  geo_Encode rs = GErr ErrJSON.
Proof. exact C40_errors_proof. Qed.

(** C66. Proved for documents whose features have geometries and, if they claim to come from Encode, a non-empty
    ID for their first track and no lines of fewer than two points. *)
Theorem C66_partial : forall (x : geoDraws) data,
  match geo_unmarshal data with Some None => False | Some (Some fs) => Forall sound_feature fs | None => True end ->
  exists y, geo_Decode (T := T) data x = Ret y.
Proof. exact C66_partial_proof. Qed.
Theorem C66_null_refuted : forall (x : geoDraws) data, geo_unmarshal data = Some None -> geo_Decode (T := T) data x = Panic.
Proof. exact C66_null_proof. Qed.
Theorem C66_feature_refuted : forall (x : geoDraws) data fs, geo_unmarshal data = Some (Some (None :: fs)) ->
  geo_Decode (T := T) data x = Panic.
Proof. exact C66_feature_proof. Qed.
Theorem C66_geometry_refuted : forall (x : geoDraws) data (f : feature T) fs, geo_unmarshal data = Some (Some (Some f :: fs)) ->
  foreign f -> fe_geom f = None -> geo_Decode data x = Panic.
Proof. exact C66_geometry_proof. Qed.
Theorem C66_restored_refuted : forall (x : geoDraws) data (f : feature T) fs l p v, geo_unmarshal data = Some (Some (Some f :: fs)) ->
  fe_type f = "Feature"%string -> fe_geom f = Some (OLineString l) -> fe_props f = Some p ->
  props_lookup p "routeID" <> None -> props_lookup p "color" <> None -> props_lookup p "tracksInfo" = Some (GArr [v]) ->
  (first_id f = None \/ first_id f = Some ""%string \/ (zlen l < 2)%Z) -> geo_Decode data x = Panic.
Proof. exact C66_restored_proof. Qed.

(** C68. One route per feature, one track per line, through the points of that line; the properties are those of
    the feature. A line of fewer than two points anywhere fails the document. *)
Theorem C68_geojson : forall (x : geoDraws) data (fs : list (feature T)) lines, geo_unmarshal data = Some (Some (map Some fs)) ->
  Forall2 (fun f ls => foreign f /\ exists g, fe_geom f = Some g /\ doc_lines g ls) fs lines ->
  (Forall (Forall (fun l => (2 <= zlen l)%Z)) lines -> exists rs, geo_Decode data x = Ret (GOk rs) /\
     Forall2 (fun fl r => imported (fst fl) (snd fl) r) (combine fs lines) rs) /\
  (~ Forall (Forall (fun l => (2 <= zlen l)%Z)) lines -> geo_Decode data x = Ret (GErr ErrInvalidRoutePath)).
Proof. exact C68_geojson_proof. Qed.
End Any.
Print Assumptions C40_roundtrip_partial.
Print Assumptions C40_single.
Print Assumptions C40_tracks_refuted.
Print Assumptions C40_color_refuted.
Print Assumptions C40_errors.
Print Assumptions C66_partial.
Print Assumptions C66_null_refuted.
Print Assumptions C66_feature_refuted.
Print Assumptions C66_geometry_refuted.
Print Assumptions C66_restored_refuted.
Print Assumptions C68_geojson.

(** ** Cases that meet the hypotheses *)
#[local] Instance xg : GeoLib f64 := @ExampleGeo f64 (F64Num idMath) F64Bits F64_bits_law.
#[local] Instance xn : Num f64 := F64Num idMath.
Example C40_law : geo_law f64.
Proof. exact (ExampleGeo_law F64_bits_law). Qed.

Definition gx_points : list (point f64) := [mkPoint (f64_ofZ 1) (f64_ofZ 2); mkPoint (f64_ofZ 3) (f64_ofZ 4); mkPoint (f64_ofZ 5) (f64_ofZ 7)].
Lemma gx_clean id color t : NewTrack gx_points id color = GOk t -> id <> ""%string -> utf8_valid id = true -> utf8_valid color = true ->
  finite_num (tk_dist t) -> clean_track t.
Proof.
  intros E H1 H2 H3 H4. eapply clean_new; [exact E| | |exact H4|exact H1|exact H2|exact H3]; [vm_compute; discriminate|].
  repeat constructor; vm_compute; reflexivity.
Qed.

(** a route of one track; a route of two tracks with IDs of their own *)
Example C40_example : exists (r1 r2 : route f64) t0 t1 t2, Forall (fun r => clean_route r /\ no_own_keys r) [r1; r2] /\
  rt_tracks r1 = [t0] /\ tk_name t0 = ""%string /\ rt_tracks r2 = [t1; t2] /\ tk_id t2 <> tk_id t1.
Proof.
  assert (H : match NewTrack gx_points "t0" "#111", NewTrack gx_points "t1" "#111", NewTrack gx_points "t2" "#222" with
    | GOk t0, GOk t1, GOk t2 => let r1 := AddTrack (NewRoute "r1" "#000") (Some t0) in let r := AddTrack (NewRoute "r2" "#000") (Some t1) in let r2 := AddTrack r (Some t2) in
        forallb (fun x => (x - x) =? (x - x)) [tk_dist t0; tk_dist t1; tk_dist t2; rt_dist r1; rt_dist r; rt_dist r2]
    | _, _, _ => false end = true) by (vm_compute; reflexivity).
  destruct (NewTrack gx_points "t0" "#111") as [t0|] eqn:E0; [|discriminate].
  destruct (NewTrack gx_points "t1" "#111") as [t1|] eqn:E1; [|discriminate].
  destruct (NewTrack gx_points "t2" "#222") as [t2|] eqn:E2; [|discriminate].
  rewrite forallb_forall in H. assert (Hd : forall x, In x [tk_dist t0; tk_dist t1; tk_dist t2; rt_dist (AddTrack (NewRoute "r1" "#000") (Some t0));
     rt_dist (AddTrack (NewRoute "r2" "#000") (Some t1)); rt_dist (AddTrack (AddTrack (NewRoute "r2" "#000") (Some t1)) (Some t2))] -> finite_num x) by exact H.
  destruct (clean_track_in t0 _ _ _ E0) as (N0 & _). destruct (clean_track_in t1 _ _ _ E1) as (_ & N1). destruct (clean_track_in t2 _ _ _ E2) as (_ & N2).
  exists (AddTrack (NewRoute "r1" "#000") (Some t0)), (AddTrack (AddTrack (NewRoute "r2" "#000") (Some t1)) (Some t2)), t0, t1, t2.
  assert (Z : finite_num (f0 : f64)) by (vm_compute; reflexivity).
  split; [|split; [reflexivity|split; [exact N0|split; [reflexivity|rewrite N1, N2; discriminate]]]].
  constructor; [|constructor; [|constructor]].
  - apply clean_add; [apply clean_empty; auto| |apply Hd; cbn; tauto]. eapply gx_clean; [exact E0|discriminate|reflexivity|reflexivity|apply Hd; cbn; tauto].
  - apply clean_add; [apply clean_add; [apply clean_empty; auto| |apply Hd; cbn; tauto]| |apply Hd; cbn; tauto].
    + eapply gx_clean; [exact E1|discriminate|reflexivity|reflexivity|apply Hd; cbn; tauto].
    + eapply gx_clean; [exact E2|discriminate|reflexivity|reflexivity|apply Hd; cbn; tauto].
Qed.

(** documents: the text of a restored route without an ID for its track, a foreign feature with a polygon and two
    lines, and a text for which there is no document *)
Definition gx_line : list (f64 * f64) := [(f64_ofZ 1, f64_ofZ 2); (f64_ofZ 3, f64_ofZ 4)].
Example C66_example : geo_unmarshal "null" = Some None /\
  (exists p, props_lookup p "routeID" <> None /\ props_lookup p "color" <> None /\ props_lookup p "tracksInfo" = Some (GArr [GObj []]) /\
     first_id (mkFeature "Feature" (Some (OLineString gx_line)) (Some p)) = None) /\
  sound_feature (Some (mkFeature "Feature" (Some (OLineString gx_line)) None)).
Proof.
  split; [reflexivity|]. split.
  - exists (props_Set (props_Set (props_Set props_Make "routeID" (GStr "r")) "color" (GStr "c")) "tracksInfo" (GArr [GObj []])).
    split; [discriminate|]. split; [discriminate|]. split; reflexivity.
  - eexists. split; [reflexivity|]. right. eexists. split; [reflexivity|]. split; [intros m [<-|[]]; discriminate|]. left. split; [reflexivity|left; reflexivity].
Qed.
Example C68_example : exists g : geometry f64, doc_lines g [gx_line; gx_line; gx_line] /\
  foreign (mkFeature "Feature" (Some g) None) /\ Forall (fun l => (2 <= zlen l)%Z) [gx_line; gx_line; gx_line].
Proof.
  exists (OCollection [Some (OPolygon [gx_line; []]); Some (OMultiLineString [gx_line; gx_line])]). split.
  - apply dl_coll. change [gx_line; gx_line; gx_line] with ([gx_line] ++ [gx_line; gx_line] ++ []). constructor; [constructor|]. constructor; constructor.
  - split; [split; [reflexivity|left; reflexivity]|]. repeat constructor; vm_compute; discriminate.
Qed.
