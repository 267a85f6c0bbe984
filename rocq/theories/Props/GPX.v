(** GPX: C41 (round trip), C67 (hostile documents), C68 (documents from elsewhere). *)
From Coq Require Import Lia.
From Verif.Model Require Import Base Num NumF64 Utf8 Geo PropMap Pb WireMsgs WireF64 Track Route GPX.
From Verif.Spec Require Import ListSpec TrackSpec SnapSpec WireSpec GeoJSONSpec GPXSpec.
From Verif.Proofs Require Import GPXProofs JsonExample GpxExample WireF64Proofs.
Open Scope num_scope.

Section Any.
Context {T : Type} {N : Num T} {X : GpxLib T}.

(** C41. The claim is that every route comes back with its ID, name, colour, properties and tracks. Proved: for
    routes whose ID is a word, IDs, points, shape and length of every track, names and colours that are words,
    properties up to texts that look like numbers or truth values and floats that are integers. Missing: properties
    of tracks and the rest of names, colours and texts (see the refutations); routes without tracks are left out;
    coordinates are rounded by gpxgo. *)
Theorem C41_roundtrip_partial : forall (C : carrier T) ord (x : gpxDraws) (rs : list (route T)), gpx_law T C -> iterates ord -> rs <> [] ->
  Forall (fun r => gpx_route C r /\ gpx_no_own_keys r /\ word (rt_id r)) rs ->
  exists b rs', gpx_Encode ord rs = GOk b /\ gpx_Decode b x = Ret (GOk rs') /\ Forall2 (gpx_same_route C) (List.filter has_track rs) rs'.
Proof. intros C ord x rs L H. exact (C41_proof C L ord H x rs). Qed.

(** everything, for routes whose texts are words and whose tracks have no properties *)
Theorem C41_exact : forall (C : carrier T) ord (x : gpxDraws) (rs : list (route T)), gpx_law T C -> iterates ord -> rs <> [] ->
  Forall (fun r => gpx_route C r /\ gpx_no_own_keys r /\ gpx_plain C r) rs ->
  exists b rs', gpx_Encode ord rs = GOk b /\ gpx_Decode b x = Ret (GOk rs') /\ Forall2 gpx_all_route (List.filter has_track rs) rs'.
Proof. intros C ord x rs L H. exact (C41_exact_proof C L ord H x rs). Qed.

(** a route whose ID looks like a number or a truth value makes the whole document unreadable *)
Theorem C41_id_refuted : forall (C : carrier T) ord (x : gpxDraws) (rs : list (route T)) r, gpx_law T C -> iterates ord ->
  Forall (fun r => gpx_route C r /\ gpx_no_own_keys r) rs -> In r rs -> has_track r = true -> ~ word (rt_id r) ->
  exists b, gpx_Encode ord rs = GOk b /\ gpx_Decode b x = Ret (GErr ErrInvalidRoute).
Proof. intros C ord x rs r L H. exact (C41_id_proof C L ord H x rs r). Qed.

(** properties of tracks never come back *)
Theorem C41_track_props_refuted : forall (C : carrier T) ord (x : gpxDraws) (rs : list (route T)) b rs', gpx_law T C -> iterates ord ->
  Forall (fun r => gpx_route C r /\ gpx_no_own_keys r) rs -> gpx_Encode ord rs = GOk b -> gpx_Decode b x = Ret (GOk rs') ->
  forall r t k, In r rs -> In t (rt_tracks r) -> props_lookup (entries_of (tk_props t)) k <> None ->
    ~ Forall2 gpx_all_route (List.filter has_track rs) rs'.
Proof. intros C ord x rs b rs' L H. exact (C41_lost_proof C L ord H x rs b rs'). Qed.

(** C67. Whatever the data, Decode returns. *)
Theorem C67_no_panic : forall (x : gpxDraws) data, exists y, gpx_Decode (T := T) data x = Ret y.
Proof. intros x data. exact (C67_proof data x). Qed.

(** C68. Documents of one kind of lists: one route per entry, one track per line, through its points; a line of
    fewer than two points anywhere fails the document. *)
Theorem C68_gpx_partial : forall (x : gpxDraws) data (d : gpxdoc T) lss, data <> ""%string -> gpx_parse data = Some d -> not_ours d -> gpx_lines d lss ->
  (Forall (Forall (fun l => (2 <= zlen l)%Z)) lss -> exists rs, gpx_Decode data x = Ret (GOk rs) /\
     Forall2 (fun ls r => Forall2 (fun l t => is_track_through (pts l) t) ls (rt_tracks r)) lss rs) /\
  (~ Forall (Forall (fun l => (2 <= zlen l)%Z)) lss -> gpx_Decode data x = Ret (GErr ErrInvalidRoutePath)).
Proof. exact C68_gpx_proof. Qed.

(** mixed documents lose their routes and tracks: waypoints replace everything, tracks replace routes *)
Theorem C68_waypoints_refuted : forall (x : gpxDraws) data (d : gpxdoc T) rs, data <> ""%string -> gpx_parse data = Some d -> not_ours d ->
  gx_waypoints d <> [] -> gpx_Decode data x = Ret (GOk rs) ->
  exists r t, rs = [r] /\ rt_tracks r = [t] /\ is_track_through (pts (gx_waypoints d)) t.
Proof. exact C68_waypoints_proof. Qed.
Theorem C68_tracks_refuted : forall (x : gpxDraws) data (d : gpxdoc T) rs, data <> ""%string -> gpx_parse data = Some d -> not_ours d ->
  gx_waypoints d = [] -> gx_tracks d <> [] -> gpx_Decode data x = Ret (GOk rs) ->
  Forall2 (fun ls r => Forall2 (fun l t => is_track_through (pts l) t) ls (rt_tracks r)) (gx_tracks d) rs.
Proof. exact C68_tracks_proof. Qed.
(** a document with a single waypoint is refused, whatever its tracks *)
Theorem C68_waypoint_refuted : forall (x : gpxDraws) data (d : gpxdoc T) p, data <> ""%string -> gpx_parse data = Some d -> not_ours d ->
  gx_waypoints d = [p] -> exists e, gpx_Decode data x = Ret (GErr e).
Proof. exact C68_waypoint_proof. Qed.
End Any.
Print Assumptions C41_roundtrip_partial.
Print Assumptions C41_exact.
Print Assumptions C41_id_refuted.
Print Assumptions C41_track_props_refuted.
Print Assumptions C67_no_panic.
Print Assumptions C68_gpx_partial.
Print Assumptions C68_waypoints_refuted.
Print Assumptions C68_tracks_refuted.
Print Assumptions C68_waypoint_refuted.

(** ** Cases that meet the hypotheses *)
#[local] Instance xn : Num f64 := F64Num idMath.
#[local] Instance xg : GpxLib f64 := @ExampleGpx f64 (F64Num idMath) F64Bits F64_bits_law.
Definition xc : carrier f64 := ExampleCarrier.
Example C41_law : gpx_law f64 xc.
Proof. exact (ExampleGpx_law F64_bits_law). Qed.
Example C41_order : iterates (T := f64) props_entries.
Proof. intros p. reflexivity. Qed.

Definition gp_points : list (point f64) := [mkPoint (f64_ofZ 1) (f64_ofZ 2); mkPoint (f64_ofZ 3) (f64_ofZ 4); mkPoint (f64_ofZ 5) (f64_ofZ 7)].
(** a route with an ID that is a word and a property, one with a numeric ID *)
Example C41_example : exists r1 r2 : route f64, Forall (fun r => gpx_route xc r /\ gpx_no_own_keys r) [r1; r2] /\
  gpx_plain xc r1 /\ has_track r1 = true /\ props_lookup (entries_of (rt_props r1)) "city" = Some (GStr "Oslo") /\
  has_track r2 = true /\ ~ word (rt_id r2).
Proof. exact (gpx_example F64_bits_law gp_points ltac:(vm_compute; discriminate)). Qed.
(** a route and a document whose track has a property *)
Example C41_track_example : exists r : route f64, gpx_route xc r /\ gpx_no_own_keys r /\ word (rt_id r) /\
  exists t, In t (rt_tracks r) /\ props_lookup (entries_of (tk_props t)) "k" <> None.
Proof. exact (gpx_track_example F64_bits_law gp_points ltac:(vm_compute; discriminate)). Qed.

Definition gp_line : list (f64 * f64) := [(f64_ofZ 1, f64_ofZ 2); (f64_ofZ 3, f64_ofZ 4)].
(** documents with routes; with tracks, routes and waypoints *)
Example C68_gpx_example : exists b1 b2 d1 d2, b1 <> ""%string /\ b2 <> ""%string /\ gpx_parse b1 = Some d1 /\ gpx_parse b2 = Some d2 /\ not_ours d1 /\ not_ours d2 /\
  gpx_lines d1 [[gp_line]; [gp_line]] /\ gx_tracks d2 = [[gp_line]] /\ gx_routes d2 = [gp_line] /\ gx_waypoints d2 = gp_line /\
  forall x, exists rs, gpx_Decode b2 x = Ret (GOk rs).
Proof. exact (gpx_doc_example F64_bits_law gp_line eq_refl). Qed.
