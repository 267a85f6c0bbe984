(** C40, C66, C68 (GeoJSON). *)
From stdpp Require Import gmap strings.
From Coq Require Import Permutation Lia.
From Verif.Model Require Import Base Num Utf8 Geo PropMap Pb Track Route GeoJSON.
From Verif.Spec Require Import ListSpec TrackSpec SnapSpec GeoJSONSpec.
From Verif.Proofs Require Import BaseLemmas TrackLemmas PropsProofs.

Section P.
Context {T : Type} {N : Num T}.

(** ** points *)
Definition lonlat (p : point T) : T * T := (lon p, lat p).

Lemma copy_segs_pairs (l : list (segment T)) : forall pts, (2 <= List.length pts)%nat -> Forall2 segment_between (pairs pts) l -> copy_segs l = map lonlat pts.
Proof.
  induction l as [|s l IH]; intros pts Hl F.
  - destruct pts as [|a [|b pts]]; cbn in *; try lia. inversion F.
  - destruct pts as [|a [|b pts]]; cbn in Hl; try lia. cbn in F. inversion F as [|? ? ? ? Hs F']; subst.
    destruct Hs as (Ha & Hb & _ & _). cbn in Ha, Hb. destruct pts as [|c pts].
    + cbn in F'. inversion F'; subst. cbn. reflexivity.
    + specialize (IH (b :: c :: pts) ltac:(cbn; lia) F'). destruct l as [|s' l]; [discriminate IH|].
      change (copy_segs (s :: s' :: l)) with ((lon (sg_a s), lat (sg_a s)) :: copy_segs (s' :: l)). rewrite IH, Ha. reflexivity.
Qed.

Lemma copyPoints_ok (t : track T) : (2 <= zlen (polyline_of t))%Z -> is_track_through (polyline_of t) t -> copyPoints t = map lonlat (polyline_of t).
Proof. intros H (F & _). apply copy_segs_pairs; [unfold zlen in H; lia|exact F]. Qed.

Lemma toPoints_lonlat pts : toPoints (map lonlat pts) = pts.
Proof. unfold toPoints. rewrite map_map. induction pts as [|[a b] pts IH]; [reflexivity|exact (f_equal (cons (mkPoint a b)) IH)]. Qed.

(** ** property maps *)
Lemma lookup_merge (p q : props T) k : props_lookup (props_Merge p q) k = match props_lookup q k with Some v => Some v | None => props_lookup p k end.
Proof. apply lookup_merge_perm. reflexivity. Qed.

Lemma lookup_entries (l : list (string * gval T)) k : NoDup (map fst l) -> props_lookup (props_of_entries l) k = obj_get k l.
Proof.
  intros H. unfold props_of_entries. change (fold_left (fun m kv => props_Set m kv.1 kv.2) l props_Make) with (props_MergeIn props_Make l).
  rewrite lookup_mergein by exact H. clear H. induction l as [|[a v] l IH]; [reflexivity|]. cbn [list_find obj_get].
  cbn [fst]. destruct (String.eqb_spec a k) as [->|Ha].
  - rewrite decide_True by reflexivity. reflexivity.
  - rewrite decide_False by exact Ha. rewrite <- IH. destruct (list_find _ l) as [[i y]|]; reflexivity.
Qed.

Lemma obj_get_in k v (l : list (string * gval T)) : NoDup (map fst l) -> (obj_get k l = Some v <-> In (k, v) l).
Proof.
  induction l as [|[a w] l IH]; intros H; cbn in *; [split; [discriminate|contradiction]|]. inversion H as [|? ? Ha Hl]; subst.
  destruct (String.eqb_spec a k) as [->|Hk].
  - split; [intros [= ->]; now left|]. intros [[= ->]|Hin]; [reflexivity|]. exfalso. apply Ha. change k with (fst (k, v)). now apply in_map.
  - rewrite IH by exact Hl. split; [now right|]. intros [[= -> ->]|Hin]; [contradiction|exact Hin].
Qed.

Lemma obj_get_none k (l : list (string * gval T)) : obj_get k l = None <-> ~ In k (map fst l).
Proof.
  induction l as [|[a w] l IH]; cbn; [tauto|]. destruct (String.eqb_spec a k) as [->|Hk]; [split; [discriminate|tauto]|]. rewrite IH. intuition.
Qed.

Lemma obj_get_perm k (l l' : list (string * gval T)) : NoDup (map fst l) -> Permutation l l' -> obj_get k l' = obj_get k l.
Proof.
  intros H P. assert (H' : NoDup (map fst l')). { eapply Permutation_NoDup; [apply Permutation_map, P|exact H]. }
  destruct (obj_get k l) as [v|] eqn:E.
  - apply obj_get_in; [exact H'|]. apply obj_get_in in E; [|exact H]. eapply Permutation_in; eassumption.
  - apply obj_get_none. apply obj_get_none in E. intros Hin. apply E. eapply Permutation_in; [apply Permutation_map, Permutation_sym, P|exact Hin].
Qed.

Definition json_entry (a b : string * gval T) : Prop := fst a = fst b /\ utf8_valid (fst a) = true /\ json_of (snd a) (snd b).

Lemma json_entries_keys l l' : Forall2 json_entry l l' -> map fst l' = map fst l.
Proof. induction 1 as [|a b l l' (E & _) _ IH]; cbn; congruence. Qed.

Lemma json_entries_get k l l' : Forall2 json_entry l l' ->
  match obj_get k l with
  | Some v => utf8_valid k = true /\ exists v', obj_get k l' = Some v' /\ json_of v v'
  | None => obj_get k l' = None
  end.
Proof.
  induction 1 as [|[a v] [b w] l l' (E & U & Jv) _ IH]; cbn in *; [reflexivity|]. subst b.
  destruct (String.eqb_spec a k) as [->|Hk]; [eauto|exact IH].
Qed.

(** an object of this many entries, gone through JSON *)
Lemma json_obj_get l v' : NoDup (map fst l) -> json_of (GObj l) v' -> exists l'', v' = GObj l'' /\ NoDup (map fst l'') /\
  forall k, match obj_get k l with
            | Some v => utf8_valid k = true /\ exists w, obj_get k l'' = Some w /\ json_of v w
            | None => obj_get k l'' = None end.
Proof.
  intros Hn Hj. inversion Hj as [| | | | | |? l' l'' F P]; subst. exists l''. split; [reflexivity|].
  assert (Hn' : NoDup (map fst l')) by (rewrite (json_entries_keys l l'); assumption).
  split.
  - eapply Permutation_NoDup; [apply Permutation_map, P|exact Hn'].
  - intros k. rewrite (obj_get_perm k l' l'' Hn' P). apply json_entries_get. exact F.
Qed.

Lemma entries_nodup (p : props T) : NoDup (map fst (props_entries p)).
Proof. apply NoDup_ListNoDup, NoDup_fst_map_to_list. Qed.

Lemma entries_get (p : props T) k : obj_get k (props_entries p) = props_lookup p k.
Proof.
  destruct (obj_get k (props_entries p)) as [v|] eqn:E.
  - apply obj_get_in in E; [|apply entries_nodup]. symmetry. unfold props_lookup. apply elem_of_map_to_list. now apply elem_of_list_In.
  - apply obj_get_none in E. symmetry. unfold props_lookup. destruct ((p : gmap string (gval T)) !! k) as [v|] eqn:L; [|reflexivity].
    exfalso. apply E. change k with (fst (k, v)). apply in_map. apply elem_of_list_In. now apply elem_of_map_to_list.
Qed.

Lemma merge_entries_get (l : list (string * gval T)) k : NoDup (map fst l) -> props_lookup (props_MergeIn props_Make l) k = obj_get k l.
Proof. intros H. exact (lookup_entries l k H). Qed.

(** a value for the JSON of a map *)
Lemma json_able_entries (p : props T) : json_able p -> exists l', Forall2 json_entry (props_entries p) l'.
Proof.
  intros (p' & H). assert (G : forall kv, In kv (props_entries p) -> exists kv', json_entry kv kv').
  { intros [k v] Hin. specialize (H k). rewrite <- entries_get in H. rewrite (proj2 (obj_get_in k v _ (entries_nodup p)) Hin) in H.
    destruct H as (U & v' & _ & Hv). exists (k, v'). repeat split; assumption. }
  induction (props_entries p) as [|kv l IH]; [exists []; constructor|].
  destruct (G kv) as (kv' & Hkv); [now left|]. destruct IH as (l' & Hl); [intros y Hy; apply G; now right|]. exists (kv' :: l'). now constructor.
Qed.

Lemma json_obj_able (p : props T) : json_able p -> exists v', json_of (GObj (props_entries p)) v'.
Proof. intros H. destruct (json_able_entries p H) as (l' & F). exists (GObj l'). econstructor; [exact F|reflexivity]. Qed.

(** maps whose every entry has a value are able *)
Lemma json_able_values (p : props T) : (forall k v, props_lookup p k = Some v -> utf8_valid k = true /\ exists v', json_of v v') -> json_able p.
Proof.
  intros H. assert (G : exists l', Forall2 json_entry (props_entries p) l').
  { assert (G : forall kv, In kv (props_entries p) -> exists kv', json_entry kv kv').
    { intros [k v] Hin. apply (obj_get_in k v _ (entries_nodup p)) in Hin. rewrite entries_get in Hin. destruct (H k v Hin) as (U & v' & Hv). exists (k, v'). repeat split; assumption. }
    induction (props_entries p) as [|kv l IH]; [exists []; constructor|].
    destruct (G kv) as (kv' & Hkv); [now left|]. destruct IH as (l' & Hl); [intros y Hy; apply G; now right|]. exists (kv' :: l'). now constructor. }
  destruct G as (l' & F). exists (props_of_entries l'). intros k.
  assert (Hn' : NoDup (map fst l')) by (rewrite (json_entries_keys _ _ F); apply entries_nodup).
  rewrite (lookup_entries l' k Hn'). rewrite <- (entries_get p k). exact (json_entries_get k _ _ F).
Qed.

Lemma track_Props_entries (t : track T) : fst (track_Props t) = entries_of (tk_props t).
Proof. unfold track_Props, entries_of. now destruct (tk_props t). Qed.
Lemma route_Props_entries (r : route T) : fst (route_Props r) = entries_of (rt_props r).
Proof. unfold route_Props, entries_of. now destruct (rt_props r). Qed.

(** ** what Encode writes *)
Lemma track_info_nodup (t : track T) : NoDup (map fst [("trackID"%string, GStr (tk_id t)); ("name"%string, GStr (tk_name t)); ("color"%string, GStr (tk_color t));
        ("distance"%string, GFloat (tk_dist t)); ("numSegments"%string, GInt (NumSegments t)); ("properties"%string, GObj (props_entries (fst (track_Props t))))]).
Proof. cbn. repeat constructor; cbn; intuition discriminate. Qed.

Lemma track_info_able (t : track T) : clean_track t -> exists v', json_of (track_info t) v'.
Proof.
  intros (_ & _ & _ & Hd & _ & U1 & U2 & U3 & Hp). rewrite <- track_Props_entries in Hp. destruct (json_obj_able _ Hp) as (w & Hw).
  exists (GObj [("trackID"%string, GStr (tk_id t)); ("name"%string, GStr (tk_name t)); ("color"%string, GStr (tk_color t));
        ("distance"%string, GFloat (tk_dist t)); ("numSegments"%string, GFloat (fofZ (NumSegments t))); ("properties"%string, w)]).
  unfold track_info. refine (jo_obj _ _ _ _ (Permutation_refl _)). repeat match goal with |- Forall2 _ (_ :: _) _ => apply List.Forall2_cons; [split; [reflexivity|split; [vm_compute; reflexivity|cbn [snd]; first [exact Hw|constructor; assumption|constructor]]]|] end.
  constructor.
Qed.

Lemma read_track_info (t : track T) v' : json_of (track_info t) v' -> exists ps, read_trackInfo v' = mkTrackInfo (tk_id t) (tk_color t) (tk_name t) ps /\
  json_props (entries_of (tk_props t)) (props_MergeIn props_Make ps).
Proof.
  intros H. apply json_obj_get in H as (l'' & -> & Hn & G); [|apply track_info_nodup].
  cbn [read_trackInfo]. unfold obj_String.
  pose proof (G "trackID"%string) as G1. pose proof (G "color"%string) as G2. pose proof (G "name"%string) as G3. pose proof (G "properties"%string) as G4.
  cbn in G1, G2, G3, G4. destruct G1 as (_ & w1 & E1 & J1). destruct G2 as (_ & w2 & E2 & J2). destruct G3 as (_ & w3 & E3 & J3). destruct G4 as (_ & w4 & E4 & J4).
  rewrite E1, E2, E3, E4. inversion J1; subst. inversion J2; subst. inversion J3; subst.
  apply json_obj_get in J4 as (pl & -> & Hp & GP); [|apply entries_nodup]. exists pl. split; [reflexivity|].
  intros k. specialize (GP k). rewrite entries_get, track_Props_entries in GP. rewrite (merge_entries_get pl k Hp). exact GP.
Qed.

Lemma route_info_nodup (r : route T) : NoDup (map fst (route_info r)).
Proof. cbn. repeat constructor; cbn; intuition discriminate. Qed.
Definition feature_props (r : route T) : props T := props_Merge (props_of_entries (route_info r)) (fst (route_Props r)).

Lemma feature_props_get (r : route T) k : props_lookup (feature_props r) k =
  match props_lookup (entries_of (rt_props r)) k with Some v => Some v | None => obj_get k (route_info r) end.
Proof. unfold feature_props. rewrite lookup_merge, route_Props_entries, lookup_entries by apply route_info_nodup. reflexivity. Qed.

Lemma route_info_able (r : route T) k v : clean_route r -> obj_get k (route_info r) = Some v -> utf8_valid k = true /\ exists v', json_of v v'.
Proof.
  intros (Ht & Hd & _ & U1 & U2 & U3 & _) H. apply obj_get_in in H; [|apply route_info_nodup]. cbn in H.
  assert (A : exists v', json_of (GArr (map track_info (rt_tracks r))) v').
  { assert (F : exists l', Forall2 json_of (map track_info (rt_tracks r)) l').
    { clear - Ht. induction Ht as [|t ts Hc _ IH]; [exists []; constructor|]. destruct (track_info_able t Hc) as (v' & Hv). destruct IH as (l' & F). exists (v' :: l'). now constructor. }
    destruct F as (l' & F). exists (GArr l'). now constructor. }
  destruct H as [H|[H|[H|[H|[H|[H|[H|[]]]]]]]]; injection H as <- <-; (split; [vm_compute; reflexivity|]); first [exact A|eexists; constructor; assumption|eexists; constructor; vm_compute; reflexivity|eexists; constructor].
Qed.

Lemma feature_props_able (r : route T) : clean_route r -> json_able (feature_props r).
Proof.
  intros Hc. apply json_able_values. intros k v H. rewrite feature_props_get in H.
  destruct (props_lookup (entries_of (rt_props r)) k) as [u|] eqn:E.
  - injection H as <-. destruct Hc as (_ & _ & _ & _ & _ & _ & p' & Hp). specialize (Hp k). rewrite E in Hp. destruct Hp as (U & v' & _ & Hv). eauto.
  - eapply route_info_able; eassumption.
Qed.

Lemma track_geometry_simple (t : track T) : clean_track t -> json_simple (track_geometry t).
Proof.
  intros (H1 & H2 & H3 & _). unfold track_geometry. rewrite (copyPoints_ok t H1 H2).
  assert (L : json_line (map lonlat (polyline_of t))).
  { split; [unfold zlen in *; now rewrite map_length|]. clear H1 H2. induction H3 as [|p l (A & B) _ IH]; cbn; constructor; [split; assumption|exact IH]. }
  destruct (tk_isClosed t); now constructor.
Qed.

(** what the feature of a route is *)
Lemma route_feature_cases (r : route T) :
  (rt_tracks r = [] /\ route_feature r = None) \/
  (exists t, rt_tracks r = [t] /\ route_feature r = Some (mkFeature "Feature" (Some (track_geometry t)) (Some (feature_props r)))) \/
  (exists t u l, rt_tracks r = t :: u :: l /\ route_feature r = Some (mkFeature "Feature" (Some (OCollection (map Some (map track_geometry (rt_tracks r))))) (Some (feature_props r)))).
Proof.
  unfold route_feature, feature_props. destruct (rt_tracks r) as [|t [|u l]] eqn:E; cbn [map]; [left; auto|right; left; eauto|right; right].
  exists t, u, l. split; [reflexivity|]. reflexivity.
Qed.

Lemma route_feature_able (r : route T) f : clean_route r -> route_feature r = Some f -> able_feature f.
Proof.
  intros Hc E. pose proof (feature_props_able r Hc) as Hp. destruct Hc as (Ht & _).
  destruct (route_feature_cases r) as [(E1 & E2)|[(t & E1 & E2)|(t & u & l & E1 & E2)]]; rewrite E2 in E; [discriminate| |]; injection E as <-;
    (split; [reflexivity|]; split; [|exists (feature_props r); auto]).
  - exists (track_geometry t). split; [reflexivity|]. constructor. apply track_geometry_simple. rewrite E1 in Ht. now inversion Ht.
  - eexists. split; [reflexivity|]. constructor 2; [rewrite E1; discriminate|]. clear -Ht. induction Ht; cbn; constructor; auto using track_geometry_simple.
Qed.

(** ** what Decode makes of it *)
Lemma remove_get k k' (p : props T) : props_lookup (props_Remove p k) k' = if String.eqb k k' then None else props_lookup p k'.
Proof. apply lookup_remove. Qed.

Lemma resetProps_get (p : props T) k : props_lookup (resetProps p) k = if in_dec string_dec k own_keys then None else props_lookup p k.
Proof.
  unfold resetProps, reserved_keys. cbn [fold_left]. rewrite !remove_get.
  destruct (in_dec string_dec k own_keys) as [Hin|Hin].
  - cbn in Hin. repeat match goal with |- context [String.eqb ?a k] => destruct (String.eqb_spec a k) end; try reflexivity. exfalso. intuition.
  - cbn in Hin. repeat match goal with |- context [String.eqb ?a k] => destruct (String.eqb_spec a k); [exfalso; intuition|] end. reflexivity.
Qed.

(** adding tracks one by one *)
Definition same_head (r r' : route T) : Prop := rt_id r' = rt_id r /\ rt_color r' = rt_color r /\ rt_name r' = rt_name r /\ rt_props r' = rt_props r.

Lemma restore_first_ok (r : route T) ti (t : track T) : ti_id ti <> ""%string -> (2 <= zlen (polyline_of t))%Z -> is_track_through (polyline_of t) t ->
  exists r' t', restore_first r ti (map lonlat (polyline_of t)) = Ret (GOk r') /\ same_head r r' /\ rt_tracks r' = rt_tracks r ++ [t'] /\
    same_points t t' /\ tk_id t' = ti_id ti /\ tk_color t' = ti_color ti /\ tk_name t' = ""%string /\ tk_props t' = Some (props_MergeIn props_Make (ti_props ti)).
Proof.
  intros Hid Hl Ht. unfold restore_first. rewrite toPoints_lonlat.
  destruct (RestoreTrack (ti_id ti) (ti_color ti) (polyline_of t)) as [t'|e] eqn:E.
  2:{ unfold RestoreTrack in E. destruct (Z.eqb_spec (slen (ti_id ti)) 0) as [H|H].
      - exfalso. apply Hid. destruct (ti_id ti); [reflexivity|]. unfold slen in H. cbn in H. lia.
      - destruct (makeSegments_ok (polyline_of t)) as (segs & Hm & _); [unfold zlen in Hl; lia|]. rewrite Hm in E. discriminate. }
  destruct (RestoreTrack_ok _ _ _ _ E) as (A & B & C).
  assert (D : tk_name t' = ""%string /\ tk_props t' = None).
  { unfold RestoreTrack in E. destruct (_ =? _)%Z; [discriminate|]. destruct (makeSegments _) as [[segs d]|]; [|discriminate]. injection E as <-. auto. }
  destruct D as (D1 & D2).
  eexists _, _. split; [reflexivity|]. split; [repeat split|]. split; [reflexivity|].
  assert (P1 : fst (track_Props t') = props_Make) by (unfold track_Props; now rewrite D2). rewrite P1.
  split; [split; [|split]|].
  - apply A.
  - exact A.
  - destruct A as (_ & _ & _ & A & _). destruct Ht as (_ & _ & _ & Ht & _). cbn [track_setProps tk_dist]. congruence.
  - cbn [track_setProps tk_id tk_color tk_name tk_props]. auto.
Qed.

Lemma same_head_trans a b c : same_head a b -> same_head b c -> same_head a c.
Proof. intros (A1 & A2 & A3 & A4) (B1 & B2 & B3 & B4). repeat split; congruence. Qed.

Definition first_data (ti : trackInfo T) (t' : track T) : Prop :=
  tk_id t' = ti_id ti /\ tk_color t' = ti_color ti /\ tk_name t' = ""%string /\ tk_props t' = Some (props_MergeIn props_Make (ti_props ti)).

Lemma parse_track (r : route T) ti l (t : track T) d : ti_id ti <> ""%string -> clean_track t ->
  exists r' t', parseGeometry r (Some (ti :: l)) (Some (track_geometry t)) d = Ret (GOk r') /\ same_head r r' /\ rt_tracks r' = rt_tracks r ++ [t'] /\
    same_points t t' /\ first_data ti t'.
Proof.
  intros Hid (H1 & H2 & _). destruct (restore_first_ok r ti t Hid H1 H2) as (r' & t' & E & A & B & C & D). exists r', t'.
  split; [|auto]. unfold track_geometry. rewrite (copyPoints_ok t H1 H2). destruct (tk_isClosed t); exact E.
Qed.

Lemma parse_members_ok ti l d : ti_id ti <> ""%string -> forall ts, Forall clean_track ts -> forall r j,
  exists r' ts', parse_members r (Some (ti :: l)) (map Some (map track_geometry ts)) d j = Ret (GOk r') /\ same_head r r' /\ rt_tracks r' = rt_tracks r ++ ts' /\
    Forall2 same_points ts ts' /\ Forall (first_data ti) ts'.
Proof.
  intros Hid. induction 1 as [|t ts Hc _ IH]; intros r j; cbn [map parse_members].
  - exists r, []. rewrite app_nil_r. repeat split; constructor.
  - destruct (parse_track r ti l t (d j) Hid Hc) as (r1 & t1 & E1 & A1 & B1 & C1 & D1). rewrite E1. cbn [bind].
    destruct (IH r1 (S j)) as (r' & ts' & E2 & A2 & B2 & C2 & D2). exists r', (t1 :: ts'). split; [exact E2|].
    split; [eapply same_head_trans; eassumption|]. split; [rewrite B2, B1, <- app_assoc; reflexivity|]. split; constructor; assumption.
Qed.

(** the properties of a written route, read back *)
Lemma props_back (r : route T) p' : clean_route r -> no_own_keys r -> json_props (feature_props r) p' ->
  (forall s k, In k own_keys -> obj_get k (route_info r) = Some (GStr s) -> props_lookup p' k = Some (GStr s)) /\
  (exists l', props_lookup p' "tracksInfo" = Some (GArr l') /\ Forall2 json_of (map track_info (rt_tracks r)) l') /\
  json_props (entries_of (rt_props r)) (resetProps p').
Proof.
  intros Hc Hk Hj. split; [|split].
  - intros s k Hin E. specialize (Hj k). rewrite feature_props_get, (Hk k Hin), E in Hj. destruct Hj as (_ & v' & -> & H). now inversion H.
  - pose proof (Hj "tracksInfo"%string) as H. rewrite feature_props_get, (Hk "tracksInfo"%string) in H by (cbn; tauto). cbn in H.
    destruct H as (_ & v' & E & H). inversion H as [| | | | |? l' F|]; subst. exists l'. auto.
  - intros k. rewrite resetProps_get. specialize (Hj k). rewrite feature_props_get in Hj.
    destruct (in_dec string_dec k own_keys) as [Hin|Hin]; [now rewrite (Hk k Hin)|].
    destruct (props_lookup (entries_of (rt_props r)) k) as [v|] eqn:E; [exact Hj|].
    assert (E0 : obj_get k (route_info r) = None). { apply obj_get_none. intros X. apply Hin. exact X. }
    rewrite E0 in Hj. exact Hj.
Qed.

Lemma props_self (p : props T) : props_Merge p p = p.
Proof. apply C57_ext_proof. intros k. rewrite lookup_merge. now destruct (props_lookup p k). Qed.

Lemma parse_name s : legal_name s -> (0 <? slen s)%Z = true -> ParseName s = GOk s.
Proof.
  intros [->|H] H0; [discriminate|]. unfold ParseName. destruct (Z.ltb_spec (slen s) 3); [lia|]. destruct (Z.ltb_spec 256 (slen s)); [lia|reflexivity].
Qed.

(** the head of the route *)
Lemma restoreRoute_ok (r : route T) p' : clean_route r -> no_own_keys r -> json_props (feature_props r) p' ->
  exists r0 tis, routeExists (Some p') = true /\ restoreRoute p' = GOk (r0, tis) /\ rt_id r0 = rt_id r /\ rt_color r0 = rt_color r /\ rt_name r0 = rt_name r /\ rt_tracks r0 = [] /\
    Forall2 (fun t ti => exists ps, ti = mkTrackInfo (tk_id t) (tk_color t) (tk_name t) ps /\ json_props (entries_of (tk_props t)) (props_MergeIn props_Make ps)) (rt_tracks r) tis.
Proof.
  intros Hc Hk Hj. destruct (props_back r p' Hc Hk Hj) as (S & (l' & E4 & F) & _).
  assert (E1 := S (rt_id r) "routeID"%string ltac:(cbn; tauto) eq_refl).
  assert (E2 := S (rt_color r) "color"%string ltac:(cbn; tauto) eq_refl).
  assert (E3 := S (rt_name r) "name"%string ltac:(cbn; tauto) eq_refl).
  unfold routeExists, restoreRoute, props_String. rewrite E1, E2, E3, E4. cbn [fst].
  eexists _, _. split; [reflexivity|]. split; [reflexivity|].
  assert (FF : Forall2 (fun t ti => exists ps, ti = mkTrackInfo (tk_id t) (tk_color t) (tk_name t) ps /\ json_props (entries_of (tk_props t)) (props_MergeIn props_Make ps)) (rt_tracks r) (map read_trackInfo l')).
  { clear - F. revert l' F. induction (rt_tracks r) as [|t ts IH]; intros l' F; cbn in F; inversion F; subst; cbn; constructor; [|now apply IH].
    destruct (read_track_info t _ ltac:(eassumption)) as (ps & Q1 & Q2). eauto. }
  destruct (0 <? slen (rt_name r))%Z eqn:En.
  - unfold route_ChangeName. rewrite parse_name; [|apply Hc|exact En]. cbn. auto.
  - cbn. repeat split; auto. destruct (rt_name r); [reflexivity|]. unfold slen in En. cbn in En. discriminate.
Qed.

Lemma decode_feature_ok x i (r : route T) f f' : clean_route r -> no_own_keys r -> route_feature r = Some f -> same_feature f f' ->
  exists r', decode_feature x i (Some f') = Ret (GOk (Some r')) /\ same_route_head r r' /\ first_track_data r r'.
Proof.
  intros Hc Hk Hf (S1 & S2 & p & p' & S3 & S4 & Hj).
  assert (Ep : p = feature_props r /\ fe_type f = "Feature"%string).
  { destruct (route_feature_cases r) as [(E1 & E2)|[(t & E1 & E2)|(t & u & l & E1 & E2)]]; rewrite E2 in Hf; [discriminate| |]; injection Hf as <-; injection S3 as <-; auto. }
  destruct Ep as (-> & Ety).
  destruct (restoreRoute_ok r p' Hc Hk Hj) as (r0 & tis & X0 & X1 & X2 & X3 & X4 & X5 & X6).
  destruct (props_back r p' Hc Hk Hj) as (_ & _ & Hb).
  unfold decode_feature. cbn [deref bind]. rewrite S1, Ety, S4, X0, X1, S2. cbn [String.eqb negb Ascii.eqb Bool.eqb].
  change (negb ("Feature" =? "Feature")%string) with false. cbv iota.
  set (r1 := parseProperties (route_setProps r0 (resetProps p')) (Some (resetProps p'))).
  assert (H1 : rt_id r1 = rt_id r /\ rt_color r1 = rt_color r /\ rt_name r1 = rt_name r /\ rt_props r1 = Some (resetProps p') /\ rt_tracks r1 = []).
  { unfold r1, parseProperties. cbn. rewrite props_self. repeat split; assumption. }
  destruct H1 as (R1 & R2 & R3 & R4 & R5). destruct Hc as (Ht & Hc').
  assert (Fin : forall r2 ti ts', same_head r1 r2 -> rt_tracks r2 = rt_tracks r1 ++ ts' -> Forall2 same_points (rt_tracks r) ts' -> Forall (first_data ti) ts' ->
     (exists t0 rest ps, rt_tracks r = t0 :: rest /\ ti = mkTrackInfo (tk_id t0) (tk_color t0) (tk_name t0) ps /\ json_props (entries_of (tk_props t0)) (props_MergeIn props_Make ps)) ->
     same_route_head r r2 /\ first_track_data r r2).
  { intros r2 ti ts' (A1 & A2 & A3 & A4) B C D (t0 & rest & ps & Q1 & -> & Q3). rewrite R5 in B. cbn in B. split.
    - split; [congruence|]. split; [congruence|]. split; [congruence|]. rewrite A4, R4. exact Hb.
    - exists t0, rest. split; [exact Q1|]. rewrite B. split; [exact C|].
      eapply List.Forall_impl; [|exact D]. intros t' (D1 & D2 & D3 & D4). cbn in D1, D2, D4. repeat split; auto. rewrite D4. exact Q3. }
  destruct (route_feature_cases r) as [(E1 & E2)|[(t & E1 & E2)|(t & u & l & E1 & E2)]]; rewrite E2 in Hf; [discriminate| |]; injection Hf as <-; cbn [fe_geom].
  - rewrite E1 in X6. inversion X6 as [|? ti ? tl (ps & -> & Hps) X7]; subst. inversion X7; subst.
    assert (Hct : clean_track t) by (rewrite E1 in Ht; now inversion Ht).
    destruct (parse_track r1 (mkTrackInfo (tk_id t) (tk_color t) (tk_name t) ps) [] t (gd_track x i 0) ltac:(apply Hct) Hct) as (r2 & t' & P1 & P2 & P3 & P4 & P5).
    exists r2. split.
    + assert (Q : parseGeometries r1 (Some [mkTrackInfo (tk_id t) (tk_color t) (tk_name t) ps]) (Some (track_geometry t)) (gd_track x i) = Ret (GOk r2)).
      { rewrite <- P1. unfold parseGeometries, track_geometry. destruct (tk_isClosed t); reflexivity. }
      rewrite Q. reflexivity.
    + eapply (Fin r2 _ [t']); [exact P2|exact P3|rewrite E1; constructor; [exact P4|constructor]|constructor; [exact P5|constructor]|].
      exists t, [], ps. auto.
  - rewrite E1 in X6. inversion X6 as [|? ti ? tl (ps & -> & Hps) X7]; subst. rewrite <- E1 in X6.
    assert (Hct : clean_track t) by (rewrite E1 in Ht; now inversion Ht).
    destruct (parse_members_ok (mkTrackInfo (tk_id t) (tk_color t) (tk_name t) ps) tl (gd_track x i) ltac:(apply Hct) (rt_tracks r) Ht r1 0) as (r2 & ts' & P1 & P2 & P3 & P4 & P5).
    exists r2. split.
    + unfold parseGeometries. assert (L : (zlen (mkTrackInfo (tk_id t) (tk_color t) (tk_name t) ps :: tl) =? zlen (map Some (map track_geometry (rt_tracks r))))%Z = true).
      { apply Z.eqb_eq. unfold zlen. rewrite !map_length. f_equal. symmetry. exact (Forall2_length _ _ _ X6). }
      rewrite L, P1. reflexivity.
    + eapply (Fin r2 _ ts'); [exact P2|exact P3|exact P4|exact P5|]. exists t, (u :: l), ps. auto.
Qed.

Lemma decode_features_ok x rs : Forall (fun r => clean_route r /\ no_own_keys r) rs -> forall i fs', Forall2 same_feature (ToFeatureCollection rs) fs' ->
  exists rs', decode_features x i (map Some fs') = Ret (GOk rs') /\
    Forall2 (fun r r' => same_route_head r r' /\ first_track_data r r') (List.filter has_track rs) rs'.
Proof.
  induction 1 as [|r rs (Hc & Hk) _ IH]; intros i fs' F; cbn [ToFeatureCollection] in F.
  - inversion F; subst. exists []. split; [reflexivity|constructor].
  - destruct (route_feature r) as [f|] eqn:E.
    + inversion F as [|? f' ? fs1 Sf F']; subst. destruct (decode_feature_ok x i r f f' Hc Hk E Sf) as (r' & E1 & A & B).
      destruct (IH (S i) fs1 F') as (rs' & E2 & C). exists (r' :: rs'). cbn [map decode_features]. rewrite E1. cbn [bind]. rewrite E2. cbn [bind].
      split; [reflexivity|]. cbn [List.filter].
      assert (Ht : has_track r = true). { unfold has_track. destruct (route_feature_cases r) as [(_ & E3)|[(t & E3 & _)|(t & u & l & E3 & _)]]; [congruence| |]; now rewrite E3. }
      rewrite Ht. constructor; auto.
    + assert (Ht : has_track r = false). { unfold has_track. destruct (route_feature_cases r) as [(E3 & _)|[(t & _ & E3)|(t & u & l & _ & E3)]]; [now rewrite E3| |]; congruence. }
      cbn [List.filter]. rewrite Ht. exact (IH i fs' F).
Qed.

Context {G : GeoLib T}.

Lemma C40_proof (x : geoDraws) (rs : list (route T)) : geo_law T -> rs <> [] -> Forall (fun r => clean_route r /\ no_own_keys r) rs ->
  exists b rs', geo_Encode rs = GOk b /\ geo_Decode b x = Ret (GOk rs') /\
    Forall2 (fun r r' => same_route_head r r' /\ first_track_data r r') (List.filter has_track rs) rs'.
Proof.
  intros L Hne Hc.
  assert (Ha : Forall able_feature (ToFeatureCollection rs)).
  { clear - Hc. induction Hc as [|r rs (Hc & _) _ IH]; cbn; [constructor|]. destruct (route_feature r) as [f|] eqn:E; [|exact IH]. constructor; [eapply route_feature_able; eassumption|exact IH]. }
  destruct (geo_able L _ Ha) as (b & fs' & E1 & E2 & F). destruct (decode_features_ok x rs Hc 0 fs' F) as (rs' & E3 & R).
  exists b, rs'. unfold geo_Encode, geo_Decode. destruct rs as [|r rs]; [contradiction|]. change (zlen (r :: rs) =? 0)%Z with false. rewrite E1, E2. cbn [deref bind].
  auto.
Qed.

(** one track without a name *)
Lemma C40_single_proof (x : geoDraws) (rs : list (route T)) : geo_law T -> rs <> [] -> Forall (fun r => clean_route r /\ no_own_keys r) rs ->
  Forall (fun r => forall t, In t (rt_tracks r) -> rt_tracks r = [t] /\ tk_name t = ""%string) rs ->
  exists b rs', geo_Encode rs = GOk b /\ geo_Decode b x = Ret (GOk rs') /\ Forall2 same_route (List.filter has_track rs) rs'.
Proof.
  intros L Hne Hc Hs. destruct (C40_proof x rs L Hne Hc) as (b & rs' & E1 & E2 & F). exists b, rs'. split; [exact E1|]. split; [exact E2|].
  clear E1 E2 Hne Hc L b. assert (Hs' : Forall (fun r => forall t, In t (rt_tracks r) -> rt_tracks r = [t] /\ tk_name t = ""%string) (List.filter has_track rs)).
  { clear - Hs. induction Hs as [|r rs Hr _ IH]; cbn; [constructor|]. destruct (has_track r); [constructor|]; assumption. }
  clear Hs. induction F as [|r r' l l' (A & t0 & rest & E & B & C) _ IH]; [constructor|]. inversion Hs' as [|? ? Hr Hl]; subst. constructor; [|now apply IH].
  split; [exact A|]. destruct (Hr t0) as (E0 & En); [rewrite E; now left|]. rewrite E0 in *. inversion B as [|? t' ? ? Bt B']; subst. inversion B'; subst.
  destruct (rt_tracks r') as [|t1 [|t2 ts]]; try discriminate. inversion C as [|? ? (C1 & C2 & C3 & C4) _]; subst.
  match goal with H : _ :: _ = _ :: _ |- _ => injection H as <- end || idtac. constructor; [|constructor]. split; [exact Bt|]. repeat split; congruence || exact C4.
Qed.

(** a track with data of its own does not come back *)
Lemma C40_data_proof (x : geoDraws) (rs : list (route T)) b rs' : geo_law T -> Forall (fun r => clean_route r /\ no_own_keys r) rs ->
  geo_Encode rs = GOk b -> geo_Decode b x = Ret (GOk rs') ->
  forall r t0 rest t, In r rs -> rt_tracks r = t0 :: rest -> In t (t0 :: rest) ->
    (tk_name t <> ""%string \/ tk_id t <> tk_id t0 \/ tk_color t <> tk_color t0) -> ~ Forall2 same_route (List.filter has_track rs) rs'.
Proof.
  intros L Hc E1 E2 r t0 rest t Hr Et Ht Hd F.
  assert (Hne : rs <> []) by (intros ->; destruct Hr). destruct (C40_proof x rs L Hne Hc) as (b' & rs1 & E3 & E4 & F1).
  rewrite E1 in E3. injection E3 as <-. rewrite E2 in E4. injection E4 as <-.
  assert (Hin : In r (List.filter has_track rs)) by (apply filter_In; split; [exact Hr|unfold has_track; now rewrite Et]).
  clear E1 E2 Hne Hc L b Hr. induction F as [|a a' l l' Sa _ IH]; [destruct Hin|]. inversion F1 as [|? ? ? ? Fa Fl]; subst.
  destruct Hin as [->|Hin]; [|now apply IH]. destruct Sa as (_ & St). destruct Fa as (_ & u0 & urest & Eu & _ & C). rewrite Et in Eu. injection Eu as <- <-. rewrite Et in St.
  clear - St C Ht Hd. remember (t0 :: rest) as ts eqn:Q. clear Q. remember (rt_tracks a') as ts' eqn:Q. clear Q.
  induction St as [|u u' us us' (_ & U1 & U2 & U3 & _) _ IH]; [destruct Ht|]. inversion C as [|? ? (C1 & C2 & C3 & _) C']; subst.
  destruct Ht as [->|Ht]; [|now apply IH]. destruct Hd as [Hd|[Hd|Hd]]; congruence.
Qed.

(** ** parsing never touches the head of the route *)
Lemma AddTrack_head (r : route T) t : same_head r (AddTrack r t).
Proof. destruct t as [t|]; unfold same_head; (split; [reflexivity|split; [reflexivity|split; reflexivity]]). Qed.
Lemma add_new_head (r : route T) d l r' : add_new r d l = GOk r' -> same_head r r'.
Proof. unfold add_new. destruct (NewTrack _ _ _) as [t|]; [|discriminate]. intros [= <-]. exact (AddTrack_head r (Some t)). Qed.
Lemma same_head_refl (r : route T) : same_head r r.
Proof. repeat split. Qed.
Lemma add_news_head d : forall ls (r : route T) k r', add_news r d k ls = GOk r' -> same_head r r'.
Proof.
  induction ls as [|l ls IH]; intros r k r' H; cbn in H; [injection H as <-; apply same_head_refl|].
  destruct (add_new r (d k) l) as [r1|] eqn:E; [|discriminate]. eapply same_head_trans; [eapply add_new_head, E|eapply IH, H].
Qed.
Lemma restore_first_head (r : route T) ti l r' : restore_first r ti l = Ret (GOk r') -> same_head r r'.
Proof. unfold restore_first. destruct (RestoreTrack _ _ _) as [t|]; [|discriminate]. intros [= <-]. match goal with |- same_head _ ?x => match x with context [[?t]] => exact (AddTrack_head r (Some t)) end end. Qed.
Lemma parseGeometry_head (r : route T) tis g d r' : parseGeometry r tis g d = Ret (GOk r') -> same_head r r'.
Proof.
  unfold parseGeometry. destruct g as [[p|l|l|l|[|l ls]|l|l]|]; try discriminate;
    destruct tis as [[|ti tl]|]; try discriminate; intros H;
    first [eapply restore_first_head; exact H | injection H as H; first [subst; apply same_head_refl | eapply add_new_head; exact H | eapply add_news_head; exact H]].
Qed.
Lemma parse_members_head tis d : forall gs (r : route T) j r', parse_members r tis gs d j = Ret (GOk r') -> same_head r r'.
Proof.
  induction gs as [|g gs IH]; intros r j r' H; cbn in H; [injection H as <-; apply same_head_refl|].
  destruct (parseGeometry r tis g (d j)) as [[r1|]| |] eqn:E; try discriminate. eapply same_head_trans; [eapply parseGeometry_head, E|eapply IH, H].
Qed.
Lemma parseGeometries_head (r : route T) tis g d r' : parseGeometries r tis g d = Ret (GOk r') -> same_head r r'.
Proof.
  unfold parseGeometries. intros H.
  destruct g as [[p|l|l|l|l|l|l]|]; destruct tis as [tl|]; try (eapply parseGeometry_head; exact H); try (eapply parse_members_head; exact H);
    (match type of H with (if ?c then _ else _) = _ => destruct c; [|discriminate] end); first [eapply parseGeometry_head; exact H | eapply parse_members_head; exact H].
Qed.

(** an own entry that is a property of the route *)
Lemma C40_color_proof (x : geoDraws) (r : route T) c b rs' : geo_law T -> clean_route r -> props_lookup (entries_of (rt_props r)) "color" = Some (GStr c) ->
  geo_Encode [r] = GOk b -> geo_Decode b x = Ret (GOk rs') -> forall r', In r' rs' -> rt_color r' = c.
Proof.
  intros L Hc Hk E1 E2 r' Hin. unfold geo_Encode in E1. cbn [zlen] in E1. change (zlen [r] =? 0)%Z with false in E1. cbn [ToFeatureCollection] in E1.
  destruct (route_feature r) as [f|] eqn:Ef.
  2:{ destruct (geo_able L [] (Forall_nil _)) as (b' & fs' & A1 & A2 & A3). rewrite A1 in E1. injection E1 as <-. inversion A3; subst.
      unfold geo_Decode in E2. rewrite A2 in E2. cbn in E2. injection E2 as <-. destruct Hin. }
  assert (Ha : Forall able_feature [f]) by (constructor; [eapply route_feature_able; eassumption|constructor]).
  destruct (geo_able L [f] Ha) as (b' & fs' & A1 & A2 & A3). rewrite A1 in E1. injection E1 as <-. inversion A3 as [|? f' ? ? Sf A4]; subst. inversion A4; subst.
  unfold geo_Decode in E2. rewrite A2 in E2. cbn [deref bind map decode_features] in E2.
  destruct Sf as (S1 & S2 & p & p' & S3 & S4 & Hj).
  assert (Ep : p = feature_props r /\ fe_type f = "Feature"%string).
  { destruct (route_feature_cases r) as [(F1 & F2)|[(t & F1 & F2)|(t & u & l & F1 & F2)]]; rewrite F2 in Ef; [discriminate| |]; injection Ef as <-; injection S3 as <-; auto. }
  destruct Ep as (-> & Ety).
  assert (K1 : props_lookup p' "color" = Some (GStr c)).
  { specialize (Hj "color"%string). rewrite feature_props_get, Hk in Hj. destruct Hj as (_ & v' & -> & J). now inversion J. }
  assert (K2 : exists v, props_lookup p' "routeID" = Some v).
  { specialize (Hj "routeID"%string). rewrite feature_props_get in Hj. destruct (props_lookup (entries_of (rt_props r)) "routeID") as [v|]; [|cbn in Hj]; destruct Hj as (_ & v' & E & _); eauto. }
  destruct K2 as (v & K2). destruct (decode_feature x 0 (Some f')) as [[[r1|]|]| |] eqn:D; cbn [bind] in E2; try discriminate.
  2:{ injection E2 as <-. destruct Hin. }
  injection E2 as <-. destruct Hin as [<-|[]].
  unfold decode_feature in D. cbn [deref bind] in D. rewrite S1, Ety, S4 in D. change (negb ("Feature" =? "Feature")%string) with false in D. cbv iota in D.
  unfold routeExists in D. rewrite K1, K2 in D. unfold restoreRoute in D. unfold props_String in D. rewrite K1 in D. cbn [fst] in D.
  destruct (props_lookup p' "tracksInfo") as [[| | | | |tis| |]|]; try discriminate.
  match type of D with bind (parseGeometries ?a ?b ?c ?d) _ = _ => destruct (parseGeometries a b c d) as [[r2|]| |] eqn:P; cbn [bind] in D; try discriminate end.
  injection D as <-. apply parseGeometries_head in P as (_ & P & _). rewrite P. unfold parseProperties. cbn [route_setProps rt_color].
  match goal with |- context [if ?b then _ else _] => destruct b end; [|reflexivity]. unfold route_ChangeName. destruct (ParseName _); reflexivity.
Qed.

(** ** errors *)
Lemma C40_errors_proof (rs : list (route T)) r : geo_law T -> In r rs -> has_track r = true ->
  (exists t p, In t (rt_tracks r) /\ In p (copyPoints t) /\ ~ finite_pos p) \/ json_unable (entries_of (rt_props r)) ->
  geo_Encode rs = GErr ErrJSON.
Proof.
  intros L Hin Ht Hbad. assert (Hf : exists f, route_feature r = Some f /\ unable_feature f).
  { destruct (route_feature_cases r) as [(E1 & E2)|[(t & E1 & E2)|(t & u & l & E1 & E2)]].
    - unfold has_track in Ht. rewrite E1 in Ht. discriminate.
    - eexists. split; [exact E2|]. destruct Hbad as [(t' & p & H1 & H2 & H3)|(k & v & H1 & H2)].
      + left. eexists. split; [reflexivity|]. rewrite E1 in H1. destruct H1 as [<-|[]]. unfold track_geometry. destruct (tk_isClosed t).
        * econstructor; [left; reflexivity|]. exists p. auto.
        * constructor. exists p. auto.
      + right. eexists. split; [reflexivity|]. exists k, v. rewrite feature_props_get, H1. auto.
    - eexists. split; [exact E2|]. destruct Hbad as [(t' & p & H1 & H2 & H3)|(k & v & H1 & H2)].
      + left. eexists. split; [reflexivity|]. apply bg_coll with (track_geometry t').
        * apply in_map, in_map. exact H1.
        * unfold track_geometry. destruct (tk_isClosed t'); [econstructor; [left; reflexivity|]|constructor]; exists p; auto.
      + right. eexists. split; [reflexivity|]. exists k, v. rewrite feature_props_get, H1. auto. }
  destruct Hf as (f & Ef & Hu). unfold geo_Encode. destruct rs as [|r1 rs]; [destruct Hin|]. change (zlen (r1 :: rs) =? 0)%Z with false.
  rewrite (geo_unable L _ f); [reflexivity| |exact Hu]. revert Hin. generalize (r1 :: rs) as l. induction l as [|a l IH]; intros Hin; [destruct Hin|].
  cbn [ToFeatureCollection]. destruct Hin as [->|Hin]; [rewrite Ef; now left|]. destruct (route_feature a); [right|]; now apply IH.
Qed.

(** ** C66: no panics on sound documents *)
Lemma add_new_ret (r : route T) d l : exists y, add_new r d l = y. Proof. eauto. Qed.

Lemma parseGeometry_ret (r : route T) tis g d : g <> None ->
  (match tis with Some (ti :: _) => ti_id ti <> ""%string /\ long_lines g | _ => True end) -> exists y, parseGeometry r tis g d = Ret y.
Proof.
  intros Hg Ht. assert (R : forall ti l, ti_id ti <> ""%string -> (2 <= zlen l)%Z -> exists y, restore_first r ti l = Ret y).
  { intros ti l Hid Hl. unfold restore_first, RestoreTrack. destruct (Z.eqb_spec (slen (ti_id ti)) 0) as [H|H].
    - exfalso. apply Hid. destruct (ti_id ti); [reflexivity|]. unfold slen in H. cbn in H. lia.
    - destruct (makeSegments_ok (toPoints l)) as (segs & Hm & _); [unfold toPoints; rewrite map_length; unfold zlen in Hl; lia|]. rewrite Hm. eauto. }
  unfold parseGeometry. destruct g as [[p|l|l|l|[|l ls]|l|l]|]; try contradiction; destruct tis as [[|ti tl]|]; eauto;
    destruct Ht as (H1 & H2); cbn in H2; eauto.
Qed.

Lemma parse_members_ret tis d : forall gs (r : route T) j, (forall g, In g gs -> g <> None /\ match tis with Some (ti :: _) => ti_id ti <> ""%string /\ long_lines g | _ => True end) ->
  exists y, parse_members r tis gs d j = Ret y.
Proof.
  induction gs as [|g gs IH]; intros r j H; cbn [parse_members]; [eauto|].
  destruct (H g (or_introl eq_refl)) as (H1 & H2). destruct (parseGeometry_ret r tis g (d j) H1 H2) as ([r1|e] & ->); cbn [bind]; [|eauto].
  apply IH. intros g' Hg'. apply H. now right.
Qed.

Lemma parseGeometries_ret (r : route T) tis g d : (forall m, In m (members g) -> m <> None) ->
  match tis with Some (ti :: _) => ti_id ti <> ""%string /\ (forall m, In m (members g) -> long_lines m) | _ => True end ->
  exists y, parseGeometries r tis (Some g) d = Ret y.
Proof.
  intros Hm Ht. assert (M : forall m, In m (members g) -> m <> None /\ match tis with Some (ti :: _) => ti_id ti <> ""%string /\ long_lines m | _ => True end).
  { intros m Hin. split; [now apply Hm|]. destruct tis as [[|ti tl]|]; auto. destruct Ht as (H1 & H2). auto. }
  unfold parseGeometries. destruct g as [p|l|l|l|l|l|gs].
  7:{ cbn [members] in M. destruct tis as [tl|]; [destruct (_ =? _)%Z; [|eauto]|]; apply parse_members_ret; exact M. }
  all: cbn [members] in M; destruct (M _ (or_introl eq_refl)) as (M1 & M2); pose proof (parseGeometry_ret r tis _ (d 0%nat) M1 M2);
    (destruct tis as [tl|]; [destruct (_ =? _)%Z; [|eauto]|]); assumption.
Qed.

Lemma obj_get_find k (l : list (string * gval T)) : obj_get k l = match List.find (fun kv => String.eqb (fst kv) k) l with Some kv => Some (snd kv) | None => None end.
Proof. induction l as [|[a v] l IH]; [reflexivity|]. cbn. destruct (String.eqb a k); [reflexivity|exact IH]. Qed.

Lemma decode_feature_ret x i (f : option (feature T)) : sound_feature f -> exists y, decode_feature x i f = Ret y.
Proof.
  intros (f' & -> & [Hty|(g & Hg & Hm & Hs)]); unfold decode_feature; cbn [deref bind].
  - destruct (String.eqb_spec (fe_type f') "Feature") as [E|E]; [contradiction|]. cbn. eauto.
  - destruct (negb (fe_type f' =? "Feature")%string) eqn:Ety; [eauto|]. rewrite Hg.
    assert (Fin : forall r tis, match tis with Some (ti :: _) => ti_id ti <> ""%string /\ (forall m, In m (members g) -> long_lines m) | _ => True end ->
       exists y, (let* z := parseGeometries (T := T) r tis (Some g) (gd_track x i) in match z with GErr e => Ret (GErr e) | GOk r => Ret (GOk (Some r)) end) = Ret y).
    { intros r tis Ht. destruct (parseGeometries_ret r tis g (gd_track x i) Hm Ht) as ([r1|e] & ->); cbn [bind]; eauto. }
    destruct (fe_props f') as [p|] eqn:Ep; [|apply Fin; exact I].
    destruct (routeExists (Some p)) eqn:Er; [|apply Fin; exact I].
    destruct (restoreRoute p) as [[r0 tis]|e] eqn:Err; [|eauto]. apply Fin.
    unfold restoreRoute in Err. destruct (props_lookup p "tracksInfo") as [[| | | | |tl| |]|] eqn:Et; try discriminate. injection Err as _ <-.
    destruct Hs as [Hf|[Hn|[Hn|Hi]]].
    + exfalso. destruct Hf as (_ & Hf). rewrite Ep in Hf. cbn [entries_of] in Hf. unfold routeExists in Er.
      destruct Hf as [Hf|Hf]; rewrite Hf in Er; [discriminate|]. destruct (props_lookup p "routeID"); discriminate.
    + unfold tracks_info in Hn. rewrite Ep in Hn. cbn [entries_of] in Hn. rewrite Et in Hn. discriminate.
    + unfold tracks_info in Hn. rewrite Ep in Hn. cbn [entries_of] in Hn. rewrite Et in Hn. injection Hn as ->. exact I.
    + destruct Hi as (id & Hi & Hne & Hl). unfold first_id, tracks_info in Hi. rewrite Ep in Hi. cbn [entries_of] in Hi. rewrite Et in Hi.
      destruct tl as [|v tl]; [exact I|]. destruct v as [| | | | | |ol|]; try discriminate. cbn [map read_trackInfo ti_id]. split; [|exact Hl].
      unfold obj_String. rewrite obj_get_find. destruct (List.find _ ol) as [[k [| | | |s| | |]]|]; try discriminate. cbn [snd]. injection Hi as ->. exact Hne.
Qed.

Lemma decode_features_ret x : forall fs i, Forall sound_feature fs -> exists y, decode_features (T := T) x i fs = Ret y.
Proof.
  induction fs as [|f fs IH]; intros i H; cbn [decode_features]; [eauto|]. inversion H as [|? ? H1 H2]; subst.
  destruct (decode_feature_ret x i f H1) as ([o|e] & ->); cbn [bind]; [|eauto]. destruct (IH (S i) H2) as ([l|e] & ->); cbn [bind]; eauto.
Qed.

Lemma C66_partial_proof x data : match geo_unmarshal data with Some None => False | Some (Some fs) => Forall sound_feature fs | None => True end ->
  exists y, geo_Decode (T := T) data x = Ret y.
Proof.
  unfold geo_Decode. destruct (geo_unmarshal data) as [[fs|]|]; intros H; [|contradiction|eauto]. cbn [deref bind]. now apply decode_features_ret.
Qed.

(** ** C68: documents from elsewhere *)
Definition grown (r r' : route T) (lines : list (list (T * T))) : Prop :=
  exists ts, rt_tracks r' = rt_tracks r ++ ts /\ Forall2 (fun l t => is_track_through (latlons l) t) lines ts.
Lemma grown_nil r : grown r r []. Proof. exists []. rewrite app_nil_r. split; [reflexivity|constructor]. Qed.
Lemma grown_app r r1 r2 l1 l2 : grown r r1 l1 -> grown r1 r2 l2 -> grown r r2 (l1 ++ l2).
Proof. intros (t1 & A1 & F1) (t2 & A2 & F2). exists (t1 ++ t2). split; [rewrite A2, A1, app_assoc; reflexivity|now apply Forall2_app]. Qed.

Definition all_long (lines : list (list (T * T))) : Prop := Forall (fun l => (2 <= zlen l)%Z) lines.

Lemma add_new_import (r : route T) d l : if (2 <=? zlen l)%Z then exists r', add_new r d l = GOk r' /\ grown r r' [l] else add_new r d l = GErr ErrInvalidRoutePath.
Proof.
  unfold add_new. assert (Ll : List.length (toPoints l) = List.length l) by (unfold toPoints; apply map_length).
  destruct (Z.leb_spec 2 (zlen l)) as [H|H]; unfold zlen in H.
  - destruct (NewTrack_ok (toPoints l) (fst d) (snd d)) as (t & E & A & _); [lia|]. rewrite E. eexists. split; [reflexivity|]. exists [t]. split; [reflexivity|]. constructor; [exact A|constructor].
  - rewrite NewTrack_err by lia. reflexivity.
Qed.

Definition import_ok (r : route T) (lines : list (list (T * T))) (y : goret (route T)) : Prop :=
  (all_long lines /\ exists r', y = GOk r' /\ grown r r' lines) \/ (~ all_long lines /\ y = GErr ErrInvalidRoutePath).

Lemma add_new_ok (r : route T) d l : import_ok r [l] (add_new r d l).
Proof.
  pose proof (add_new_import r d l) as H. destruct (Z.leb_spec 2 (zlen l)) as [Hl|Hl].
  - left. split; [constructor; [exact Hl|constructor]|exact H].
  - right. split; [intros A; inversion A; subst; lia|exact H].
Qed.

Lemma import_cons (r : route T) l ls y1 : import_ok r l y1 -> forall y, (forall r1, y1 = GOk r1 -> import_ok r1 ls y) -> (forall e, y1 = GErr e -> y = GErr e) -> import_ok r (l ++ ls) y.
Proof.
  intros [(A & r1 & -> & G1)|(A & ->)] y H1 H2.
  - destruct (H1 r1 eq_refl) as [(B & r2 & -> & G2)|(B & ->)].
    + left. split; [apply Forall_app; auto|]. exists r2. split; [reflexivity|eapply grown_app; eassumption].
    + right. split; [|reflexivity]. intros C. apply B. apply Forall_app in C. tauto.
  - right. split; [|now apply H2]. intros C. apply A. apply Forall_app in C. tauto.
Qed.

Lemma add_news_ok d : forall ls (r : route T) k, import_ok r ls (add_news r d k ls).
Proof.
  induction ls as [|l ls IH]; intros r k; cbn [add_news]; [left; split; [constructor|exists r; split; [reflexivity|apply grown_nil]]|].
  change (l :: ls) with ([l] ++ ls). eapply import_cons; [apply (add_new_ok r (d k) l)| |].
  - intros r1 E. rewrite E. apply IH.
  - intros e E. now rewrite E.
Qed.

Lemma outer_rings_lines (ps : list (list (list (T * T)))) : forall ls, lines_of (OMultiPolygon ps) ls -> ls = outer_rings ps.
Proof. induction ps as [|[|l hs] ps IH]; intros ls H; inversion H; subst; cbn; [reflexivity|now apply IH|f_equal; now apply IH]. Qed.

Lemma parseGeometry_import (r : route T) g ls d : lines_of g ls -> exists y, parseGeometry r None (Some g) d = Ret y /\ import_ok r ls y.
Proof.
  intros H. destruct g as [p|l|l|l|[|l hs]|l|gs]; try (exfalso; now inversion H); try (inversion H; subst; cbn [parseGeometry]; eexists; split; [reflexivity|]; first [apply add_new_ok|apply add_news_ok]).
  - inversion H; subst. cbn [parseGeometry]. eexists; split; [reflexivity|]. left. split; [constructor|]. exists r. split; [reflexivity|apply grown_nil].
  - rewrite (outer_rings_lines _ _ H). cbn [parseGeometry]. eexists; split; [reflexivity|]. apply add_news_ok.
Qed.

Lemma parse_members_import d gs ls : member_lines gs ls -> forall (r : route T) j, exists y, parse_members r None gs d j = Ret y /\ import_ok r ls y.
Proof.
  induction 1 as [|g gs l ls Hl _ IH]; intros r j; cbn [parse_members].
  - eexists; split; [reflexivity|]. left. split; [constructor|]. exists r. split; [reflexivity|apply grown_nil].
  - destruct (parseGeometry_import r g l (d j) Hl) as (y1 & -> & H1). cbn [bind]. destruct y1 as [r1|e].
    + destruct (IH r1 (S j)) as (y & E & H2). exists y. split; [exact E|]. eapply import_cons; [exact H1| |intros e; discriminate]. intros r2 [= <-]. exact H2.
    + eexists. split; [reflexivity|]. eapply import_cons; [exact H1|intros r1; discriminate|]. auto.
Qed.

Lemma parseGeometries_import (r : route T) g ls d : doc_lines g ls -> exists y, parseGeometries r None (Some g) d = Ret y /\ import_ok r ls y.
Proof.
  intros [g' l H|gs l H].
  - destruct (parseGeometry_import r g' l (d 0%nat) H) as (y & E & I). exists y. split; [|exact I]. destruct g'; try exact E. inversion H.
  - exact (parse_members_import d gs l H r 0).
Qed.

Lemma decode_foreign x i (f : feature T) g ls : foreign f -> fe_geom f = Some g -> doc_lines g ls ->
  (all_long ls /\ exists r, decode_feature x i (Some f) = Ret (GOk (Some r)) /\ imported f ls r) \/ (~ all_long ls /\ decode_feature x i (Some f) = Ret (GErr ErrInvalidRoutePath)).
Proof.
  intros (Hty & Hf) Hg Hl. unfold decode_feature. cbn [deref bind]. rewrite Hty, Hg. change (negb ("Feature" =? "Feature")%string) with false. cbv iota.
  assert (Fin : forall r, rt_tracks r = [] -> (forall k, props_lookup (entries_of (rt_props r)) k = props_lookup (entries_of (fe_props f)) k) ->
     let y := (let* y := parseGeometries r None (Some g) (gd_track x i) in match y with GErr e => Ret (GErr e) | GOk r => Ret (GOk (Some r)) end) in
     (all_long ls /\ exists r, y = Ret (GOk (Some r)) /\ imported f ls r) \/ (~ all_long ls /\ y = Ret (GErr ErrInvalidRoutePath))).
  { intros r Hr Hp. destruct (parseGeometries_import r g ls (gd_track x i) Hl) as (y & E & H). pose proof (parseGeometries_head r None (Some g) (gd_track x i)) as Hh. rewrite E in *. cbn [bind].
    destruct H as [(A & r' & -> & (ts & B & C))|(A & ->)]; [left|right; auto]. split; [exact A|]. exists r'. split; [reflexivity|]. rewrite Hr in B. cbn in B. split; [rewrite B; exact C|].
    destruct (Hh r' eq_refl) as (_ & _ & _ & ->). exact Hp. }
  destruct (fe_props f) as [p|] eqn:Ep.
  - assert (Er : routeExists (Some p) = false). { cbn [entries_of] in Hf. unfold routeExists. destruct Hf as [Hf|Hf]; rewrite Hf; [reflexivity|]. now destruct (props_lookup p "routeID"). }
    rewrite Er. cbv iota. apply Fin; [reflexivity|]. intros k. cbn [parseProperties route_setProps rt_props entries_of NewRoute route_Props fst]. rewrite lookup_merge.
    destruct (props_lookup p k); reflexivity.
  - apply Fin; [reflexivity|]. intros k. reflexivity.
Qed.

Lemma C68_geojson_proof x data (fs : list (feature T)) lines : geo_unmarshal data = Some (Some (map Some fs)) ->
  Forall2 (fun f ls => foreign f /\ exists g, fe_geom f = Some g /\ doc_lines g ls) fs lines ->
  (Forall (Forall (fun l => (2 <= zlen l)%Z)) lines -> exists rs, geo_Decode data x = Ret (GOk rs) /\
     Forall2 (fun fl r => imported (fst fl) (snd fl) r) (combine fs lines) rs) /\
  (~ Forall (Forall (fun l => (2 <= zlen l)%Z)) lines -> geo_Decode data x = Ret (GErr ErrInvalidRoutePath)).
Proof.
  intros E F. unfold geo_Decode. rewrite E. cbn [deref bind]. clear E. generalize 0%nat as i.
  induction F as [|f ls fs lss (Hf & g & Hg & Hl) _ IH]; intros i; cbn [map decode_features combine].
  - split; [intros _; exists []; split; [reflexivity|constructor]|intros H; exfalso; apply H; constructor].
  - destruct (IH (S i)) as (IH1 & IH2). destruct (decode_foreign x i f g ls Hf Hg Hl) as [(A & r & -> & B)|(A & ->)]; cbn [bind].
    + split.
      * intros H. inversion H as [|? ? H1 H2]; subst. destruct (IH1 H2) as (rs & -> & C). cbn [bind]. exists (r :: rs). split; [reflexivity|]. constructor; [exact B|exact C].
      * intros H. rewrite IH2; [reflexivity|]. intros H2. apply H. now constructor.
    + split; [|reflexivity]. intros H. inversion H; subst. contradiction.
Qed.

(** ** documents that panic *)
Lemma C66_null_proof x data : geo_unmarshal data = Some None -> geo_Decode (T := T) data x = Panic.
Proof. unfold geo_Decode. now intros ->. Qed.
Lemma C66_feature_proof x data fs : geo_unmarshal data = Some (Some (None :: fs)) -> geo_Decode (T := T) data x = Panic.
Proof. unfold geo_Decode. now intros ->. Qed.
Lemma C66_geometry_proof x data (f : feature T) fs : geo_unmarshal data = Some (Some (Some f :: fs)) -> foreign f -> fe_geom f = None ->
  geo_Decode data x = Panic.
Proof.
  unfold geo_Decode. intros -> (Hty & Hf) Hg. cbn [deref bind decode_features]. unfold decode_feature. cbn [deref bind]. rewrite Hty, Hg.
  change (negb ("Feature" =? "Feature")%string) with false. cbv iota. destruct (fe_props f) as [p|]; [|reflexivity].
  assert (Er : routeExists (Some p) = false). { cbn [entries_of] in Hf. unfold routeExists. destruct Hf as [Hf|Hf]; rewrite Hf; [reflexivity|]. now destruct (props_lookup p "routeID"). }
  rewrite Er. reflexivity.
Qed.
Lemma C66_restored_proof x data (f : feature T) fs l p v : geo_unmarshal data = Some (Some (Some f :: fs)) ->
  fe_type f = "Feature"%string -> fe_geom f = Some (OLineString l) -> fe_props f = Some p ->
  props_lookup p "routeID" <> None -> props_lookup p "color" <> None -> props_lookup p "tracksInfo" = Some (GArr [v]) ->
  (first_id f = None \/ first_id f = Some ""%string \/ (zlen l < 2)%Z) -> geo_Decode data x = Panic.
Proof.
  unfold geo_Decode. intros -> Hty Hg Hp H1 H2 H3 Hbad. cbn [deref bind decode_features]. unfold decode_feature. cbn [deref bind]. rewrite Hty, Hg, Hp.
  change (negb ("Feature" =? "Feature")%string) with false. cbv iota.
  assert (Er : routeExists (Some p) = true). { unfold routeExists. destruct (props_lookup p "routeID"); [|contradiction]. now destruct (props_lookup p "color"). }
  rewrite Er. cbv iota. unfold restoreRoute. rewrite H3. unfold parseGeometries. cbn [map].
  match goal with |- context [parseGeometry ?r (Some [?ti]) _ ?d] => assert (E : parseGeometry r (Some [ti]) (Some (OLineString l)) d = Panic) end.
  { cbn [parseGeometry]. unfold restore_first, RestoreTrack. destruct (Z.eqb_spec (slen (ti_id (read_trackInfo v))) 0) as [H|H]; [reflexivity|].
    assert (Hl : (zlen l < 2)%Z).
    { destruct Hbad as [Hb|[Hb|Hb]]; [| |exact Hb]; exfalso; apply H; unfold first_id, tracks_info in Hb; rewrite Hp in Hb; cbn [entries_of] in Hb; rewrite H3 in Hb;
        destruct v as [| | | | | |ol|]; try reflexivity; try discriminate Hb; cbn [read_trackInfo ti_id]; unfold obj_String; rewrite obj_get_find;
        destruct (List.find _ ol) as [[k [| | | |s| | |]]|]; try reflexivity; cbn [snd]; try discriminate Hb. injection Hb as ->. reflexivity. }
    rewrite makeSegments_err by (unfold toPoints; rewrite map_length; unfold zlen in Hl; lia). reflexivity. }
  change (zlen [read_trackInfo v] =? 1)%Z with true. cbv iota. rewrite E. reflexivity.
Qed.

(** ** an example of a clean route *)
Lemma clean_new pts uuid color t : NewTrack pts uuid color = GOk t -> (2 <= zlen pts)%Z -> Forall finite_point pts -> finite_num (tk_dist t) ->
  uuid <> ""%string -> utf8_valid uuid = true -> utf8_valid color = true -> clean_track t.
Proof.
  intros E Hl Hp Hd Hu1 Hu2 Hc. destruct (NewTrack_ok pts uuid color) as (t' & E' & A & <- & <- & An & _); [unfold zlen in Hl; lia|].
  rewrite E in E'. injection E' as <-. destruct A as (A1 & A2 & A3 & A4 & A5). unfold clean_track. rewrite A5, An.
  repeat (split; [assumption || reflexivity || (repeat split; assumption)|]).
  assert (Ep : entries_of (tk_props t) = props_Make). { unfold NewTrack in E. destruct (makeSegments pts) as [[sg dd]|]; [|discriminate]. now injection E as <-. }
  rewrite Ep. exists props_Make. intros k. reflexivity.
Qed.

Lemma clean_empty id color : utf8_valid id = true -> utf8_valid color = true -> finite_num (f0 : T) -> clean_route (NewRoute id color) /\ no_own_keys (NewRoute id color).
Proof.
  intros H1 H2 H3. split; [|intros k _; reflexivity]. split; [constructor|]. split; [exact H3|]. split; [left; reflexivity|]. split; [exact H1|]. split; [exact H2|]. split; [reflexivity|].
  exists props_Make. intros k. reflexivity.
Qed.
Lemma clean_add (r : route T) t : clean_route r /\ no_own_keys r -> clean_track t -> finite_num (rt_dist (AddTrack r (Some t))) ->
  clean_route (AddTrack r (Some t)) /\ no_own_keys (AddTrack r (Some t)).
Proof.
  intros ((A & B & C & D & E & F & P) & K) Ht Hd. split; [|exact K]. split; [cbn; apply Forall_app; split; [exact A|constructor; [exact Ht|constructor]]|]. split; [exact Hd|].
  repeat (split; [assumption|]). exact P.
Qed.
Lemma clean_track_in (t : track T) pts uuid color : NewTrack pts uuid color = GOk t -> tk_name t = ""%string /\ tk_id t = uuid.
Proof. unfold NewTrack. destruct (makeSegments pts) as [[sg dd]|]; [|discriminate]. now intros [= <-]. Qed.
End P.
