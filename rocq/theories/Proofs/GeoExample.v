(** Texts of documents that obey [geo_law]: the law is satisfiable. *)
From stdpp Require Import gmap strings countable.
From Coq Require Import Permutation Ascii.
From Verif.Model Require Import Base Num Utf8 PropMap WireMsgs Geo Pb Track Route GeoJSON.
From Verif.Spec Require Import WireSpec SnapSpec GeoJSONSpec.
From Verif.Proofs Require Import JsonExample.

Section Geo.
Context {T : Type} {N : Num T} {B : Bits64 T} (HB : bits_law T).

Definition pos_val (p : T * T) : gval T := GArr [GFloat p.1; GFloat p.2].
Definition line_val (l : list (T * T)) : gval T := GArr (map pos_val l).
Fixpoint geo_val (g : geometry T) : gval T :=
  match g with
  | OPoint p => GArr [GStr "p"; pos_val p]
  | OMultiPoint l => GArr [GStr "m"; line_val l]
  | OLineString l => GArr [GStr "l"; line_val l]
  | OMultiLineString ls => GArr [GStr "k"; GArr (map line_val ls)]
  | OPolygon ls => GArr [GStr "o"; GArr (map line_val ls)]
  | OMultiPolygon ps => GArr [GStr "n"; GArr (map (fun ls => GArr (map line_val ls)) ps)]
  | OCollection gs => GArr (map (fun o => match o with Some g => geo_val g | None => GNil end) gs)
  end.
Definition val_pos (v : gval T) : T * T := match v with GArr [GFloat x; GFloat y] => (x, y) | _ => (f0, f0) end.
Definition val_line (v : gval T) : list (T * T) := match v with GArr l => map val_pos l | _ => [] end.
Fixpoint val_geo (v : gval T) : geometry T :=
  match v with
  | GArr [GStr "l"; w] => OLineString (val_line w)
  | GArr [GStr "o"; GArr l] => OPolygon (map val_line l)
  | GArr l => OCollection (map (fun v => Some (val_geo v)) l)
  | _ => OCollection []
  end.

Lemma val_line_val l : val_line (line_val l) = l.
Proof. unfold line_val, val_line. rewrite map_map. induction l as [|[a b] l IH]; cbn in *; congruence. Qed.
Lemma val_simple g : json_simple g -> val_geo (geo_val g) = g.
Proof. destruct 1 as [l H|l H]; cbn; do 2 f_equal; try exact (val_line_val l). Qed.
Lemma val_coll gs : gs <> [] -> Forall json_simple gs -> val_geo (geo_val (OCollection (map Some gs))) = OCollection (map Some gs).
Proof.
  intros Hne H. cbn [geo_val]. rewrite map_map.
  assert (E : map (fun v => Some (val_geo v)) (map geo_val gs) = map Some gs) by (rewrite map_map; induction H as [|g gs Hg H IH]; cbn; [reflexivity|]; rewrite val_simple by exact Hg; destruct gs; [reflexivity|]; f_equal; apply IH; discriminate).
  destruct gs as [|g gs]; [contradiction|]. inversion H as [|? ? Hg _]; subst.
  transitivity (OCollection (map (fun v => Some (val_geo v)) (map geo_val (g :: gs)))); [|now rewrite E]. destruct Hg; reflexivity.
Qed.
Lemma val_geometry g : json_geometry g -> val_geo (geo_val g) = g.
Proof. intros [g' H|gs H1 H2]; [now apply val_simple|now apply val_coll]. Qed.

(** values made of strings, numbers and arrays *)
Lemma json_arr_json (l : list (gval T)) : Forall (fun v => json_of v v) l -> json_of (GArr l) (GArr l).
Proof. intros H. constructor. induction H; constructor; auto. Qed.
Lemma pos_json p : finite_pos p -> json_of (pos_val p) (pos_val p).
Proof. intros (H1 & H2). apply json_arr_json. repeat constructor; assumption. Qed.
Lemma line_json l : Forall finite_pos l -> json_of (line_val l) (line_val l).
Proof. intros H. apply json_arr_json. apply Forall_map. revert H. apply Forall_impl. apply pos_json. Qed.
Lemma simple_json g : json_simple g -> json_of (geo_val g) (geo_val g).
Proof.
  destruct 1 as [l (_ & H)|l (_ & H)]; apply line_json in H; apply json_arr_json; (apply List.Forall_cons; [constructor; reflexivity|]); (apply List.Forall_cons; [|apply List.Forall_nil]).
  - exact H.
  - apply json_arr_json. apply List.Forall_cons; [exact H|apply List.Forall_nil].
Qed.
Lemma geometry_json g : json_geometry g -> json_of (geo_val g) (geo_val g).
Proof.
  intros [g' H|gs _ H]; [now apply simple_json|]. cbn [geo_val]. rewrite map_map. apply json_arr_json. apply Forall_map. revert H. apply Forall_impl. apply simple_json.
Qed.
(** such a value has no other JSON *)
Fixpoint flat (v : gval T) : Prop := match v with GStr _ | GFloat _ => True | GArr l => (fix go l := match l with [] => True | v :: l => flat v /\ go l end) l | _ => False end.
Lemma flat_arr l : flat (GArr l) <-> Forall flat l.
Proof. cbn. induction l as [|v l IH]; [split; auto|]. rewrite IH. split; [intros (A & C); now constructor|intros H; inversion H; auto]. Qed.
Lemma flat_json v : flat v -> forall w, json_of v w -> w = v.
Proof.
  induction v as [|b|z|x|s|l IH|l IH|] using gval_ind'; intros Hf w H; try destruct Hf; try (now inversion H).
  apply flat_arr in Hf. inversion H as [| | | | |? l' F|]; subst. f_equal. clear H. revert IH Hf. induction F as [|v v' l l' Hv _ IHl]; intros IH Hf; [reflexivity|].
  inversion IH; inversion Hf; subst. f_equal; auto.
Qed.
Lemma flat_pos p : flat (pos_val p). Proof. cbn. auto. Qed.
Lemma flat_line l : flat (line_val l). Proof. apply flat_arr, Forall_map. induction l; constructor; auto. apply flat_pos. Qed.
Lemma flat_simple g : json_simple g -> flat (geo_val g).
Proof.
  destruct 1 as [l H|l H]; apply flat_arr; (apply List.Forall_cons; [exact I|]); (apply List.Forall_cons; [|apply List.Forall_nil]); [exact (flat_line l)|].
  apply flat_arr. apply List.Forall_cons; [exact (flat_line l)|apply List.Forall_nil].
Qed.
Lemma flat_geometry g : json_geometry g -> flat (geo_val g).
Proof. intros [g' H|gs _ H]; [now apply flat_simple|]. cbn [geo_val]. rewrite map_map. apply flat_arr, Forall_map. revert H. apply Forall_impl. apply flat_simple. Qed.
Lemma norm_geometry g : json_geometry g -> norm (geo_val g) = Some (geo_val g).
Proof. intros H. destruct (norm_of _ _ (geometry_json g H)) as (w & E & J). rewrite E. f_equal. exact (flat_json _ (flat_geometry g H) w J). Qed.

Lemma bad_line_val l : bad_line l -> json_bad (line_val l).
Proof.
  intros ([x y] & Hin & Hb). apply jb_arr with (pos_val (x, y)); [now apply in_map|].
  assert (D : ~ finite_num x \/ ~ finite_num y). { unfold finite_pos, finite_num in *. cbn in Hb. destruct (_ =? _)%num eqn:E1 in Hb; [right|left]; [intros F; apply Hb; auto|intros F; rewrite F in E1; discriminate]. }
  destruct D as [D|D]; (eapply jb_arr; [|constructor; exact D]); cbn; auto.
Qed.
Lemma bad_geo_val g : bad_geometry g -> json_bad (geo_val g).
Proof.
  induction 1 as [l H|ls l Hin H|gs g Hin _ IH].
  - eapply jb_arr; [right; left; reflexivity|]. now apply bad_line_val.
  - eapply jb_arr; [right; left; reflexivity|]. eapply jb_arr; [apply in_map, Hin|]. now apply bad_line_val.
  - cbn [geo_val]. eapply jb_arr; [|exact IH]. apply in_map_iff. exists (Some g). auto.
Qed.

Lemma norm_props_able (p : props T) : json_able p -> exists p', norm_props p = Some p' /\ json_props p p'.
Proof.
  intros (p' & H). unfold norm_props. destruct (decide _) as [D|D].
  - eexists. split; [reflexivity|]. intros k. specialize (H k). unfold props_lookup in *. rewrite lookup_omap.
    destruct ((p : gmap string (gval T)) !! k) as [v|] eqn:E; [|reflexivity].
    destruct H as (Hu & v' & _ & Hv). split; [exact Hu|]. destruct (norm_of v v' Hv) as (w & Ew & Hw). exists w. split; [exact Ew|exact Hw].
  - exfalso. apply D. intros k v E. specialize (H k). unfold props_lookup in H. rewrite E in H.
    destruct H as (_ & v' & _ & Hv). destruct (norm_of v v' Hv) as (w & Ew & _). now exists w.
Qed.
Lemma norm_props_unable (p : props T) : json_unable p -> norm_props p = None.
Proof.
  intros (k & v & E & Hb). unfold norm_props. destruct (decide _) as [D|D]; [|reflexivity].
  exfalso. destruct (D k v E) as [w Ew]. rewrite (norm_bad v Hb) in Ew. discriminate.
Qed.

Definition text_feature : Type := string * option (gval T) * option (gmap string (gval T)).
Definition norm_feature (f : feature T) : option text_feature :=
  match match fe_geom f with None => Some None | Some g => option_map Some (norm (geo_val g)) end,
        match fe_props f with None => Some None | Some p => option_map Some (norm_props p) end with
  | Some a, Some b => Some (fe_type f, a, b)
  | _, _ => None
  end.
Definition back_feature (x : text_feature) : feature T := mkFeature x.1.1 (option_map val_geo x.1.2) x.2.
Fixpoint norm_features (fs : list (feature T)) : option (list text_feature) :=
  match fs with
  | [] => Some []
  | f :: fs => match norm_feature f, norm_features fs with Some a, Some l => Some (a :: l) | _, _ => None end
  end.


#[local] Instance gval_dec : EqDecision (gval T) := gval_eq_dec HB.
#[local] Instance gval_ctb : Countable (gval T) := gval_countable HB.
Definition ExampleGeo : GeoLib T := {|
  geo_marshal fs := option_map (fun l : list text_feature => digits (encode l)) (norm_features fs);
  geo_unmarshal b := if String.eqb b "null" then Some None else option_map (fun l => Some (map (fun x => Some (back_feature x)) l)) (decode (A := list text_feature) (undigits b)) |}.

Lemma norm_feature_able f : able_feature f -> exists x, norm_feature f = Some x /\ same_feature f (back_feature x).
Proof.
  intros (_ & (g & Eg & Hg) & (p & Ep & Hp)). unfold norm_feature. rewrite Eg, Ep, (norm_geometry g Hg).
  destruct (norm_props_able p Hp) as (p' & E & J). rewrite E. cbn. eexists. split; [reflexivity|]. split; [reflexivity|]. cbn. split; [rewrite Eg, val_geometry by exact Hg; reflexivity|].
  exists p, p'. auto.
Qed.
Lemma norm_features_able fs : Forall able_feature fs -> exists l, norm_features fs = Some l /\ Forall2 same_feature fs (map back_feature l).
Proof.
  induction 1 as [|f fs Hf _ (l & E & F)]; [exists []; split; [reflexivity|constructor]|]. cbn.
  destruct (norm_feature_able f Hf) as (x & Ex & Sx). rewrite Ex, E. exists (x :: l). split; [reflexivity|]. constructor; [exact Sx|exact F].
Qed.

Lemma ExampleGeo_law : @geo_law T N ExampleGeo.
Proof.
  constructor.
  - intros fs H. destruct (norm_features_able fs H) as (l & E & F). cbn. rewrite E. cbn. eexists. exists (map back_feature l). split; [reflexivity|].
    assert (Hn : forall q, String.eqb (digits q) "null" = false) by (intros [q|q|]; reflexivity). rewrite Hn, undigits_digits, decode_encode. cbn. rewrite map_map. auto.
  - intros fs f Hin Hu. cbn. assert (E : norm_features fs = None); [|now rewrite E].
    assert (Ef : norm_feature f = None).
    { unfold norm_feature. destruct Hu as [(g & -> & Hg)|(p & -> & Hp)].
      - rewrite (norm_bad _ (bad_geo_val g Hg)). reflexivity.
      - rewrite (norm_props_unable p Hp). cbn. now destruct (match fe_geom f with None => _ | Some _ => _ end). }
    induction fs as [|f' fs IH]; [destruct Hin|]. cbn. destruct Hin as [->|Hin]; [now rewrite Ef|]. rewrite (IH Hin). now destruct (norm_feature f').
Qed.
End Geo.
