(** Texts of GPX documents that obey [gpx_law]: the law is satisfiable. *)
From stdpp Require Import gmap strings countable.
From Coq Require Import Permutation Ascii.
From Verif.Model Require Import Base Num Utf8 PropMap WireMsgs Geo Pb Track Route GPX.
From Verif.Spec Require Import ListSpec TrackSpec WireSpec SnapSpec GeoJSONSpec GPXSpec.
From Verif.Proofs Require Import TrackLemmas GPXProofs JsonExample GeoExample.
#[local] Arguments String.append : simpl nomatch.

Section Gpx.
Context {T : Type} {N : Num T} {B : Bits64 T} (HB : bits_law T).

Fixpoint node_val (n : xnode) : gval T :=
  match n with XNode n a d l => GArr [GStr n; GArr (map (fun kv => GArr [GStr kv.1; GStr kv.2]) a); GStr d; GArr (map node_val l)] end.
Definition val_attr (v : gval T) : string * string := match v with GArr [GStr k; GStr w] => (k, w) | _ => (""%string, ""%string) end.
Fixpoint val_node (v : gval T) : xnode :=
  match v with
  | GArr [GStr n; GArr a; GStr d; GArr l] => XNode n (map val_attr a) d (map val_node l)
  | _ => XNode "" [] "" []
  end.
Lemma xnode_ind' (P : xnode -> Prop) : (forall n a d l, Forall P l -> P (XNode n a d l)) -> forall x, P x.
Proof. intros H. fix go 1. intros [n a d l]. apply H. induction l as [|x l IH]; constructor; [apply go|exact IH]. Qed.
Lemma val_node_val x : val_node (node_val x) = x.
Proof.
  induction x as [n a d l IH] using xnode_ind'. cbn. f_equal.
  - rewrite map_map. clear. induction a as [|[k w] a IH]; cbn in *; congruence.
  - rewrite map_map. induction IH; cbn; congruence.
Qed.
Lemma same_node_refl x : same_node x x.
Proof.
  induction x as [n a d l IH] using xnode_ind'. destruct l as [|y l]; [constructor|]. constructor. induction IH; constructor; auto.
Qed.

Definition lines_val (l : list (list (T * T))) : gval T := GArr (map line_val l).
Definition val_lines (v : gval T) : list (list (T * T)) := match v with GArr l => map val_line l | _ => [] end.
Lemma val_lines_val l : val_lines (lines_val l) = l.
Proof. unfold lines_val, val_lines. rewrite map_map. induction l as [|p l IH]; [reflexivity|]. cbn [map]. rewrite val_line_val, IH. reflexivity. Qed.

(** a document and an optional error, as a value *)
Definition doc_val (d : gpxdoc T) : gval T :=
  GArr [GArr (map lines_val (gx_tracks d)); lines_val (gx_routes d); line_val (gx_waypoints d); GArr (map node_val (gx_ext d))].
Definition val_doc (v : gval T) : option (gpxdoc T) :=
  match v with GArr [GArr t; r; w; GArr e] => Some (mkGpx (map val_lines t) (val_lines r) (val_line w) (map val_node e)) | _ => None end.
Lemma val_doc_val d : val_doc (doc_val d) = Some d.
Proof.
  destruct d as [t r w e]. unfold doc_val, val_doc. cbn [gx_tracks gx_routes gx_waypoints gx_ext lines_val line_val]. f_equal. f_equal.
  - rewrite map_map. induction t as [|p t IH]; [reflexivity|]. cbn [map]. rewrite val_lines_val, IH. reflexivity.
  - exact (val_lines_val r).
  - exact (val_line_val w).
  - rewrite map_map. induction e as [|p e IH]; [reflexivity|]. cbn [map]. rewrite val_node_val, IH. reflexivity.
Qed.

#[local] Instance gval_dec : EqDecision (gval T) := gval_eq_dec HB.
#[local] Instance gval_ctb : Countable (gval T) := gval_countable HB.
Definition ExampleGpx : GpxLib T := {|
  gpx_toxml d := Some (digits (encode (doc_val d)));
  gpx_parse b := match decode (A := gval T) (undigits b) with Some v => val_doc v | None => None end;
  f2s _ := ""%string;
  fmt_float x := String "x" (digits (encode (to_bits x)));
  fmt_other _ := ""%string;
  parse_float s := match s with String "x" r => option_map of_bits (decode (undigits r)) | _ => None end |}.
Definition ExampleCarrier : carrier T := mkCarrier (fun _ => True) (fun _ => True) (fun x => x).

Lemma ExampleGpx_parse d b : gpx_toxml (GpxLib := ExampleGpx) d = Some b -> gpx_parse (GpxLib := ExampleGpx) b = Some d.
Proof. intros [= <-]. cbn. rewrite undigits_digits, decode_encode. apply val_doc_val. Qed.
Lemma x_no_int r z : ~ int64_text (String "x" r) z.
Proof.
  intros (_ & sg & q & E & Hq & Hd & [[[->| ->] _]|[-> _]]); cbn in E; try discriminate. subst q. cbn in Hd. destruct Hd as (Hx & _). vm_compute in Hx. now destruct Hx as (_ & Hx).
Qed.
Lemma ExampleGpx_law : @gpx_law T N ExampleGpx ExampleCarrier.
Proof.
  constructor.
  - intros ts ns _. exists (digits (encode (doc_val (mkGpx ts [] [] [XNode "gpsgen" [] "" ns])))). eexists. split; [reflexivity|]. split; [destruct (digits_nonempty (encode (doc_val (mkGpx ts [] [] [XNode "gpsgen" [] "" ns])))) as (c & s & ->); discriminate|].
    split; [apply (ExampleGpx_parse _ _ eq_refl)|]. split; [|split; [reflexivity|split; [reflexivity|]]].
    + cbn [gx_tracks]. assert (E : forall l : list (T * T), map (coords ExampleCarrier) l = l) by (induction l as [|[a b] l IH]; [reflexivity|]; cbn [map]; rewrite IH; reflexivity).
      rewrite <- (map_id ts) at 1. apply map_ext. intros l. rewrite <- (map_id l) at 1. apply map_ext. intros q. now rewrite E.
    + constructor; [apply same_node_refl|constructor].
  - intros; exact I.
  - intros; exact I.
  - intros; exact I.
  - intros; exact I.
  - intros x _. right. split; [|split].
    + intros z. apply x_no_int.
    + cbn. intros H. repeat destruct H as [H|H]; try discriminate; exact H.
    + cbn. rewrite undigits_digits, decode_encode. cbn. f_equal. apply HB.
Qed.

(** ** routes and documents *)
#[local] Existing Instance ExampleGpx.
Lemma word_of s : ParseInt s = None -> ~ In s bool_texts -> parse_float s = None -> word s.
Proof. intros H1 H2 H3. split; [|split; [exact H2|exact H3]]. intros z H. apply ParseInt_ok in H. congruence. Qed.
Lemma r1_word : word "r1".
Proof. apply word_of; [reflexivity| |reflexivity]. cbn. intros H. repeat destruct H as [H|H]; try discriminate; exact H. Qed.
Lemma oslo_word : word "Oslo".
Proof. apply word_of; [reflexivity| |reflexivity]. cbn. intros H. repeat destruct H as [H|H]; try discriminate; exact H. Qed.
Lemma color_word : word "#111".
Proof. apply word_of; [reflexivity| |reflexivity]. cbn. intros H. repeat destruct H as [H|H]; try discriminate; exact H. Qed.
Lemma not_word : ~ word "42".
Proof. intros (H & _). apply (H 42%Z). apply ParseInt_ok. reflexivity. Qed.

Section Pts.
Context (l : list (point T)) (Hl : (2 <= zlen l)%Z).
Lemma ex_track id : id <> ""%string -> exists t, NewTrack l id "#111" = GOk t /\ gpx_track ExampleCarrier t /\ gpx_plain_track ExampleCarrier t /\ tk_props t = None.
Proof using Hl.
  intros Hid. destruct (NewTrack_ok l id "#111") as (t & E & A & B1 & B2 & B3 & _); [unfold zlen in Hl; lia|]. exists t. split; [exact E|].
  assert (Q : polyline_of t = l) by apply A. assert (P0 : tk_props t = None). { unfold NewTrack in E. destruct (makeSegments l) as [[sg dd]|]; [|discriminate]. injection E as <-. reflexivity. }
  split; [|split; [|exact P0]].
  - unfold gpx_track. rewrite Q, B1, B2, B3. split; [exact Hl|]. split; [exact A|]. split; [exact I|]. split; [exact Hid|]. split; [exact I|]. split; [exact I|]. left. reflexivity.
  - split; [rewrite B2; right; apply color_word|]. split; [left; exact B3|]. split; [rewrite P0; intros k; reflexivity|]. apply List.Forall_forall. intros p _. split; reflexivity.
Qed.
Definition ex_route (id : string) (t : track T) : route T := AddTrack (route_setProps (NewRoute id "#111") (props_Set props_Make "city" (GStr "Oslo"))) (Some t).
Lemma ex_get id t k : props_lookup (entries_of (rt_props (ex_route id t))) k = if String.eqb k "city" then Some (GStr "Oslo") else None.
Proof. unfold ex_route. cbn. unfold props_lookup, props_Set, props_Make. destruct (String.eqb_spec k "city") as [->|E]; [apply lookup_insert|]. rewrite lookup_insert_ne by congruence. apply lookup_empty. Qed.
Lemma ex_ok id t : gpx_track ExampleCarrier t -> gpx_route ExampleCarrier (ex_route id t) /\ gpx_no_own_keys (ex_route id t).
Proof.
  intros Ht. split.
  - split; [cbn; constructor; [exact Ht|constructor]|]. split; [exact I|]. split; [exact I|]. split; [exact I|]. split; [left; reflexivity|].
    intros k v. rewrite ex_get. destruct (String.eqb_spec k "city") as [->|E]; [|discriminate]. intros [= <-]. split; [|constructor; exact I].
    split; [eexists _, _; split; [reflexivity|right; vm_compute; split; discriminate]|]. split; [discriminate|]. cbn [every]. repeat (split; [left; right; vm_compute; split; discriminate|]). exact I.
  - intros k Hk. rewrite ex_get. destruct (String.eqb_spec k "city") as [->|E]; [|reflexivity]. exfalso. cbn in Hk. repeat destruct Hk as [Hk|Hk]; try discriminate; exact Hk.
Qed.
Lemma gpx_example : exists r1 r2 : route T, Forall (fun r => gpx_route ExampleCarrier r /\ gpx_no_own_keys r) [r1; r2] /\
  gpx_plain ExampleCarrier r1 /\ has_track r1 = true /\ props_lookup (entries_of (rt_props r1)) "city" = Some (GStr "Oslo") /\
  has_track r2 = true /\ ~ word (rt_id r2).
Proof using Hl.
  destruct (ex_track "t") as (t & E & A & P & P0); [discriminate|]. exists (ex_route "r1" t), (ex_route "42" t).
  split; [constructor; [now apply ex_ok|constructor; [now apply ex_ok|constructor]]|]. split.
  - split; [exact r1_word|]. split; [right; apply color_word|]. split; [left; reflexivity|]. split; [constructor; [exact P|constructor]|].
    intros k v. rewrite ex_get. destruct (String.eqb k "city"); [|discriminate]. intros [= <-]. exact oslo_word.
  - split; [reflexivity|]. split; [rewrite ex_get; reflexivity|]. split; [reflexivity|exact not_word].
Qed.
Lemma gpx_track_example : exists r : route T, gpx_route ExampleCarrier r /\ gpx_no_own_keys r /\ word (rt_id r) /\
  exists t, In t (rt_tracks r) /\ props_lookup (entries_of (tk_props t)) "k" <> None.
Proof using Hl.
  destruct (ex_track "t") as (t & E & A & P & P0); [discriminate|].
  set (t1 := track_setProps t (props_Set props_Make "k" (GStr "v"))). assert (A1 : gpx_track ExampleCarrier t1) by exact A.
  exists (ex_route "r1" t1). split; [now apply ex_ok|]. split; [now apply ex_ok|]. split; [exact r1_word|]. exists t1. split; [left; reflexivity|].
  cbn. unfold props_lookup, props_Set. rewrite lookup_insert. discriminate.
Qed.
End Pts.

Lemma gpx_doc_example (l : list (T * T)) : (2 <=? zlen l)%Z = true -> exists b1 b2 d1 d2, b1 <> ""%string /\ b2 <> ""%string /\ gpx_parse b1 = Some d1 /\ gpx_parse b2 = Some d2 /\ not_ours d1 /\ not_ours d2 /\
  gpx_lines d1 [[l]; [l]] /\ gx_tracks d2 = [[l]] /\ gx_routes d2 = [l] /\ gx_waypoints d2 = l /\
  forall x, exists rs, gpx_Decode b2 x = Ret (GOk rs).
Proof.
  intros Hl. apply Z.leb_le in Hl. assert (Hl' : (2 <= List.length l)%nat) by (unfold zlen in Hl; lia). set (d1 := mkGpx [] [l; l] [] [] : gpxdoc T). set (d2 := mkGpx [[l]] [l] l [] : gpxdoc T).
  assert (Hn : forall p, digits p <> ""%string) by (intros p; destruct (digits_nonempty p) as (c & s & ->); discriminate).
  exists (digits (encode (doc_val d1))), (digits (encode (doc_val d2))), d1, d2. split; [apply Hn|]. split; [apply Hn|].
  assert (E1 := ExampleGpx_parse d1 _ eq_refl). assert (E2 := ExampleGpx_parse d2 _ eq_refl). split; [exact E1|]. split; [exact E2|]. split; [discriminate|]. split; [discriminate|].
  split; [apply (gl_routes l [l] [])|]. split; [reflexivity|]. split; [reflexivity|]. split; [reflexivity|]. intros x. rewrite (Decode_foreign _ x d2 (Hn _) E2 ltac:(discriminate)).
  unfold foreign_routes. cbn [d2 gx_routes gx_tracks gx_waypoints map].
  assert (H : forall k, exists rs, new_routes x k 0 [[l]] = GOk rs). { intros k. destruct (new_routes_ok x k [[l]] 0) as [(_ & rs & E & _)|(A & _)]; [eauto|]. exfalso. apply A. repeat constructor. exact Hl. }
  destruct (H 0%nat) as (l0 & ->). destruct (H 1%nat) as (l1 & ->). destruct l as [|p l]; [cbn in Hl'; lia|]. destruct (H 2%nat) as (l2 & ->). eauto.
Qed.
End Gpx.
