(** C59, C65. *)
From Coq Require Import Ascii Reals Lra Lia.
From Flocq Require Import Core BinarySingleNaN.
From Verif.Model Require Import Base Num NumR NumF64 Geo PropMap Pb Track Route RandomRoute.
From Verif.Spec Require Import ListSpec TrackSpec RandomSpec.
From Verif.Spec Require Import CountriesSpec.
From Verif.Proofs Require Import BaseLemmas TrackLemmas TrackRouteProofs F64Lemmas CountriesProofs.

(** ** names *)
Lemma charset_ok : forallb (fun i => match String.get i charset with
    | Some c => let n := nat_of_ascii c in ((48 <=? n) && (n <=? 57) || (65 <=? n) && (n <=? 90) || (97 <=? n) && (n <=? 122))%nat
    | None => false end) (seq 0 62) = true.
Proof. vm_compute. reflexivity. Qed.

Lemma charset_get i : (i < 62)%nat -> exists c, String.get i charset = Some c /\ alphanumeric c.
Proof.
  intros H. pose proof charset_ok as Q. rewrite forallb_forall in Q. specialize (Q i (proj2 (in_seq _ _ _) (conj (Nat.le_0_l _) H))).
  destruct (String.get i charset) as [c|]; [|discriminate]. exists c. split; [reflexivity|]. unfold alphanumeric. cbv zeta in *.
  rewrite !orb_true_iff, !andb_true_iff, !Nat.leb_le in Q. lia.
Qed.

Lemma draw_bytes_ok n : intn_draws n -> forall count i, exists s, draw_bytes n i count = Ret s /\ String.length s = count /\ all_chars alphanumeric s.
Proof.
  intros H. induction count as [|count IH]; intros i; cbn [draw_bytes]; [exists EmptyString; repeat constructor|].
  pose proof (H i) as Hi. destruct (Z.ltb_spec (n i) 0); [lia|].
  destruct (charset_get (Z.to_nat (n i))) as (c & E & A); [lia|]. rewrite E. cbn [deref bind].
  destruct (IH (S i)) as (s & E1 & E2 & E3). rewrite E1. cbn [bind]. exists (String c s). split; [reflexivity|].
  split; [cbn; congruence|now constructor].
Qed.

Lemma random_String_ok n : intn_draws n -> exists s, random_String 8 n = Ret s /\ String.length s = 8%nat /\ all_chars alphanumeric s.
Proof. intros H. exact (draw_bytes_ok n H 8 0). Qed.

Lemma string_app_length (a b : string) : String.length (a ++ b)%string = (String.length a + String.length b)%nat.
Proof. induction a as [|c a IH]; [reflexivity|exact (f_equal S IH)]. Qed.

Lemma parse_prefix prefix s : String.length prefix = 6%nat -> String.length s = 8%nat -> ParseName (prefix ++ s) = GOk (prefix ++ s)%string.
Proof.
  intros H1 H2. unfold ParseName, slen.
  assert (L : String.length (prefix ++ s) = 14%nat).
  { rewrite string_app_length. lia. }
  rewrite L. reflexivity.
Qed.

Section P.
Context {T : Type} {N : Num T}.

Lemma offsets_from_length f : forall count prev i, List.length (offsets_from f prev i count) = count.
Proof. induction count; intros; cbn; auto. Qed.
Lemma offsets_length f count : List.length (offsets f count) = count.
Proof. destruct count; cbn; auto. now rewrite offsets_from_length. Qed.
Lemma corners_length zoom last e : forall l i, List.length (corners zoom last e i l) = List.length l.
Proof. induction l; intros; cbn; auto. Qed.
Lemma corners_nth zoom last e : forall l i j o, nth_error l j = Some o -> nth_error (corners zoom last e i l) j = Some (corner zoom o last (e (i + j)%nat)).
Proof.
  induction l as [|x l IH]; intros i [|j] o H; cbn in *; try discriminate.
  - injection H as ->. now rewrite Nat.add_0_r.
  - rewrite (IH (S i) j o H). do 3 f_equal. lia.
Qed.

(** the zoom used *)
Definition zoomed (zoom : T) : T :=
  let zoom := if flt zoom f0 then f0 else zoom in if flt (fofZ 1000) zoom then fofZ 1000 else zoom.

Lemma Polygon_ok points zoom f e : (1 <= points)%Z -> exists last c0 cs,
  nth_error (offsets f (Z.to_nat points)) (Z.to_nat points - 1) = Some last /\
  corners (zoomed zoom) last e 0 (offsets f (Z.to_nat points)) = c0 :: cs /\
  Polygon points zoom f e = Ret (c0 :: cs ++ [c0]).
Proof.
  intros H. unfold Polygon. destruct (Z.ltb_spec points 0); [lia|]. cbv zeta. fold (zoomed zoom).
  set (os := offsets f (Z.to_nat points)). assert (L : List.length os = Z.to_nat points) by apply offsets_length.
  destruct (nth_error os (Z.to_nat points - 1)) as [last|] eqn:E; [|apply nth_error_None in E; lia].
  assert (E2 : zget os (zlen os - 1) = Some last).
  { unfold zget, zlen. rewrite L. destruct (Z.ltb_spec (Z.of_nat (Z.to_nat points) - 1) 0); [lia|]. rewrite <- E. f_equal. lia. }
  rewrite E2. cbn [deref bind]. pose proof (corners_length (zoomed zoom) last e os 0) as LC.
  destruct (corners (zoomed zoom) last e 0 os) as [|c0 cs] eqn:C; [cbn in LC; lia|].
  exists last, c0, cs. auto.
Qed.

Lemma Polygon_zero zoom f e : Polygon 0 zoom f e = Panic.
Proof. reflexivity. Qed.

Lemma rename_through pts (t : track T) s : is_track_through pts t -> is_track_through pts (snd (track_ChangeName t s)).
Proof. intros H. unfold track_ChangeName. destruct (ParseName s); exact H. Qed.

Lemma random_track_ok lon0 lat0 level (x : trackDraws T) : intn_draws (td_name x) -> exists t,
  random_track lon0 lat0 level x = Ret t /\ random_name "Track-" (tk_name t) /\ tk_id t = td_uuid x /\ tk_color t = td_color x /\
  random_loop t /\
  exists last c0 cs, nth_error (offsets (td_float x) 16) 15 = Some last /\
    corners (zoomed (fofZ level)) last (td_exp x) 0 (offsets (td_float x) 16) = c0 :: cs /\
    polyline_of t = NormalizeCoordinates lat0 lon0 (c0 :: cs ++ [c0]) /\ tk_isClosed t = isClosed (NormalizeCoordinates lat0 lon0 (c0 :: cs ++ [c0])).
Proof.
  intros Hn. unfold random_track.
  destruct (Polygon_ok 16 (fofZ level) (td_float x) (td_exp x)) as (last & c0 & cs & E1 & E2 & E3); [lia|].
  rewrite E3. cbn [bind]. change (Z.to_nat 16) with 16%nat in *.
  set (pts := NormalizeCoordinates lat0 lon0 (c0 :: cs ++ [c0])).
  assert (Lc : List.length cs = 15%nat).
  { pose proof (corners_length (zoomed (fofZ level)) last (td_exp x) (offsets (td_float x) 16) 0) as L.
    rewrite E2, offsets_length in L. cbn in L. lia. }
  assert (Lp : (2 <= List.length pts)%nat).
  { unfold pts, NormalizeCoordinates. rewrite map_length. cbn. rewrite app_length, Lc. cbn. lia. }
  destruct (NewTrack_ok pts (td_uuid x) (td_color x) Lp) as (t & A1 & A2 & A3 & A4 & A5 & A6). rewrite A1.
  destruct (random_String_ok _ Hn) as (s & S1 & S2 & S3). rewrite S1. cbn [bind].
  pose proof (NewTrack_isClosed _ _ _ _ A1) as Cl.
  eexists. split; [reflexivity|].
  pose proof (rename_through pts t ("Track-" ++ s) A2) as A2'.
  assert (Ec : tk_isClosed (snd (track_ChangeName t ("Track-" ++ s))) = isClosed pts).
  { rewrite <- Cl. unfold track_ChangeName. destruct (ParseName _); reflexivity. }
  assert (En : tk_name (snd (track_ChangeName t ("Track-" ++ s))) = ("Track-" ++ s)%string).
  { unfold track_ChangeName. rewrite parse_prefix by auto. reflexivity. }
  split; [rewrite En; exists s; auto|].
  split; [unfold track_ChangeName; destruct (ParseName _); exact A3|].
  split; [unfold track_ChangeName; destruct (ParseName _); exact A4|].
  assert (Ep : pts = mkPoint (fadd (fst c0) lat0) (fadd (snd c0) lon0) :: NormalizeCoordinates lat0 lon0 cs ++ [mkPoint (fadd (fst c0) lat0) (fadd (snd c0) lon0)]).
  { unfold pts, NormalizeCoordinates. cbn [map]. rewrite map_app. reflexivity. }
  split.
  - exists (mkPoint (fadd (fst c0) lat0) (fadd (snd c0) lon0)), (NormalizeCoordinates lat0 lon0 cs).
    rewrite <- Ep. split; [exact A2'|]. assert (Lm : List.length (NormalizeCoordinates lat0 lon0 cs) = 15%nat) by (unfold NormalizeCoordinates; now rewrite map_length).
    split; [exact Lm|]. split.
    + destruct A2' as (_ & _ & A & _). rewrite A. rewrite Ep. unfold zlen. cbn [List.length]. rewrite app_length, Lm. reflexivity.
    + intros NN. rewrite Ec. apply isClosed_spec. destruct NN as (N1 & N2). rewrite Ep. eexists _, _, _. split; [reflexivity|]. split; [lia|auto].
  - exists last, c0, cs. split; [exact E1|]. split; [exact E2|]. split; [apply A2'|exact Ec].
Qed.

(** the tracks of a random route, one by one *)
Lemma random_tracks_ok lon0 lat0 level (x : nat -> trackDraws T) : (forall i, intn_draws (td_name (x i))) ->
  forall count i r, exists r' ts, random_tracks lon0 lat0 level x i count r = Ret r' /\
    rt_tracks r' = rt_tracks r ++ ts /\ List.length ts = count /\ rt_id r' = rt_id r /\ rt_color r' = rt_color r /\ rt_name r' = rt_name r /\
    (forall j t, nth_error ts j = Some t -> random_track lon0 lat0 level (x (i + j)%nat) = Ret t).
Proof.
  intros Hn. induction count as [|count IH]; intros i r; cbn [random_tracks].
  - exists r, []. rewrite app_nil_r. repeat split; auto. intros [|j] t H; discriminate.
  - destruct (random_track_ok lon0 lat0 level (x i) (Hn i)) as (t & E & _). rewrite E. cbn [bind].
    destruct (IH (S i) (AddTrack r (Some t))) as (r' & ts & A1 & A2 & A3 & A4 & A5 & A6 & A7).
    exists r', (t :: ts). split; [exact A1|]. split; [rewrite A2; cbn; rewrite <- app_assoc; reflexivity|].
    split; [cbn; congruence|]. split; [exact A4|]. split; [exact A5|]. split; [exact A6|].
    intros [|j] t' H; cbn in H; [injection H as <-; now rewrite Nat.add_0_r|].
    replace (i + S j)%nat with (S i + j)%nat by lia. now apply A7.
Qed.

Lemma RandomRoute_ok lon0 lat0 n level uuid color nd (x : nat -> trackDraws T) : intn_draws nd -> (forall i, intn_draws (td_name (x i))) ->
  exists r, RandomRoute lon0 lat0 n level uuid color nd x = Ret r /\ rt_id r = uuid /\ rt_color r = color /\ random_name "Route-" (rt_name r) /\
    NumTracks r = tracks_wanted n /\
    forall j t, nth_error (rt_tracks r) j = Some t -> random_track lon0 lat0 (clamped level) (x j) = Ret t.
Proof.
  intros Hn Hx. unfold RandomRoute. fold (tracks_wanted n).
  assert (El : (if (600 <? (if (level <? 10)%Z then 10 else level))%Z then 600 else if (level <? 10)%Z then 10 else level)%Z = clamped level).
  { unfold clamped. destruct (Z.ltb_spec level 10), (Z.ltb_spec 600 level); cbn; try lia; destruct (Z.ltb_spec 600 level); lia. }
  cbv zeta. rewrite El. destruct (random_String_ok nd Hn) as (s & S1 & S2 & S3). rewrite S1. cbn [bind].
  destruct (random_tracks_ok lon0 lat0 (clamped level) x Hx (Z.to_nat (tracks_wanted n)) 0 (snd (route_ChangeName (NewRoute uuid color) ("Route-" ++ s)))) as (r & ts & A1 & A2 & A3 & A4 & A5 & A6 & A7).
  exists r. unfold route_ChangeName in *. rewrite parse_prefix in * by auto. cbn in A2, A4, A5, A6.
  split; [exact A1|]. split; [exact A4|]. split; [exact A5|]. split; [rewrite A6; exists s; auto|]. split.
  - unfold NumTracks, zlen. rewrite A2, A3. unfold tracks_wanted. destruct (Z.ltb_spec n 0); lia.
  - intros j t H. rewrite A2 in H. exact (A7 j t H).
Qed.

Lemma C59_proof lon0 lat0 n level uuid color nd (x : nat -> trackDraws T) : intn_draws nd -> (forall i, intn_draws (td_name (x i))) ->
  exists r, RandomRoute lon0 lat0 n level uuid color nd x = Ret r /\ rt_id r = uuid /\ rt_color r = color /\ random_name "Route-" (rt_name r) /\
    NumTracks r = tracks_wanted n /\
    forall j t, nth_error (rt_tracks r) j = Some t -> random_name "Track-" (tk_name t) /\ tk_id t = td_uuid (x j) /\ tk_color t = td_color (x j) /\ random_loop t.
Proof.
  intros Hn Hx. destruct (RandomRoute_ok lon0 lat0 n level uuid color nd x Hn Hx) as (r & A1 & A2 & A3 & A4 & A5 & A6).
  exists r. do 5 (split; [assumption|]). intros j t H. apply A6 in H.
  destruct (random_track_ok lon0 lat0 (clamped level) (x j) (Hx j)) as (t' & B1 & B2 & B3 & B4 & B5 & _). rewrite B1 in H. injection H as <-. auto.
Qed.
End P.

(** ** the reals *)
Open Scope R_scope.

Lemma zoomed_R level : zoomed (IZR (clamped level)) = IZR (clamped level).
Proof.
  assert (B : (10 <= clamped level <= 600)%Z) by (unfold clamped; lia).
  unfold zoomed. cbn [flt RNum fofZ f0]. unfold f0. cbn [fofZ RNum].
  assert (E1 : Rlt_bool (IZR (clamped level)) 0 = false) by (apply Rlt_bool_false, IZR_le; lia).
  assert (E2 : Rlt_bool 1000 (IZR (clamped level)) = false) by (apply Rlt_bool_false, IZR_le; lia).
  cbv zeta. rewrite !E1. now rewrite E2.
Qed.

Lemma corner_R level o last e : let c := corner (IZR (clamped level)) o last e in
  let a := o * 6 * ((1 + sqrt 5) / 2) / last in
  fst c = corner_radius level e * sin a /\ snd c = corner_radius level e * cos a.
Proof.
  assert (B : (10 <= clamped level <= 600)%Z) by (unfold clamped; lia).
  unfold corner, corner_radius, randFactor, minFactor, maxFactor, f0. cbn [flt RNum fofZ fdec fadd fsub fmul fdiv fsin fcos c_phi].
  rewrite Rlt_bool_true by (apply IZR_lt; lia). cbn [fst snd]. split; field.
Qed.

Lemma on_circle_of lon0 lat0 r a p : lat p = r * sin a + lat0 -> lon p = r * cos a + lon0 -> on_circle lon0 lat0 r p.
Proof.
  intros E1 E2. unfold on_circle. rewrite E1, E2. pose proof (sin2_cos2 a) as H. unfold Rsqr in H.
  replace ((r * sin a + lat0 - lat0) ^ 2 + (r * cos a + lon0 - lon0) ^ 2) with (r ^ 2 * (sin a * sin a + cos a * cos a)) by ring.
  rewrite H. ring.
Qed.

(** the points of a random track: corners 0 to 15, and the first one again *)
Lemma track_points lon0 lat0 level (x : trackDraws R) t : intn_draws (td_name x) ->
  random_track lon0 lat0 (clamped level) x = Ret t ->
  exists last, nth_error (offsets (td_float x) 16) 15 = Some last /\
  forall j p, nth_error (polyline_of t) j = Some p ->
    let k := if (j =? 16)%nat then 0%nat else j in
    (k < 16)%nat /\ exists o, nth_error (offsets (td_float x) 16) k = Some o /\
    let a := o * 6 * ((1 + sqrt 5) / 2) / last in
    lat p = corner_radius level (td_exp x k) * sin a + lat0 /\ lon p = corner_radius level (td_exp x k) * cos a + lon0.
Proof.
  intros Hn Ht. destruct (random_track_ok lon0 lat0 (clamped level) x Hn) as (t' & B1 & _ & _ & _ & _ & last & c0 & cs & E1 & E2 & E3 & _).
  rewrite Ht in B1. injection B1 as <-. exists last. split; [exact E1|]. intros j p H k. rewrite E3 in H.
  change (fofZ (clamped level)) with (IZR (clamped level)) in E2. rewrite zoomed_R in E2.
  assert (Lo : List.length (offsets (td_float x) 16) = 16%nat) by apply offsets_length.
  assert (Lc : List.length cs = 15%nat).
  { pose proof (corners_length (IZR (clamped level)) last (td_exp x) (offsets (td_float x) 16) 0) as L. rewrite E2, Lo in L. cbn in L. lia. }
  unfold NormalizeCoordinates in H. rewrite nth_error_map in H.
  destruct (nth_error (c0 :: cs ++ [c0]) j) as [q|] eqn:Q; [|discriminate]. cbn in H. injection H as <-.
  assert (Hk : (k < 16)%nat /\ nth_error (c0 :: cs) k = Some q).
  { unfold k. destruct (Nat.eqb_spec j 16) as [->|Hj].
    - split; [lia|]. change (nth_error (cs ++ [c0]) 15 = Some q) in Q. rewrite nth_error_app2, Lc in Q by lia. exact Q.
    - assert (j < 17)%nat. { assert (A : nth_error (c0 :: cs ++ [c0]) j <> None) by congruence. apply nth_error_Some in A. cbn in A. rewrite app_length, Lc in A. cbn in A. lia. }
      split; [lia|]. destruct j as [|j]; [exact Q|]. cbn [nth_error] in *. rewrite nth_error_app1 in Q by lia. exact Q. }
  destruct Hk as (Hk & Q'). split; [exact Hk|]. destruct (nth_error (offsets (td_float x) 16) k) as [o|] eqn:O; [|apply nth_error_None in O; lia].
  exists o. split; [reflexivity|]. pose proof (corners_nth (IZR (clamped level)) last (td_exp x) _ 0 k o O) as C. rewrite E2, Q' in C. cbn [Nat.add] in C.
  injection C as ->. destruct (corner_R level o last (td_exp x k)) as (A & B). cbn [lat lon fadd RNum]. rewrite A, B. auto.
Qed.

Lemma C59_circle_proof lon0 lat0 n level uuid color nd (x : nat -> trackDraws R) r : intn_draws nd -> (forall i, intn_draws (td_name (x i))) ->
  RandomRoute lon0 lat0 n level uuid color nd x = Ret r ->
  forall i t j p, nth_error (rt_tracks r) i = Some t -> nth_error (polyline_of t) j = Some p -> real_draws (x i) ->
    on_circle lon0 lat0 (corner_radius level (td_exp (x i) (if (j =? 16)%nat then 0%nat else j))) p.
Proof.
  intros Hn Hx E i t j p Hi Hj _. destruct (RandomRoute_ok lon0 lat0 n level uuid color nd x Hn Hx) as (r' & A1 & _ & _ & _ & _ & A6).
  rewrite E in A1. injection A1 as <-. apply A6 in Hi. destruct (track_points lon0 lat0 level (x i) t (Hx i) Hi) as (last & _ & P).
  destruct (P j p Hj) as (_ & o & _ & P1 & P2). eapply on_circle_of; eassumption.
Qed.

(** ** C65 *)
Lemma C65_partial_proof lon0 lat0 n level uuid color nd (x : nat -> trackDraws R) r emax : intn_draws nd -> (forall i, intn_draws (td_name (x i))) ->
  RandomRoute lon0 lat0 n level uuid color nd x = Ret r -> (forall i, real_draws (x i)) -> (forall i j, td_exp (x i) j <= emax) ->
  Rabs lat0 + corner_radius level emax <= 90 -> Rabs lon0 + corner_radius level emax <= 180 ->
  forall t p, In t (rt_tracks r) -> In p (polyline_of t) -> on_globe p.
Proof.
  intros Hn Hx E Hd He Ha Ho t p Ht Hp. destruct (RandomRoute_ok lon0 lat0 n level uuid color nd x Hn Hx) as (r' & A1 & _ & _ & _ & _ & A6).
  rewrite E in A1. injection A1 as <-. apply In_nth_error in Ht as (i & Ht). apply In_nth_error in Hp as (j & Hp).
  apply A6 in Ht. destruct (track_points lon0 lat0 level (x i) t (Hx i) Ht) as (last & _ & P).
  destruct (P j p Hp) as (_ & o & _ & P1 & P2). set (k := if (j =? 16)%nat then 0%nat else j) in *.
  set (a := o * 6 * ((1 + sqrt 5) / 2) / last) in *.
  assert (R0 : 0 <= corner_radius level (td_exp (x i) k) <= corner_radius level emax).
  { destruct (Hd i) as (_ & _ & D). specialize (D k). specialize (He i k). unfold corner_radius.
    assert (0 <= IZR (clamped level)) by (apply IZR_le; unfold clamped; lia). split; [|apply Rmult_le_compat_r; [lra|nra]].
    apply Rmult_le_pos; [nra|lra]. }
  pose proof (SIN_bound a) as Sb. pose proof (COS_bound a) as Cb.
  pose proof (Rle_abs lat0). pose proof (Rle_abs (- lat0)) as N1. rewrite Rabs_Ropp in N1.
  pose proof (Rle_abs lon0). pose proof (Rle_abs (- lon0)) as N2. rewrite Rabs_Ropp in N2.
  unfold on_globe. rewrite P1, P2. repeat split; nra.
Qed.

Lemma pi_upper : PI <= 322 / 100.
Proof.
  pose proof (proj2 (PI_ineq 6)) as H. unfold tg_alt, PI_tg in H. change (2 * 6)%nat with 12%nat in H. cbn [sum_f_R0] in H.
  rewrite !INR_IZR_INZ in H. cbn [Nat.mul Nat.add pow] in H. unfold Z.of_nat in H. cbn [Pos.of_succ_nat Pos.succ] in H.
  lra.
Qed.

Lemma sin_last : sin (6 * ((1 + sqrt 5) / 2)) < 0.
Proof.
  assert (S5 : 2236 / 1000 <= sqrt 5 <= 2237 / 1000).
  { split; [apply Rsqr_incr_0_var; [|apply sqrt_pos]|apply Rsqr_incr_0_var; [|lra]]; rewrite Rsqr_sqrt by lra; unfold Rsqr; lra. }
  pose proof pi_upper as U. pose proof PI2_3_2 as L.
  replace (6 * ((1 + sqrt 5) / 2)) with ((6 * ((1 + sqrt 5) / 2) - 2 * PI) + 2 * INR 1 * PI) by (cbn; lra).
  rewrite sin_period. apply sin_lt_0; lra.
Qed.

Lemma offsets_from_last f : (forall i, 0 <= f i) -> forall count prev i, 0 <= prev -> forall o, In o (offsets_from f prev i count) -> prev <= o.
Proof.
  intros Hf. induction count as [|count IH]; intros prev i Hp o H; cbn in H; [contradiction|]. pose proof (Hf i).
  destruct H as [<-|H]; [cbn; lra|]. apply (IH (prev + f i)) in H; cbn in *; lra.
Qed.

Lemma last_positive f last : (forall i, 0 <= f i) -> (exists i, (i < 16)%nat /\ 0 < f i) -> nth_error (offsets f 16) 15 = Some last -> 0 < last.
Proof.
  intros Hf (i & Hi & Hp) H. cbn in H. injection H as <-.
  pose proof (Hf 0%nat). pose proof (Hf 1%nat). pose proof (Hf 2%nat). pose proof (Hf 3%nat). pose proof (Hf 4%nat). pose proof (Hf 5%nat).
  pose proof (Hf 6%nat). pose proof (Hf 7%nat). pose proof (Hf 8%nat). pose proof (Hf 9%nat). pose proof (Hf 10%nat). pose proof (Hf 11%nat).
  pose proof (Hf 12%nat). pose proof (Hf 13%nat). pose proof (Hf 14%nat). pose proof (Hf 15%nat).
  do 16 (destruct i as [|i]; [lra|]). lia.
Qed.

(** from the south pole, the last corner of every track is off the globe, whatever the draws *)
Lemma C65_refuted_proof lon0 n level uuid color nd (x : nat -> trackDraws R) r : intn_draws nd -> (forall i, intn_draws (td_name (x i))) ->
  RandomRoute lon0 (-90) n level uuid color nd x = Ret r ->
  forall i t, nth_error (rt_tracks r) i = Some t -> real_draws (x i) -> exists p, In p (polyline_of t) /\ lat p < -90.
Proof.
  intros Hn Hx E i t Hi Hd. destruct (RandomRoute_ok lon0 (-90) n level uuid color nd x Hn Hx) as (r' & A1 & _ & _ & _ & _ & A6).
  rewrite E in A1. injection A1 as <-. apply A6 in Hi.
  destruct (random_track_ok lon0 (-90) (clamped level) (x i) (Hx i)) as (t' & B1 & _ & _ & _ & B5 & _). rewrite Hi in B1. injection B1 as <-.
  destruct (track_points lon0 (-90) level (x i) t (Hx i) Hi) as (last & L & P).
  destruct B5 as (p0 & mid & T1 & T2 & _ & _). destruct T1 as (_ & _ & _ & _ & T5).
  destruct (nth_error (polyline_of t) 15) as [p|] eqn:Q.
  2:{ apply nth_error_None in Q. rewrite T5 in Q. cbn in Q. rewrite app_length, T2 in Q. cbn in Q. lia. }
  exists p. split; [eapply nth_error_In; eassumption|]. destruct (P 15%nat p Q) as (_ & o & O & P1 & _). cbn [Nat.eqb] in O, P1. rewrite L in O. injection O as <-.
  destruct Hd as (D1 & D2 & D3). assert (Hl : 0 < last) by (apply (last_positive (td_float (x i)) last); [intros j; apply D1|exact D2|exact L]).
  rewrite P1. replace (last * 6 * ((1 + sqrt 5) / 2) / last) with (6 * ((1 + sqrt 5) / 2)) by (field; lra).
  pose proof sin_last. assert (0 < corner_radius level (td_exp (x i) 15)); [|nra]. unfold corner_radius. specialize (D3 15%nat).
  assert (10 <= IZR (clamped level)) by (apply IZR_le; unfold clamped; lia). apply Rmult_lt_0_compat; [nra|lra].
Qed.

(** ** binary64: all draws zero *)
Lemma mul_nan (x : f64) : f64_mul x f64_nan = f64_nan. Proof. destruct x; reflexivity. Qed.
Lemma add_nan (x : f64) : f64_add f64_nan x = f64_nan. Proof. destruct x; reflexivity. Qed.

Lemma corner_nan m zoom e (N := F64Num m) : m_sin m f64_nan = f64_nan -> m_cos m f64_nan = f64_nan ->
  corner zoom (f64_ofZ 0) (f64_ofZ 0) e = (f64_nan, f64_nan).
Proof.
  intros Hs Hc. unfold corner. cbn [fsin fcos fmul fdiv fofZ c_phi flt N F64Num].
  assert (E : f64_div (f64_mul (f64_mul (f64_ofZ 0) (f64_ofZ 6)) (f64_norm 910872158600853 (-49))) (f64_ofZ 0) = f64_nan) by (vm_compute; reflexivity).
  unfold N. cbn [fsin fcos fmul fdiv fofZ c_phi flt F64Num]. rewrite E, Hs, Hc, !mul_nan. now destruct (Bltb _ _).
Qed.

Lemma C59_zero_proof m (N := F64Num m) lon0 lat0 level (x : trackDraws f64) t : m_sin m f64_nan = f64_nan -> m_cos m f64_nan = f64_nan ->
  intn_draws (td_name x) -> (forall i, td_float x i = f64_ofZ 0) ->
  random_track lon0 lat0 level x = Ret t -> tk_isClosed t = false /\ forall p, In p (polyline_of t) -> lat p = f64_nan /\ lon p = f64_nan.
Proof.
  intros Hs Hc Hn Hz Ht. destruct (random_track_ok lon0 lat0 level x Hn) as (t' & B1 & _ & _ & _ & _ & last & c0 & cs & E1 & E2 & E3 & E4).
  rewrite Ht in B1. injection B1 as <-.
  assert (Eo : offsets (td_float x) 16 = repeat (f64_ofZ 0) 16).
  { assert (Z0 : f64_add (f64_ofZ 0) (f64_ofZ 0) = f64_ofZ 0) by (vm_compute; reflexivity).
    assert (G : forall count i, offsets_from (td_float x) (f64_ofZ 0) i count = repeat (f64_ofZ 0) count).
    { induction count as [|count IH]; intros i; cbn [offsets_from repeat]; [reflexivity|]. rewrite Hz.
      change (fadd (f64_ofZ 0) (f64_ofZ 0)) with (f64_add (f64_ofZ 0) (f64_ofZ 0)). rewrite Z0, IH. reflexivity. }
    unfold offsets. rewrite Hz, G. reflexivity. }
  rewrite Eo in E1, E2. cbn [nth_error repeat] in E1. injection E1 as <-.
  assert (Ec : forall l i, corners (zoomed (fofZ level)) (f64_ofZ 0) (td_exp x) i (repeat (f64_ofZ 0) l) = repeat (f64_nan, f64_nan) l).
  { induction l as [|l IH]; intros i; cbn [corners repeat]; [reflexivity|]. exact (f_equal2 cons (corner_nan m _ _ Hs Hc) (IH (S i))). }
  rewrite Ec in E2. cbn [repeat] in E2. injection E2 as <- <-.
  assert (Pn : forall p, In p (polyline_of t) -> lat p = f64_nan /\ lon p = f64_nan).
  { intros p Hp. rewrite E3 in Hp. unfold NormalizeCoordinates in Hp. apply in_map_iff in Hp as (q & <- & Hq).
    assert (q = (f64_nan, f64_nan)) by (cbn in Hq; intuition congruence). subst q. cbn [lat lon fst snd].
    split; apply add_nan. }
  split; [|exact Pn]. rewrite E4. unfold isClosed, NormalizeCoordinates. cbn [map app rev]. cbn [zlen]. unfold zlen. cbn [List.length Z.of_nat].
  cbn [lat lon fst snd]. change (fadd f64_nan lon0) with (f64_add f64_nan lon0). rewrite add_nan. reflexivity.
Qed.

(** ** binary64: other draws *)
Ltac bp := repeat match goal with |- context [bpow radix2 ?k] =>
  lazymatch k with
  | Zneg ?p => let v := eval vm_compute in (Z.pow 2 (Zpos p)) in change (bpow radix2 k) with (/ IZR v)
  | _ => let v := eval vm_compute in (Z.pow 2 k) in change (bpow radix2 k) with (IZR v)
  end end.
Definition bnd (k : Z) (x : f64) : Prop := fin x /\ Rabs (val x) <= bpow radix2 k.

Lemma rnd_bnd k r : (-1074 <= k)%Z -> Rabs r <= bpow radix2 k -> Rabs (rnd r) <= bpow radix2 k.
Proof. intros Hk H. unfold rnd. apply abs_round_le_generic; [apply vexp|apply valid_rnd_N| |exact H]. apply fmt_bpow. lia. Qed.

Lemma bnd_add k x y : (-1074 <= k <= 999)%Z -> bnd k x -> bnd k y -> bnd (k + 1) (f64_add x y).
Proof.
  intros Hk (Fx & Bx) (Fy & By).
  assert (E : Rabs (val x + val y) <= bpow radix2 (k + 1)).
  { rewrite bpow_plus. change (bpow radix2 1) with 2. pose proof (Rabs_triang (val x) (val y)). lra. }
  destruct (add_ok x y Fx Fy) as (A1 & A2); [eapply Rle_trans; [exact E|apply bpow_le; lia]|].
  split; [exact A2|]. rewrite A1. apply rnd_bnd; [lia|exact E].
Qed.

Lemma bnd_mul j k x y : (-1074 <= j + k <= 1000)%Z -> bnd j x -> bnd k y -> bnd (j + k) (f64_mul x y).
Proof.
  intros Hk (Fx & Bx) (Fy & By).
  assert (E : Rabs (val x * val y) <= bpow radix2 (j + k)).
  { rewrite bpow_plus, Rabs_mult. apply Rmult_le_compat; auto using Rabs_pos. }
  destruct (mul_ok x y Fx Fy) as (A1 & A2); [eapply Rle_trans; [exact E|apply bpow_le; lia]|].
  split; [exact A2|]. rewrite A1. apply rnd_bnd; [lia|exact E].
Qed.

Lemma bnd_div j k x y : (-1074 <= j + k <= 1000)%Z -> bnd j x -> bpow radix2 (- k) <= val y -> bnd (j + k) (f64_div x y).
Proof.
  intros Hk (Fx & Bx) By. pose proof (bpow_gt_0 radix2 (- k)) as P.
  assert (E : Rabs (val x / val y) <= bpow radix2 (j + k)).
  { unfold Rdiv. rewrite bpow_plus, Rabs_mult. apply Rmult_le_compat; auto using Rabs_pos.
    rewrite Rabs_pos_eq by (left; apply Rinv_0_lt_compat; lra). rewrite <- (Z.opp_involutive k) at 1. rewrite bpow_opp. apply Rinv_le; lra. }
  destruct (div_ok x y Fx) as (A1 & A2); [lra|eapply Rle_trans; [exact E|apply bpow_le; lia]|].
  split; [exact A2|]. rewrite A1. apply rnd_bnd; [lia|exact E].
Qed.

Lemma bnd_le j k x : (j <= k)%Z -> bnd j x -> bnd k x.
Proof. intros H (F & B). split; [exact F|]. eapply Rle_trans; [exact B|now apply bpow_le]. Qed.

Lemma between_bnd_low n a k x : (0 <= n <= 2 ^ 53)%Z -> (- n <= a <= n)%Z -> IZR n <= bpow radix2 k -> Bleb (f64_ofZ a) x = true -> Bleb x (f64_ofZ n) = true -> bnd k x.
Proof.
  intros Hn Ha Hk H1 H2. destruct (ofZ_ok n) as (Z1 & F1); [lia|]. destruct (ofZ_ok a) as (Z2 & F2); [lia|].
  assert (F : fin x).
  { destruct x as [s|s| |s mm e Hb]; try reflexivity; exfalso; unfold fin in *;
    [destruct s; [destruct (f64_ofZ a) as [[]|[]| |[]]|destruct (f64_ofZ n) as [[]|[]| |[]]]|destruct (f64_ofZ n) as [[]|[]| |[]]]; discriminate. }
  split; [exact F|]. apply leb_val in H1; auto. apply leb_val in H2; auto. rewrite Z1 in H2. rewrite Z2 in H1.
  assert (A : IZR (- n) <= IZR a) by (apply IZR_le; lia). rewrite opp_IZR in A. apply Rabs_le. lra.
Qed.

Lemma between_bnd n k x : (0 <= n <= 2 ^ 53)%Z -> IZR n <= bpow radix2 k -> Bleb (f64_ofZ (- n)) x = true -> Bleb x (f64_ofZ n) = true -> bnd k x.
Proof. intros Hn. apply between_bnd_low; lia. Qed.

Lemma offsets_from_bnd f : (forall i, unit_draw (f i)) -> forall m count prev i k, (0 <= k)%Z -> (k + Z.of_nat count <= 900)%Z -> bnd k prev -> 0 <= val prev ->
  forall j o, nth_error (@offsets_from f64 (F64Num m) f prev i count) j = Some o -> bnd 900 o /\ val prev <= val o /\ (forall l, (l <= j)%nat -> val (f (i + l)%nat) <= val o).
Proof.
  intros Hf m. induction count as [|count IH]; intros prev i k Hk Hc Hp H0 j o H; cbn [offsets_from] in H; [destruct j; discriminate|].
  cbv zeta in H. change (@fadd f64 (F64Num m) prev (f i)) with (f64_add prev (f i)) in H.
  destruct (unit_val _ (Hf i)) as (Fu & Hu). pose proof (bpow_gt_0 radix2 (-53)).
  assert (Bu : bnd k (f i)).
  { split; [exact Fu|]. rewrite Rabs_pos_eq by lra. apply Rle_trans with 1; [lra|]. change 1 with (bpow radix2 0). now apply bpow_le. }
  assert (Bo : bnd (k + 1) (f64_add prev (f i))) by (apply bnd_add; auto; lia).
  assert (V : val (f64_add prev (f i)) = rnd (val prev + val (f i))).
  { apply add_ok; [apply Hp|exact Fu|]. apply Rle_trans with (bpow radix2 (k + 1)); [|apply bpow_le; lia].
    rewrite bpow_plus. change (bpow radix2 1) with 2. pose proof (Rabs_triang (val prev) (val (f i))). destruct Hp, Bu. lra. }
  assert (V1 : val prev <= val (f64_add prev (f i))) by (rewrite V, <- (rnd_fmt (val prev) (fmt_val prev)) at 1; apply rnd_mono; lra).
  assert (V2 : val (f i) <= val (f64_add prev (f i))) by (rewrite V, <- (rnd_fmt (val (f i)) (fmt_val (f i))) at 1; apply rnd_mono; lra).
  destruct j as [|j]; cbn [nth_error] in H.
  - injection H as <-. split; [eapply bnd_le; [|exact Bo]; lia|]. split; [exact V1|]. intros l Hl. replace (i + l)%nat with i by lia. exact V2.
  - destruct (IH _ (S i) (k + 1)%Z ltac:(lia) ltac:(lia) Bo ltac:(lra) j o H) as (I1 & I2 & I3). split; [exact I1|]. split; [lra|].
    intros [|l] Hl; [rewrite Nat.add_0_r; lra|]. replace (i + S l)%nat with (S i + l)%nat by lia. apply I3. lia.
Qed.

Lemma offsets_bnd m f : (forall i, unit_draw (f i)) -> forall j o, nth_error (@offsets f64 (F64Num m) f 16) j = Some o ->
  bnd 900 o /\ (forall l, (l <= j)%nat -> val (f l) <= val o).
Proof.
  intros Hf j o H. unfold offsets in H. destruct (unit_val _ (Hf 0%nat)) as (Fu & Hu). pose proof (bpow_gt_0 radix2 (-53)).
  assert (Bu : bnd 0 (f 0%nat)) by (split; [exact Fu|]; rewrite Rabs_pos_eq by lra; bp; lra).
  destruct j as [|j]; cbn [nth_error] in H.
  - injection H as <-. split; [eapply bnd_le; [|exact Bu]; lia|]. intros l Hl. replace l with 0%nat by lia. lra.
  - destruct (offsets_from_bnd f Hf m 15 (f 0%nat) 1 0 ltac:(lia) ltac:(lia) Bu ltac:(lra) j o H) as (I1 & I2 & I3). split; [exact I1|].
    intros [|l] Hl; [lra|]. apply (I3 l). lia.
Qed.

(** one corner *)
Lemma corner_bnd m (N := F64Num m) zoom o last e : trig_law m -> bnd 10 zoom -> bnd 900 o -> bpow radix2 (-53) <= val last -> bnd 11 e ->
  bnd 30 (fst (corner zoom o last e)) /\ bnd 30 (snd (corner zoom o last e)).
Proof.
  intros Ht Bz Bo Hl Be. unfold corner. cbn [flt fmul fdiv fsin fcos fofZ c_phi N F64Num]. unfold N.
  set (cur := f64_div (f64_mul (f64_mul o (f64_ofZ 6)) (f64_norm 910872158600853 (-49))) last).
  assert (Bc : bnd 957 cur).
  { change 957%Z with (904 + 53)%Z. apply bnd_div; [lia| |exact Hl]. change 904%Z with (903 + 1)%Z. apply bnd_mul; [lia| |].
    - change 903%Z with (900 + 3)%Z. apply bnd_mul; [lia|exact Bo|]. destruct (ofZ_ok 6) as (Z6 & F6); [cbn; lia|]. split; [exact F6|].
      rewrite Z6, Rabs_pos_eq by lra. bp. lra.
    - split; [reflexivity|]. unfold val. vm_compute B2R. unfold F2R. cbn [Fnum Fexp Defs.Fnum Defs.Fexp]. bp. rewrite Rabs_pos_eq by lra. lra. }
  pose proof (Ht cur (proj1 Bc)) as T0. rewrite !andb_true_iff in T0. destruct T0 as (((T1 & T2) & T3) & T4).
  assert (Bs : bnd 0 (m_sin m cur)) by (apply (between_bnd 1 0); auto; [lia|bp; lra]).
  assert (Bs' : bnd 0 (m_cos m cur)) by (apply (between_bnd 1 0); auto; [lia|bp; lra]).
  set (factor := @randFactor f64 (F64Num m) (@minFactor f64 (F64Num m)) (@maxFactor f64 (F64Num m)) e).
  assert (Bf : bnd 12 factor).
  { unfold factor, randFactor. cbn [fadd fmul fsub F64Num]. change 12%Z with (11 + 1)%Z. apply bnd_add; [lia| |].
    - split; [reflexivity|]. unfold val, minFactor. cbn [fdec F64Num]. vm_compute B2R. unfold F2R. cbn [Fnum Fexp Defs.Fnum Defs.Fexp]. bp. rewrite Rabs_pos_eq by lra. lra.
    - change 11%Z with (11 + 0)%Z. apply bnd_mul; [lia|exact Be|]. split; [reflexivity|]. unfold val, minFactor, maxFactor. cbn [fdec F64Num]. vm_compute B2R. unfold F2R. cbn [Fnum Fexp Defs.Fnum Defs.Fexp]. bp. rewrite Rabs_pos_eq by lra. lra. }
  destruct (Bltb _ _); cbn [fst snd]; split.
  - eapply bnd_le; [|apply (bnd_mul (12 + 10) 0); [lia|apply bnd_mul; [lia|exact Bf|exact Bz]|exact Bs]]. lia.
  - eapply bnd_le; [|apply (bnd_mul (12 + 10) 0); [lia|apply bnd_mul; [lia|exact Bf|exact Bz]|exact Bs']]. lia.
  - eapply bnd_le; [|apply (bnd_mul 12 0); [lia|exact Bf|exact Bs]]. lia.
  - eapply bnd_le; [|apply (bnd_mul 12 0); [lia|exact Bf|exact Bs']]. lia.
Qed.

Lemma zoomed_bnd m level : (10 <= level <= 600)%Z -> bnd 10 (@zoomed f64 (F64Num m) (f64_ofZ level)).
Proof.
  intros H. destruct (ofZ_ok level) as (E1 & F1); [change (2 ^ 53)%Z with 9007199254740992%Z; lia|]. destruct (ofZ_ok 1000) as (E2 & F2); [cbn; lia|]. destruct (ofZ_ok 0) as (E3 & F3); [cbn; lia|].
  assert (B : bnd 10 (f64_ofZ level)) by (split; [exact F1|]; rewrite E1, Rabs_pos_eq by (apply IZR_le; lia); bp; apply IZR_le; lia).
  assert (B2 : bnd 10 (f64_ofZ 1000)) by (split; [exact F2|]; rewrite E2, Rabs_pos_eq by lra; bp; lra).
  assert (B3 : bnd 10 (f64_ofZ 0)) by (split; [exact F3|]; rewrite E3, Rabs_R0; bp; lra).
  unfold zoomed, f0. cbn [flt fofZ F64Num]. cbv zeta. destruct (Bltb (f64_ofZ level) (f64_ofZ 0)); destruct (Bltb (f64_ofZ 1000) _); assumption.
Qed.

Lemma finite_eqb (x : f64) : is_finite x = true -> Beqb x x = true.
Proof. intros H. rewrite (Beqb_correct 53 1024 x x H H). apply Req_bool_true. reflexivity. Qed.

Lemma random_track_finite m (N := F64Num m) lon0 lat0 level (x : trackDraws f64) t : trig_law m -> intn_draws (td_name x) -> float_draws x ->
  moderate lon0 -> moderate lat0 -> random_track lon0 lat0 (clamped level) x = Ret t ->
  tk_isClosed t = true /\ forall p, In p (polyline_of t) -> is_finite (lat p) = true /\ is_finite (lon p) = true.
Proof.
  intros Ht Hn (D1 & (i & Hi & D2) & D3) (M1 & M2) (M3 & M4) E.
  destruct (random_track_ok lon0 lat0 (clamped level) x Hn) as (t' & B1 & _ & _ & _ & RL & last & c0 & cs & E1 & E2 & E3 & E4).
  rewrite E in B1. injection B1 as <-.
  assert (Bl : bnd 10 lon0) by (apply (between_bnd 1000 10); auto; [lia|bp; lra]).
  assert (Ba : bnd 10 lat0) by (apply (between_bnd 1000 10); auto; [lia|bp; lra]).
  assert (Hlast : bpow radix2 (-53) <= val last).
  { destruct (offsets_bnd m (td_float x) D1 15 last E1) as (_ & O). eapply Rle_trans; [|apply (O i); lia].
    assert (F : fin (f64_norm 1 (-53))) by reflexivity. apply leb_val in D2; [|exact F|apply unit_val, D1].
    eapply Rle_trans; [|exact D2]. right. unfold val. vm_compute B2R. unfold F2R. cbn [Fnum Fexp]. bp. lra. }
  assert (Bcs : forall j c, nth_error (c0 :: cs) j = Some c -> bnd 30 (fst c) /\ bnd 30 (snd c)).
  { intros j c Hj. rewrite <- E2 in Hj.
    assert (Lj : (j < 16)%nat).
    { assert (A : nth_error (@corners f64 N (@zoomed f64 N (fofZ (clamped level))) last (td_exp x) 0 (offsets (td_float x) 16)) j <> None) by congruence.
      apply nth_error_Some in A. rewrite corners_length, offsets_length in A. exact A. }
    destruct (nth_error (@offsets f64 N (td_float x) 16) j) as [o|] eqn:O; [|apply nth_error_None in O; rewrite offsets_length in O; lia].
    rewrite (corners_nth _ _ _ _ 0 j o O) in Hj. injection Hj as <-. destruct (D3 (0 + j)%nat) as (X1 & X2).
    apply corner_bnd; [exact Ht|apply zoomed_bnd; unfold clamped; lia|apply (offsets_bnd m (td_float x) D1 j o O)|exact Hlast|].
    apply (between_bnd_low 1024 0 11); [lia|lia|bp; lra|exact X1|exact X2]. }
  assert (Fin : forall p, In p (polyline_of t) -> is_finite (lat p) = true /\ is_finite (lon p) = true).
  { intros p Hp. rewrite E3 in Hp. unfold NormalizeCoordinates in Hp. apply in_map_iff in Hp as (q & <- & Hq).
    assert (Hq' : In q (c0 :: cs)). { change (c0 :: cs ++ [c0]) with ((c0 :: cs) ++ [c0]) in Hq. apply in_app_or in Hq as [Hq|[<-|[]]]; [exact Hq|now left]. }
    apply In_nth_error in Hq' as (j & Hj). destruct (Bcs j q Hj) as (Q1 & Q2). cbn [lat lon].
    split; [apply (bnd_add 30 (fst q) lat0)|apply (bnd_add 30 (snd q) lon0)]; auto; try lia; (eapply bnd_le; [|eassumption]; lia). }
  split; [|exact Fin]. destruct RL as (p & mid & (_ & _ & _ & _ & P) & _ & _ & C). apply C.
  destruct (Fin p) as (F1 & F2); [rewrite P; now left|]. split; apply finite_eqb; assumption.
Qed.

Lemma C59_closed_proof m (N := F64Num m) lon0 lat0 n level uuid color nd (x : nat -> trackDraws f64) r : trig_law m -> intn_draws nd -> (forall i, intn_draws (td_name (x i))) ->
  moderate lon0 -> moderate lat0 -> RandomRoute lon0 lat0 n level uuid color nd x = Ret r ->
  forall i t, nth_error (rt_tracks r) i = Some t -> float_draws (x i) ->
    tk_isClosed t = true /\ forall p, In p (polyline_of t) -> is_finite (lat p) = true /\ is_finite (lon p) = true.
Proof.
  intros Ht Hn Hx Mo Ma E i t Hi D. destruct (RandomRoute_ok lon0 lat0 n level uuid color nd x Hn Hx) as (r' & A1 & _ & _ & _ & _ & A6).
  rewrite E in A1. injection A1 as <-. apply A6 in Hi. exact (random_track_finite m lon0 lat0 level (x i) t Ht (Hx i) D Mo Ma Hi).
Qed.
