(** Proofs about Model/GPX.v. *)
From stdpp Require Import gmap strings.
From Coq Require Import Ascii Permutation Lia.
From Verif.Model Require Import Base Num Utf8 Geo PropMap Pb Track Route GPX.
From Verif.Spec Require Import ListSpec TrackSpec SnapSpec GeoJSONSpec GPXSpec.
From Verif.Proofs Require Import BaseLemmas TrackLemmas PropsProofs GeoJSONProofs.
Open Scope num_scope.

#[local] Arguments String.append : simpl nomatch.

(** ** integers *)
Lemma parse_digits_ok s : forall a v, parse_digits a s = Some v <-> every digit s /\ v = digits_value a s.
Proof.
  induction s as [|c r IH]; intros a v; cbn [parse_digits every digits_value]; [split; [intros [= <-]; auto|intros (_ & ->); reflexivity]|].
  change (Z.of_nat (nat_of_ascii c)) with (code c). unfold digit.
  destruct (Z.leb_spec 0 (code c - 48)); destruct (Z.leb_spec (code c - 48) 9); cbn [andb];
    try (split; [discriminate|intros ((D & _) & _); exfalso; lia]).
  rewrite IH. replace (a * 10 + (code c - 48))%Z with (10 * a + (code c - 48))%Z by lia. split; [intros (A & B)|intros ((_ & A) & B)]; repeat split; auto; lia.
Qed.
Lemma parse_nat_ok s v : parse_nat s = Some v <-> s <> ""%string /\ every digit s /\ v = digits_value 0 s.
Proof.
  unfold parse_nat. destruct s as [|c r]; [split; [discriminate|intros (H & _); contradiction]|]. rewrite parse_digits_ok. split; [intros (A & B); split; [discriminate|auto]|intros (_ & A & B); auto].
Qed.
Lemma range_ok (o : option Z) z : match o with Some z => if ((- 2 ^ 63 <=? z) && (z <? 2 ^ 63))%Z then Some z else None | None => None end = Some z <-> o = Some z /\ int64 z.
Proof.
  unfold int64. destruct o as [v|]; [|split; [discriminate|intros (H & _); discriminate]].
  destruct (Z.leb_spec (- 2 ^ 63) v); destruct (Z.ltb_spec v (2 ^ 63)); cbn [andb]; split; try discriminate; try (intros [= <-]; split; [reflexivity|lia]); intros ([= ->] & K); try reflexivity; exfalso; lia.
Qed.
Lemma ParseInt_ok s z : ParseInt s = Some z <-> int64_text s z.
Proof.
  unfold ParseInt. rewrite range_ok. unfold int64_text. apply (iff_trans (Logic.and_comm _ _)). apply and_iff_compat_l.
  destruct s as [|c r].
  - cbn. split; [discriminate|]. intros (sg & r & E & Hr & _ & H). exfalso. destruct sg; [cbn in E; apply Hr; now symmetry|discriminate].
  - destruct (ascii_dec c "-"%char) as [->|Hm]; [|destruct (ascii_dec c "+"%char) as [->|Hp]].
    + split.
      * intros H. destruct (parse_nat r) as [v|] eqn:E; [|discriminate]. injection H as <-. apply parse_nat_ok in E as (A & B & ->). exists "-"%string, r. repeat split; auto.
      * intros (sg & q & E & Hq & Hd & [([-> | ->] & ->)|(-> & ->)]); cbn in E.
        -- exfalso. subst q. cbn in Hd. destruct Hd as ((D & _) & _). vm_compute in D. now apply D.
        -- discriminate E.
        -- injection E as ->. assert (P : parse_nat q = Some (digits_value 0 q)) by (apply parse_nat_ok; auto). rewrite P. reflexivity.
    + split.
      * intros H. apply parse_nat_ok in H as (A & B & ->). exists "+"%string, r. repeat split; auto.
      * intros (sg & q & E & Hq & Hd & [([-> | ->] & ->)|(-> & ->)]); cbn in E.
        -- exfalso. subst q. cbn in Hd. destruct Hd as ((D & _) & _). vm_compute in D. now apply D.
        -- injection E as ->. apply parse_nat_ok. auto.
        -- discriminate E.
    + assert (P : match String c r with String "-" r0 => option_map Z.opp (parse_nat r0) | String "+" r0 => parse_nat r0 | _ => parse_nat (String c r) end = parse_nat (String c r)).
      { destruct c as [[] [] [] [] [] [] [] []]; try reflexivity; exfalso; auto. }
      rewrite P. rewrite parse_nat_ok. split.
      * intros (A & B & ->). exists ""%string, (String c r). split; [reflexivity|]. split; [exact A|]. split; [exact B|]. left. auto.
      * intros (sg & q & E & Hq & Hd & [([-> | ->] & ->)|(-> & ->)]); cbn in E; try (exfalso; injection E as -> _; contradiction). subst q. auto.
Qed.

Lemma digit_code z : (0 <= z <= 9)%Z -> code (ascii_of_nat (48 + Z.to_nat z)) = (48 + z)%Z.
Proof. intros H. unfold code. rewrite nat_ascii_embedding by lia. lia. Qed.
Lemma dec_digits_ok f : forall z acc, (0 <= z < 10 ^ Z.of_nat f)%Z -> (0 < f)%nat -> exists p, dec_digits f z acc = (p ++ acc)%string /\ p <> ""%string /\ every digit p /\
  exists k, forall a, digits_value a p = (a * 10 ^ k + z)%Z /\ (0 <= k)%Z.
Proof.
  induction f as [|f IH]; intros z acc Hz Hf; [lia|]. cbn [dec_digits].
  assert (Hm : (0 <= z mod 10 <= 9)%Z) by (pose proof (Z.mod_pos_bound z 10); lia). pose proof (digit_code _ Hm) as Hc.
  set (ch := ascii_of_nat (48 + Z.to_nat (z mod 10))) in *. clearbody ch.
  destruct (Z.ltb_spec z 10) as [Hs|Hs].
  - exists (String ch ""). split; [reflexivity|]. split; [discriminate|]. split; [cbn; unfold digit; rewrite Hc; split; [lia|exact I]|].
    exists 1%Z. intros a. cbn [digits_value]. rewrite Hc, Z.mod_small by lia. lia.
  - assert (Hf' : (0 < f)%nat). { destruct f; [|lia]. cbn in Hz. lia. }
    destruct (IH (z / 10)%Z (String ch acc)) as (p & E & A & B & k & D); [|exact Hf'|].
    { split; [apply Z.div_pos; lia|]. apply Z.div_lt_upper_bound; [lia|]. rewrite Nat2Z.inj_succ, Z.pow_succ_r in Hz by lia. lia. }
    exists (p ++ String ch "")%string. split.
    { rewrite E. clear. induction p as [|c p IHp]; [reflexivity|]. cbn. now rewrite IHp. }
    split; [destruct p; [contradiction|discriminate]|]. split.
    { clear - B Hc Hm. induction p as [|c p IHp]; cbn; [unfold digit; rewrite Hc; split; [lia|exact I]|]. destruct B as (B1 & B2). auto. }
    exists (k + 1)%Z. intros a. destruct (D a) as (D1 & D2). split; [|lia].
    assert (V : forall q b, digits_value b (q ++ String ch "")%string = (10 * digits_value b q + z mod 10)%Z).
    { clear - Hc. induction q as [|c q IHq]; intros b; cbn [String.append digits_value]; [cbn [append digits_value]; rewrite Hc; lia|]. apply IHq. }
    rewrite V, D1. rewrite Z.pow_add_r by lia. pose proof (Z.div_mod z 10). lia.
Qed.
Lemma fmt_int_text z : int64 z -> int64_text (fmt_int z) z.
Proof.
  intros H. split; [exact H|]. unfold int64 in H. unfold fmt_int. assert (P20 : (2 ^ 63 < 10 ^ Z.of_nat 20)%Z) by (vm_compute; reflexivity).
  destruct (Z.ltb_spec z 0) as [Hz|Hz].
  - destruct (dec_digits_ok 20 (- z) "") as (p & E & A & B & k & D); [lia|lia|]. exists "-"%string, p. rewrite E.
    assert (Ep : (p ++ "")%string = p) by (clear; induction p as [|c p IH]; [reflexivity|cbn; now rewrite IH]). rewrite Ep. repeat split; auto. right. split; [reflexivity|]. destruct (D 0%Z). lia.
  - destruct (dec_digits_ok 20 z "") as (p & E & A & B & k & D); [lia|lia|]. exists ""%string, p. rewrite E.
    assert (Ep : (p ++ "")%string = p) by (clear; induction p as [|c p IH]; [reflexivity|cbn; now rewrite IH]). rewrite Ep. repeat split; auto. left. split; [auto|]. destruct (D 0%Z). lia.
Qed.
Lemma every_imp (P Q : ascii -> Prop) s : (forall c, P c -> Q c) -> every P s -> every Q s.
Proof. intros H. induction s as [|c r IH]; cbn; [auto|]. intros (A & B). auto. Qed.
Lemma int_printable s z : int64_text s z -> every printable s.
Proof.
  intros (_ & sg & r & -> & _ & H & D). assert (R : every printable r) by (revert H; apply every_imp; unfold digit, printable; lia).
  destruct D as [([-> | ->] & _)|(-> & _)]; cbn; [exact R| |]; (split; [vm_compute; split; discriminate|exact R]).
Qed.
Lemma ParseBool_none s : ParseBool s = None <-> ~ In s bool_texts.
Proof.
  unfold ParseBool, bool_texts. cbn [existsb In].
  repeat match goal with |- context [String.eqb s ?k] => destruct (String.eqb_spec s k) as [->|]; [cbn [orb]; split; [discriminate|intros H; exfalso; apply H; tauto]|] end.
  cbn [orb]. split; [|reflexivity]. intros _ H. intuition congruence.
Qed.

Section P.
Context {T : Type} {N : Num T} {X : GpxLib T}.

Lemma value_word s : word s -> value (T := T) s = GStr s.
Proof.
  intros (A & B & C). unfold value. destruct (ParseInt s) as [z|] eqn:E; [apply ParseInt_ok in E; now apply A in E|].
  apply ParseBool_none in B. now rewrite B, C.
Qed.
Lemma value_other s : ~ word s -> forall s', value (T := T) s <> GStr s'.
Proof.
  intros Hw s'. unfold value. destruct (ParseInt s) as [z|] eqn:E; [discriminate|]. destruct (ParseBool s) as [b|] eqn:Eb; [discriminate|]. destruct (parse_float s) eqn:Ef; [discriminate|].
  exfalso. apply Hw. split; [intros z Hz; apply ParseInt_ok in Hz; congruence|]. split; [now apply ParseBool_none|assumption].
Qed.
Lemma word_dec s : {word s} + {~ word s}.
Proof.
  destruct (value (T := T) s) as [| | | |s'| | |] eqn:E; try (right; intros H; rewrite (value_word s H) in E; discriminate).
  left. unfold value in E. destruct (ParseInt s) as [z|] eqn:E1; [discriminate|]. destruct (ParseBool s) as [b|] eqn:E2; [discriminate|]. destruct (parse_float s) eqn:E3; [discriminate|].
  split; [intros z Hz; apply ParseInt_ok in Hz; congruence|]. split; [now apply ParseBool_none|assumption].
Qed.

Context (C : carrier T) (L : gpx_law T C).

Lemma fmt_back v : gpx_value C v -> gpx_of v (value (fmt_v v)) /\ as_attr C (fmt_v v).
Proof.
  intros [s H|b|z H|x H]; cbn [fmt_v].
  - split; [|exact H]. destruct (word_dec s) as [Hw|Hw]; [rewrite (value_word s Hw); now constructor|]. apply go_text; [exact Hw|now apply value_other].
  - destruct b; (split; [apply go_bool|apply (gpx_ascii C L); vm_compute; repeat split; discriminate]).
  - pose proof (fmt_int_text z H) as Ht. split; [|apply (gpx_ascii C L); eapply int_printable, Ht]. unfold value. apply ParseInt_ok in Ht. rewrite Ht. constructor.
  - split; [|apply (gpx_fmt C L)]. destruct (gpx_float C L x H) as [(z & B & D)|(B & A & D)]; unfold value.
    + apply ParseInt_ok in B. rewrite B. now apply go_whole.
    + destruct (ParseInt (fmt_float x)) as [z|] eqn:E; [apply ParseInt_ok in E; now apply B in E|]. apply ParseBool_none in A. rewrite A, D. constructor.
Qed.

(** ** points *)
Definition latlon (p : point T) : T * T := (lat p, lon p).
Lemma gpx_segs_pairs (l : list (segment T)) : forall pts, (2 <= List.length pts)%nat -> Forall2 segment_between (pairs pts) l -> gpx_segs l = map latlon pts.
Proof using N T.
  induction l as [|s l IH]; intros pts Hl F.
  - destruct pts as [|a [|b pts]]; cbn in *; try lia. inversion F.
  - destruct pts as [|a [|b pts]]; cbn in Hl; try lia. cbn in F. inversion F as [|? ? ? ? Hs F']; subst.
    destruct Hs as (Ha & Hb & _ & _). cbn in Ha, Hb. destruct pts as [|c pts].
    + cbn in F'. inversion F'; subst. cbn. reflexivity.
    + specialize (IH (b :: c :: pts) ltac:(cbn; lia) F'). destruct l as [|s' l]; [discriminate IH|].
      change (gpx_segs (s :: s' :: l)) with ((lat (sg_a s), lon (sg_a s)) :: gpx_segs (s' :: l)). rewrite IH, Ha. reflexivity.
Qed.
Lemma written_points (t : track T) : gpx_track C t -> makePoints (map (coords C) (gpx_copyPoints t)) = gpx_points C t.
Proof using N T.
  intros (H & (F & _) & _). unfold gpx_copyPoints. rewrite (gpx_segs_pairs _ (polyline_of t)); [|unfold zlen in H; lia|exact F].
  unfold makePoints, gpx_points. rewrite !map_map. reflexivity.
Qed.

(** ** properties *)
Lemma makeProps_get (attrs : list (string * string)) k : NoDup (map fst attrs) ->
  props_lookup (makeProps attrs) k = match List.find (fun a => String.eqb (fst a) k) attrs with Some a => Some (value (snd a)) | None => None end.
Proof.
  intros H. unfold makeProps. rewrite lookup_entries by (rewrite map_map; exact H). clear H. induction attrs as [|[a v] l IH]; [reflexivity|].
  cbn. destruct (String.eqb a k); [reflexivity|exact IH].
Qed.
Lemma gpx_resetProps_get (p : props T) k : props_lookup (gpx_resetProps p) k = if in_dec string_dec k gpx_own_keys then None else props_lookup p k.
Proof.
  unfold gpx_resetProps, gpx_reserved. cbn [fold_left]. rewrite !remove_get.
  destruct (in_dec string_dec k gpx_own_keys) as [Hin|Hin].
  - cbn in Hin. repeat match goal with |- context [String.eqb ?a k] => destruct (String.eqb_spec a k) end; try reflexivity. exfalso. intuition.
  - cbn in Hin. repeat match goal with |- context [String.eqb ?a k] => destruct (String.eqb_spec a k); [exfalso; intuition|] end. reflexivity.
Qed.
Definition text_of (v : gval T) : string := match v with GStr s => s | _ => ""%string end.
Lemma kept_value s : kept s (text_of (value s)).
Proof. split; intros H; [now rewrite (value_word s H)|]. pose proof (value_other s H) as V. destruct (value s); try reflexivity. exfalso. now apply (V s0). Qed.
Lemma kept_legal s s' : legal_name s -> kept s s' -> legal_name s'.
Proof. intros H (A & B). destruct (word_dec s) as [W|W]; [now rewrite (A W)|]. rewrite (B W). now left. Qed.

(** ** tracks *)
Lemma restored_track_ok (t : track T) : gpx_track C t ->
  exists t0, RestoreTrack (tk_id t) (text_of (value (tk_color t))) (gpx_points C t) = GOk t0 /\ is_track_through (gpx_points C t) t0 /\ tk_id t0 = tk_id t /\
    tk_color t0 = text_of (value (tk_color t)) /\ tk_name t0 = ""%string /\ tk_props t0 = None.
Proof.
  intros (H & _ & _ & Hid & _). assert (Hl : (2 <= List.length (gpx_points C t))%nat) by (unfold gpx_points; rewrite map_length; unfold zlen in H; lia).
  destruct (RestoreTrack (tk_id t) (text_of (value (tk_color t))) (gpx_points C t)) as [t0|] eqn:E.
  - exists t0. split; [reflexivity|]. destruct (RestoreTrack_ok _ _ _ _ E) as (A & B & D). split; [exact A|]. split; [exact B|]. split; [exact D|].
    unfold RestoreTrack in E. destruct (_ =? _)%Z; [discriminate|]. destruct (makeSegments _) as [[segs d]|]; [|discriminate]. injection E as <-. auto.
  - exfalso. unfold RestoreTrack in E. destruct (Z.eqb_spec (slen (tk_id t)) 0) as [Hz|Hz].
    + apply Hid. destruct (tk_id t); [reflexivity|]. unfold slen in Hz. cbn in Hz. lia.
    + destruct (makeSegments_ok _ Hl) as (segs & Hm & _). rewrite Hm in E. discriminate.
Qed.

Lemma through_same (pts : list (point T)) t t' : is_track_through pts t -> tk_segments t' = tk_segments t -> tk_dist t' = tk_dist t -> is_track_through pts t'.
Proof. intros (A & B & D & E & F) Hs Hd. unfold is_track_through, polyline_of, NumSegments in *. rewrite Hs, Hd. auto. Qed.

Lemma restore_tracks_ok ts : Forall (gpx_track C) ts -> forall nodes, Forall2 same_node (map trackNode ts) nodes -> forall r : route T,
  exists r' ts', restore_tracks r (map (fun t => map (coords C) (gpx_copyPoints t)) ts) nodes = Ret (GOk r') /\ same_head r r' /\
    rt_tracks r' = rt_tracks r ++ ts' /\ Forall2 (gpx_same_track C) ts ts'.
Proof.
  induction 1 as [|t ts Ht _ IH]; intros nodes F r; cbn [map restore_tracks].
  - exists r, []. rewrite app_nil_r. split; [reflexivity|]. split; [apply same_head_refl|]. split; [reflexivity|constructor].
  - cbn [map] in F. inversion F as [|? n ? nodes' Hn F']; subst. unfold trackNode in Hn. inversion Hn; subst. cbn [xn_attrs xn_data].
    rewrite (written_points t Ht).
    set (p := makeProps _).
    assert (Pg : forall k, props_lookup p k = match List.find (fun a => String.eqb (fst a) k) [("name"%string, tk_name t); ("color"%string, tk_color t); ("distance"%string, f2s (tk_dist t))] with Some a => Some (value (snd a)) | None => None end).
    { intros k. apply makeProps_get. cbn. repeat constructor; cbn; intuition discriminate. }
    assert (Pc : fst (props_String p "color") = text_of (value (tk_color t))) by (unfold props_String; rewrite Pg; cbn; destruct (value (tk_color t)); reflexivity).
    assert (Pn : fst (props_String p "name") = text_of (value (tk_name t))) by (unfold props_String; rewrite Pg; cbn; destruct (value (tk_name t)); reflexivity).
    assert (Pr : forall k, props_lookup (gpx_resetProps p) k = None).
    { intros k. rewrite gpx_resetProps_get. destruct (in_dec string_dec k gpx_own_keys) as [Hk|Hk]; [reflexivity|]. rewrite Pg. cbn [List.find fst].
      repeat match goal with |- context [String.eqb ?a k] => destruct (String.eqb_spec a k) as [<-|]; [exfalso; apply Hk; cbn; tauto|] end. reflexivity. }
    rewrite Pc, Pn. clearbody p. destruct (restored_track_ok t Ht) as (t0 & E & A1 & A2 & A3 & A4 & A5). rewrite E.
    set (name := text_of (value (tk_name t))). assert (Kn : kept (tk_name t) name) by apply kept_value.
    assert (Ln : legal_name name) by (eapply kept_legal; [apply Ht|exact Kn]).
    match goal with |- context [AddTrack r (Some ?x)] => set (t1 := x) end.
    assert (Q : tk_segments t1 = tk_segments t0 /\ tk_dist t1 = tk_dist t0 /\ tk_id t1 = tk_id t0 /\ tk_color t1 = tk_color t0 /\ tk_name t1 = name /\
       tk_props t1 = Some (props_Merge (fst (track_Props t0)) (gpx_resetProps p))).
    { subst t1. destruct (0 <? slen name)%Z eqn:En.
      - unfold track_ChangeName. rewrite (parse_name name Ln En). cbn. auto 10.
      - cbn. rewrite A4. assert (name = ""%string) by (destruct name; [reflexivity|unfold slen in En; cbn in En; discriminate]). auto 10. }
    clearbody t1. destruct Q as (Q1 & Q2 & Q3 & Q4 & Q5 & Q6).
    destruct (IH nodes' F' (AddTrack r (Some t1))) as (r' & ts' & E' & H1 & H2 & H3). exists r', (t1 :: ts'). split; [exact E'|].
    split; [eapply same_head_trans; [apply (AddTrack_head r (Some t1))|exact H1]|]. split; [rewrite H2; cbn; rewrite <- app_assoc; reflexivity|]. constructor; [|exact H3].
    pose proof (through_same _ _ _ A1 Q1 Q2) as A1'. split; [apply A1'|]. split; [exact A1'|]. split; [congruence|]. split; [rewrite Q4, A3; apply kept_value|]. split; [rewrite Q5; exact Kn|].
    intros k. rewrite Q6. cbn [entries_of]. rewrite lookup_merge, Pr. unfold track_Props. rewrite A5. reflexivity.
Qed.

(** ** routes *)
Context (ord : props T -> list (string * gval T)) (Hord : iterates ord).

Definition head_attrs (r : route T) : list (string * string) :=
  [("id"%string, rt_id r); ("name"%string, rt_name r); ("color"%string, rt_color r); ("distance"%string, f2s (rt_dist r)); ("units"%string, "meters"%string)].

Lemma attrs_nodup (r : route T) : gpx_no_own_keys r -> NoDup (map fst (head_attrs r ++ makeAttrs (ord (fst (route_Props r))))).
Proof.
  intros Hk. rewrite map_app. assert (Nd : NoDup (map fst (makeAttrs (ord (fst (route_Props r)))))).
  { unfold makeAttrs. rewrite map_map. cbn. eapply Permutation_NoDup; [apply Permutation_sym, Permutation_map, Hord|]. apply entries_nodup. }
  assert (Ni : forall k, In k gpx_own_keys -> ~ In k (map fst (makeAttrs (ord (fst (route_Props r)))))).
  { intros k Hin H. unfold makeAttrs in H. rewrite map_map in H. cbn in H. eapply Permutation_in in H; [|apply Permutation_map, Hord].
    rewrite route_Props_entries in H. apply obj_get_none in H; [exact H|]. rewrite entries_get. now apply Hk. }
  cbn. repeat (constructor; [cbn; intros H; repeat (destruct H as [H|H]; [discriminate H|]); revert H; apply Ni; cbn; tauto|]). exact Nd.
Qed.

Lemma attrs_get (r : route T) k : gpx_no_own_keys r -> props_lookup (makeProps (head_attrs r ++ makeAttrs (ord (fst (route_Props r))))) k =
  match List.find (fun a => String.eqb (fst a) k) (head_attrs r) with
  | Some a => Some (value (snd a))
  | None => match props_lookup (entries_of (rt_props r)) k with Some v => Some (value (fmt_v v)) | None => None end
  end.
Proof.
  intros Hk. rewrite (makeProps_get _ k (attrs_nodup r Hk)).
  assert (A : forall l1 l2 : list (string * string), List.find (fun a => String.eqb (fst a) k) (l1 ++ l2) = match List.find (fun a => String.eqb (fst a) k) l1 with Some a => Some a | None => List.find (fun a => String.eqb (fst a) k) l2 end).
  { induction l1 as [|a l1 IH]; intros l2; [reflexivity|]. cbn. destruct (String.eqb (fst a) k); auto. }
  rewrite A. destruct (List.find _ (head_attrs r)) as [a|]; [reflexivity|].
  rewrite <- (entries_get (entries_of (rt_props r)) k), <- route_Props_entries.
  rewrite <- (obj_get_perm k _ _ (entries_nodup _) (Permutation_sym (Hord _))).
  unfold makeAttrs. clear. induction (ord (fst (route_Props r))) as [|[a v] l IH]; [reflexivity|]. cbn. destruct (String.eqb a k); [reflexivity|exact IH].
Qed.

Lemma route_read (r : route T) : gpx_route C r -> gpx_no_own_keys r ->
  let p := makeProps (head_attrs r ++ makeAttrs (ord (fst (route_Props r)))) in
  props_String p "id" = match value (rt_id r) with GStr s => (s, true) | _ => (""%string, false) end /\
  fst (props_String p "color") = text_of (value (rt_color r)) /\ fst (props_String p "name") = text_of (value (rt_name r)) /\
  gpx_props (entries_of (rt_props r)) (gpx_resetProps p).
Proof.
  intros Hr Hk p. assert (G : forall k, props_lookup p k = _) by (intros k; apply (attrs_get r k Hk)). unfold props_String. split; [rewrite G; cbn; now destruct (value (rt_id r))|].
  split; [rewrite G; cbn; now destruct (value (rt_color r))|]. split; [rewrite G; cbn; now destruct (value (rt_name r))|].
  intros k. rewrite gpx_resetProps_get, G. destruct (in_dec string_dec k gpx_own_keys) as [Hin|Hin]; [now rewrite (Hk k Hin)|].
  assert (Ef : List.find (fun a => String.eqb (fst a) k) (head_attrs r) = None).
  { cbn [List.find head_attrs fst]. repeat match goal with |- context [String.eqb ?a k] => destruct (String.eqb_spec a k) as [<-|]; [exfalso; apply Hin; cbn; tauto|] end. reflexivity. }
  rewrite Ef. destruct (props_lookup (entries_of (rt_props r)) k) as [v|] eqn:E; [|reflexivity]. eexists. split; [reflexivity|]. apply fmt_back. apply Hr in E. apply E.
Qed.

Lemma same_route_node (r : route T) n : same_node (routeNode ord r) n -> xn_attrs n = head_attrs r ++ makeAttrs (ord (fst (route_Props r))) /\ Forall2 same_node (map trackNode (rt_tracks r)) (xn_nodes n).
Proof. unfold routeNode. intros H. destruct (rt_tracks r) as [|t ts]; cbn [map] in H; inversion H; subst; cbn; split; try reflexivity; [constructor|assumption]. Qed.

Lemma restore_routes_ok rs : Forall (fun r => gpx_route C r /\ gpx_no_own_keys r /\ word (rt_id r)) rs -> forall nodes, Forall2 same_node (map (routeNode ord) rs) nodes ->
  exists rs', restore_routes (map (fun r => map (fun t => map (coords C) (gpx_copyPoints t)) (rt_tracks r)) rs) nodes = Ret (GOk rs') /\
    Forall2 (gpx_same_route C) (List.filter has_track rs) rs'.
Proof.
  induction 1 as [|r rs (Hr & Hk & Hw) _ IH]; intros nodes F; cbn [map restore_routes List.filter]; [exists []; split; [reflexivity|constructor]|].
  cbn [map] in F. inversion F as [|? n ? nodes' Hn F']; subst. destruct (IH nodes' F') as (rs' & E & G). destruct (same_route_node r n Hn) as (Na & Nn).
  destruct (rt_tracks r) as [|t ts] eqn:Et.
  - unfold has_track at 1. rewrite Et. exists rs'. cbn [map tl]. auto.
  - unfold has_track at 1. rewrite Et. rewrite Na. destruct (route_read r Hr Hk) as (R1 & R2 & R3 & R4). set (p := makeProps _) in *.
    rewrite (value_word _ Hw) in R1. cbn [map]. change (map (coords C) (gpx_copyPoints t) :: map (fun t => map (coords C) (gpx_copyPoints t)) ts) with (map (fun t => map (coords C) (gpx_copyPoints t)) (t :: ts)).
    rewrite R1, R2, R3. set (name := text_of (value (rt_name r))). assert (Kn : kept (rt_name r) name) by apply kept_value.
    assert (Ln : legal_name name) by (eapply kept_legal; [apply Hr|exact Kn]).
    match goal with |- context [restore_tracks ?x _ _] => set (r0 := x) end.
    assert (Q : rt_id r0 = rt_id r /\ rt_color r0 = text_of (value (rt_color r)) /\ rt_name r0 = name /\ rt_props r0 = Some (gpx_resetProps p) /\ rt_tracks r0 = []).
    { subst r0. destruct (0 <? slen name)%Z eqn:En.
      - unfold route_ChangeName. rewrite (parse_name name Ln En). cbn. auto 10.
      - cbn. assert (name = ""%string) by (destruct name; [reflexivity|unfold slen in En; cbn in En; discriminate]). auto 10. }
    clearbody r0. destruct Q as (Q1 & Q2 & Q3 & Q4 & Q5).
    assert (Hts : Forall (gpx_track C) (t :: ts)) by (rewrite <- Et; apply Hr).
    destruct (restore_tracks_ok (t :: ts) Hts (xn_nodes n) Nn r0) as (r' & ts' & E' & (S1 & S2 & S3 & S4) & H2 & H3). rewrite E'. cbn [bind]. rewrite E. cbn [bind].
    exists (r' :: rs'). split; [reflexivity|]. constructor; [|exact G]. rewrite Q5 in H2. cbn in H2.
    split; [congruence|]. split; [rewrite S2, Q2; apply kept_value|]. split; [rewrite S3, Q3; exact Kn|]. split; [rewrite S4, Q4; exact R4|]. rewrite H2, Et. exact H3.
Qed.

(** ** documents *)
Lemma head_names : forall k, In k ["id"; "name"; "color"; "distance"; "units"]%string -> attr_name k.
Proof.
  intros k H. assert (D : forall c, forallb (fun b => b) [(97 <=? code c)%Z; (code c <=? 122)%Z] = true -> letter c).
  { intros c Hc. right. cbn in Hc. apply andb_true_iff in Hc as (H1 & H2). apply andb_true_iff in H2 as (H2 & _). apply Z.leb_le in H1. apply Z.leb_le in H2. lia. }
  repeat (destruct H as [<-|H]; [split; [eexists _, _; split; [reflexivity|apply D; reflexivity]|split; [discriminate|repeat (split; [left; apply D; reflexivity|]); exact I]]|]). destruct H.
Qed.
Lemma track_node_fine (t : track T) : gpx_track C t -> track_node_ok C (trackNode t).
Proof.
  intros (_ & _ & H1 & _ & H2 & H3 & _). constructor; [|exact H1].
  repeat (constructor; [split; [apply head_names; cbn; tauto|first [exact H3|exact H2|apply (gpx_f2s C L)]]|]). constructor.
Qed.
Lemma route_node_fine (r : route T) : gpx_route C r -> route_node_ok C (routeNode ord r).
Proof.
  intros (Ht & H1 & H2 & H3 & _ & Hp). unfold routeNode. constructor.
  - apply Forall_app. split.
    + repeat (constructor; [split; [apply head_names; cbn; tauto|first [exact H1|exact H3|exact H2|apply (gpx_f2s C L)|idtac]]|]); [|constructor].
      cbn. apply (gpx_ascii C L). vm_compute. repeat split; discriminate.
    + unfold makeAttrs. apply Forall_map. apply Forall_forall. intros [k v] Hin. cbn.
      apply (Permutation_in _ (Hord _)) in Hin. rewrite route_Props_entries in Hin. apply obj_get_in in Hin; [|apply entries_nodup]. rewrite entries_get in Hin.
      destruct (Hp k v Hin) as (A & B). split; [exact A|]. now apply fmt_back.
  - apply Forall_map. revert Ht. apply List.Forall_impl. exact track_node_fine.
Qed.

Lemma validate_ok : forall (rs : list (route T)) nodes, Forall2 same_node (map (routeNode ord) rs) nodes ->
  validateTracks (map (fun r => map (fun t => map (coords C) (gpx_copyPoints t)) (rt_tracks r)) rs) nodes = Ret true.
Proof.
  induction rs as [|r rs IH]; intros nodes F; cbn [map] in *; inversion F as [|? n ? nodes' Hn F']; subst; [reflexivity|]. cbn [validateTracks].
  destruct (same_route_node r n Hn) as (_ & Nn). apply Forall2_length in Nn. rewrite map_length in Nn.
  unfold zlen at 1 2. rewrite map_length, Nn, Z.eqb_refl. now apply IH.
Qed.

Lemma same_root ns n' : ns <> [] -> same_node (XNode "gpsgen" [] "" ns) n' -> xn_name n' = "gpsgen"%string /\ Forall2 same_node ns (xn_nodes n').
Proof. intros Hne H. inversion H; subst; [contradiction|]. auto. Qed.

Lemma decode_written (rs : list (route T)) : rs <> [] -> Forall (gpx_route C) rs -> exists b, gpx_Encode ord rs = GOk b /\
  exists nodes, Forall2 same_node (map (routeNode ord) rs) nodes /\
    forall x, gpx_Decode b x = restore_routes (map (fun r => map (fun t => map (coords C) (gpx_copyPoints t)) (rt_tracks r)) rs) nodes.
Proof.
  intros Hne Hr. destruct (gpx_back C L (map (fun r => map gpx_copyPoints (rt_tracks r)) rs) (map (routeNode ord) rs)) as (b & d' & E1 & Hb & E2 & (S1 & _ & _ & S4)).
  { apply Forall_map. revert Hr. apply List.Forall_impl. exact route_node_fine. }
  exists b. unfold gpx_Encode. destruct rs as [|r0 rs0] eqn:Ers; [contradiction|]. rewrite <- Ers in *. assert (Z0 : (zlen rs =? 0)%Z = false) by (rewrite Ers; reflexivity). rewrite Z0.
  unfold gpx_doc. rewrite E1. split; [reflexivity|]. cbn [gx_ext] in S4. inversion S4 as [|? n' ? l' Sn S5 Q1 Q2]. inversion S5; subst l'. subst.
  assert (Hn0 : map (routeNode ord) (r0 :: rs0) <> []) by discriminate. destruct (same_root _ _ Hn0 Sn) as (Nn & Fn). exists (xn_nodes n'). split; [exact Fn|].
  intros x. unfold gpx_Decode. assert (Zb : (slen b =? 0)%Z = false). { destruct b; [contradiction|]. unfold slen. cbn. apply Z.eqb_neq. lia. }
  rewrite Zb, E2. unfold routesExists. rewrite <- Q2. rewrite Nn. change ("gpsgen" =? "gpsgen")%string with true. cbv iota.
  assert (St : gx_tracks d' = map (fun r => map (fun t => map (coords C) (gpx_copyPoints t)) (rt_tracks r)) (r0 :: rs0)).
  { rewrite S1. cbn [gx_tracks]. rewrite map_map. apply map_ext. intros r. rewrite map_map. reflexivity. }
  assert (Hv : validateRoutes d' = Ret true).
  { unfold validateRoutes. rewrite <- Q2, St. cbn [map]. pose proof (Forall2_length _ _ _ Fn) as Fl. rewrite map_length in Fl. unfold zlen at 1 2. rewrite <- Fl. cbn [List.length]. rewrite map_length, Z.eqb_refl.
    exact (validate_ok (r0 :: rs0) _ Fn). }
  rewrite Hv. cbn [bind head deref]. rewrite St. reflexivity.
Qed.

Lemma C41_proof (x : gpxDraws) (rs : list (route T)) : rs <> [] -> Forall (fun r => gpx_route C r /\ gpx_no_own_keys r /\ word (rt_id r)) rs ->
  exists b rs', gpx_Encode ord rs = GOk b /\ gpx_Decode b x = Ret (GOk rs') /\ Forall2 (gpx_same_route C) (List.filter has_track rs) rs'.
Proof.
  intros Hne Hr. destruct (decode_written rs Hne) as (b & E & nodes & F & D). { revert Hr. apply List.Forall_impl. tauto. }
  destruct (restore_routes_ok rs Hr nodes F) as (rs' & E' & G). exists b, rs'. rewrite D. auto.
Qed.

(** an identifier that is a number or a truth value *)
Lemma C41_id_proof (x : gpxDraws) (rs : list (route T)) r : Forall (fun r => gpx_route C r /\ gpx_no_own_keys r) rs -> In r rs -> has_track r = true -> ~ word (rt_id r) ->
  exists b, gpx_Encode ord rs = GOk b /\ gpx_Decode b x = Ret (GErr ErrInvalidRoute).
Proof.
  intros Hr Hin Ht Hw. assert (Hne : rs <> []) by (intros ->; destruct Hin). destruct (decode_written rs Hne) as (b & E & nodes & F & D). { revert Hr. apply List.Forall_impl. tauto. }
  exists b. split; [exact E|]. rewrite D. clear Hne D E b. revert nodes F. induction Hr as [|r0 rs (H1 & H2) Hr IH]; intros nodes F; [destruct Hin|].
  cbn [map] in *. inversion F as [|? n ? nodes' Hn F']; subst. destruct (same_route_node r0 n Hn) as (Na & Nn). cbn [restore_routes].
  destruct Hin as [->|Hin].
  - unfold has_track in Ht. destruct (rt_tracks r) as [|t ts] eqn:Et; [discriminate|]. cbn [map]. rewrite Na. destruct (route_read r H1 H2) as (R1 & _). rewrite R1.
    pose proof (value_other (rt_id r) Hw) as V. destruct (value (rt_id r)); try reflexivity. exfalso. now apply (V s).
  - destruct (rt_tracks r0) as [|t ts] eqn:Et; [exact (IH Hin nodes' F')|]. rewrite <- Et in *.
    destruct (route_read r0 H1 H2) as (R1 & _). destruct (map (fun t => map (coords C) (gpx_copyPoints t)) (rt_tracks r0)) as [|s0 segs] eqn:Es; [rewrite Et in Es; discriminate|]. rewrite Na, R1.
    destruct (value (rt_id r0)); try reflexivity. rewrite <- Es.
    match goal with |- context [restore_tracks ?r1 _ _] => destruct (restore_tracks_ok (rt_tracks r0) (proj1 H1) (xn_nodes n) Nn r1) as (r' & ts' & E' & _) end.
    rewrite E'. cbn [bind]. rewrite (IH Hin nodes' F'). reflexivity.
Qed.

(** properties of tracks *)
Lemma C41_props_proof (x : gpxDraws) (rs : list (route T)) b rs' : Forall (fun r => gpx_route C r /\ gpx_no_own_keys r) rs ->
  gpx_Encode ord rs = GOk b -> gpx_Decode b x = Ret (GOk rs') -> forall r' t' k, In r' rs' -> In t' (rt_tracks r') -> props_lookup (entries_of (tk_props t')) k = None.
Proof.
  intros Hr E D r' t' k H1 H2. destruct rs as [|r0 rs0] eqn:Ers; [discriminate E|]. rewrite <- Ers in *. assert (Hne : rs <> []) by (rewrite Ers; discriminate).
  assert (Hall : Forall (fun r => gpx_route C r /\ gpx_no_own_keys r /\ word (rt_id r)) (List.filter has_track rs)).
  { apply Forall_forall. intros r Hin. apply filter_In in Hin as (Hin & Ht). destruct (Forall_forall (fun r => gpx_route C r /\ gpx_no_own_keys r) rs) as (Q & _). destruct (Q Hr r Hin) as (A & B). split; [exact A|]. split; [exact B|].
    destruct (word_dec (rt_id r)) as [W|W]; [exact W|]. exfalso. destruct (C41_id_proof x rs r Hr Hin Ht W) as (b' & E' & D'). congruence. }
  destruct (decode_written rs Hne) as (b' & E' & nodes & F & D'). { revert Hr. apply List.Forall_impl. tauto. }
  rewrite E in E'. injection E' as <-. rewrite D' in D. clear D' E Hne Ers r0 rs0. revert nodes rs' F D H1. induction Hr as [|r rs (A & B) Hr IH]; intros nodes rs' F D H1; cbn [map restore_routes] in *.
  - injection D as <-. destruct H1.
  - inversion F as [|? n ? nodes' Hn F']; subst. cbn [List.filter] in Hall. unfold has_track at 1 in Hall. destruct (rt_tracks r) as [|t ts] eqn:Et.
    + exact (IH Hall nodes' rs' F' D H1).
    + inversion Hall as [|? ? (_ & _ & W) Hall']; subst.
      assert (A1 : Forall (fun r => gpx_route C r /\ gpx_no_own_keys r /\ word (rt_id r)) [r]) by (constructor; [split; [exact A|split; [exact B|exact W]]|constructor]).
      assert (A2 : Forall2 same_node (map (routeNode ord) [r]) [n]) by (constructor; [exact Hn|constructor]).
      destruct (restore_routes_ok [r] A1 [n] A2) as (l & E1 & G1). cbn [map restore_routes] in E1. rewrite Et in E1.
      cbn [map] in D, E1. destruct (props_String _ "id") as [id []]; [|discriminate].
      match type of D with (let* y := ?e in _) = _ => destruct e as [[r1|]| |] eqn:E2; cbn [bind] in D, E1; try discriminate end. injection E1 as <-.
      destruct (restore_routes _ nodes') as [[l2|]| |] eqn:E3; cbn [bind] in D; try discriminate. injection D as <-.
      destruct H1 as [<-|H1]; [|exact (IH Hall' nodes' l2 F' E3 H1)].
      cbn [List.filter] in G1. unfold has_track in G1. rewrite Et in G1. inversion G1 as [|? ? ? ? (_ & _ & _ & _ & Gt) _]; subst. clear - Gt H2.
      induction Gt as [|a a' l l' (_ & _ & _ & _ & _ & P) _ IH]; [destruct H2|]. destruct H2 as [<-|H2]; [apply P|now apply IH].
Qed.

Lemma Forall2_in_left {A B} (R : A -> B -> Prop) l l' : Forall2 R l l' -> forall a, In a l -> exists b, In b l' /\ R a b.
Proof. induction 1 as [|a0 b0 l l' H _ IH]; intros a Hin; [destruct Hin|]. destruct Hin as [->|Hin]; [exists b0; split; [now left|exact H]|]. destruct (IH a) as (b & Hb & Hr); [assumption|]. exists b. split; [now right|exact Hr]. Qed.
Lemma C41_lost_proof (x : gpxDraws) (rs : list (route T)) b rs' : Forall (fun r => gpx_route C r /\ gpx_no_own_keys r) rs ->
  gpx_Encode ord rs = GOk b -> gpx_Decode b x = Ret (GOk rs') -> forall r t k, In r rs -> In t (rt_tracks r) -> props_lookup (entries_of (tk_props t)) k <> None ->
  ~ Forall2 gpx_all_route (List.filter has_track rs) rs'.
Proof.
  intros H E D r t k H1 H2 H3 F. assert (Hin : In r (List.filter has_track rs)). { apply filter_In. split; [exact H1|]. unfold has_track. destruct (rt_tracks r); [destruct H2|reflexivity]. }
  destruct (Forall2_in_left _ _ _ F r Hin) as (r' & H4 & _ & _ & _ & _ & G). destruct (Forall2_in_left _ _ _ G t H2) as (t' & H5 & A). apply H3.
  destruct A as (_ & _ & _ & _ & _ & A). rewrite <- (A k). exact (C41_props_proof x rs b rs' H E D r' t' k H4 H5).
Qed.

(** ** routes that lose nothing *)
Lemma kept_plain s s' : plain_text s -> kept s s' -> s' = s.
Proof. intros [->|W] (A & B); [|now apply A]. destruct (word_dec "") as [W|W]; [now apply A|now apply B]. Qed.
Lemma plain_track t t' : gpx_plain_track C t -> gpx_same_track C t t' -> gpx_all_track t t'.
Proof.
  intros (P1 & P2 & P3 & P4) (A & B & D & E & F & G).
  assert (Q : gpx_points C t = polyline_of t). { unfold gpx_points. induction P4 as [|[a b] l (Qa & Qb) _ IH]; [reflexivity|]. cbn [map]. rewrite IH. cbn in *. now rewrite Qa, Qb. }
  rewrite Q in A, B. split; [exact A|]. split; [exact B|]. split; [exact D|]. split; [now apply kept_plain|]. split; [now apply kept_plain|].
  intros k. now rewrite (G k), (P3 k).
Qed.
Lemma plain_route r r' : gpx_plain C r -> gpx_same_route C r r' -> gpx_all_route r r'.
Proof.
  intros (P1 & P2 & P3 & P4 & P5) (A & B & D & E & F). split; [exact A|]. split; [now apply kept_plain|]. split; [now apply kept_plain|]. split.
  - intros k. specialize (E k). specialize (P5 k). destruct (props_lookup (entries_of (rt_props r)) k) as [v|]; [|exact E].
    destruct E as (v' & E & G). rewrite E. f_equal. specialize (P5 v eq_refl). destruct G; try reflexivity; contradiction.
  - clear - F P4. induction F; [constructor|]. inversion P4; subst. constructor; [now apply plain_track|auto].
Qed.
Lemma C41_exact_proof (x : gpxDraws) (rs : list (route T)) : rs <> [] -> Forall (fun r => gpx_route C r /\ gpx_no_own_keys r /\ gpx_plain C r) rs ->
  exists b rs', gpx_Encode ord rs = GOk b /\ gpx_Decode b x = Ret (GOk rs') /\ Forall2 gpx_all_route (List.filter has_track rs) rs'.
Proof.
  intros Hne H. destruct (C41_proof x rs Hne) as (b & rs' & E & D & F). { revert H. apply List.Forall_impl. intros r (A & B & W & _). auto. }
  exists b, rs'. split; [exact E|]. split; [exact D|].
  assert (K : Forall (gpx_plain C) (List.filter has_track rs)). { apply List.Forall_forall. intros r Hin. apply filter_In in Hin as (Hin & _). rewrite List.Forall_forall in H. apply H, Hin. }
  clear - F K L. induction F; [constructor|]. inversion K; subst. constructor; [now apply plain_route|auto].
Qed.
End P.

Section Q.
Context {T : Type} {N : Num T} {X : GpxLib T}.

(** ** C67 *)
Lemma validateTracks_ret : forall (ts : list (list (list (T * T)))) nodes, List.length nodes = List.length ts -> exists b, validateTracks ts nodes = Ret b /\
  (b = true -> Forall2 (fun t n => List.length t = List.length (xn_nodes n)) ts nodes).
Proof.
  induction ts as [|t ts IH]; intros nodes H; destruct nodes as [|n nodes]; try discriminate; cbn [validateTracks]; [exists true; split; [reflexivity|constructor]|].
  destruct (Z.eqb_spec (zlen t) (zlen (xn_nodes n))) as [E|E]; [|exists false; split; [reflexivity|discriminate]].
  destruct (IH nodes ltac:(cbn in H; lia)) as (b & -> & Hb). exists b. split; [reflexivity|]. intros ->. constructor; [unfold zlen in E; lia|now apply Hb].
Qed.
Lemma restore_tracks_ret : forall segs nodes (r : route T), List.length segs = List.length nodes -> exists y, restore_tracks r segs nodes = Ret y.
Proof.
  induction segs as [|s segs IH]; intros nodes r H; destruct nodes as [|n nodes]; try discriminate; cbn [restore_tracks]; [eauto|].
  destruct (RestoreTrack _ _ _) as [t|]; [|eauto]. apply IH. cbn in H. lia.
Qed.
Lemma restore_routes_ret : forall (ts : list (list (list (T * T)))) nodes, Forall2 (fun t n => List.length t = List.length (xn_nodes n)) ts nodes -> exists y, restore_routes ts nodes = Ret y.
Proof.
  induction 1 as [|t n ts nodes H _ (y & IH)]; cbn [restore_routes]; [eauto|]. destruct t as [|s segs]; [cbn [tl]; eauto|].
  destruct (props_String _ "id") as [id []]; [|eauto]. match goal with |- context [restore_tracks ?r _ _] => destruct (restore_tracks_ret (s :: segs) (xn_nodes n) r H) as (z & ->) end.
  cbn [bind]. destruct z as [r|e]; [|eauto]. rewrite IH. cbn [bind]. destruct y; eauto.
Qed.
Lemma C67_proof data x : exists y, gpx_Decode (T := T) data x = Ret y.
Proof.
  unfold gpx_Decode. destruct (_ =? _)%Z; [eauto|]. destruct (gpx_parse data) as [d|]; [|eauto]. destruct (routesExists d) eqn:Er; [|eauto].
  unfold routesExists in Er. destruct (gx_ext d) as [|n l] eqn:Ee; [discriminate|]. unfold validateRoutes. rewrite Ee. destruct (gx_tracks d) as [|t ts] eqn:Et; [cbn; eauto|].
  destruct (Z.eqb_spec (zlen (xn_nodes n)) (zlen (t :: ts))) as [E|E]; [|cbn; eauto].
  destruct (validateTracks_ret (t :: ts) (xn_nodes n)) as (b & -> & Hb); [unfold zlen in E; lia|]. cbn [bind]. destruct b; [|eauto]. cbn [head deref bind]. apply restore_routes_ret. auto.
Qed.

(** ** C68 *)
Definition drawn (ls : list (list (T * T))) (r : route T) : Prop := Forall2 (fun l t => is_track_through (pts l) t) ls (rt_tracks r).
Lemma new_tracks_ok d : forall ls (r : route T) j, (Forall (fun l => (2 <= zlen l)%Z) ls /\ exists r' ts, new_tracks r d j ls = GOk r' /\ rt_tracks r' = rt_tracks r ++ ts /\ Forall2 (fun l t => is_track_through (pts l) t) ls ts) \/
  (~ Forall (fun l => (2 <= zlen l)%Z) ls /\ new_tracks r d j ls = GErr ErrInvalidRoutePath).
Proof.
  induction ls as [|l ls IH]; intros r j; cbn [new_tracks]; [left; split; [constructor|]; exists r, []; rewrite app_nil_r; split; [reflexivity|split; [reflexivity|constructor]]|].
  assert (Ll : List.length (makePoints l) = List.length l) by apply map_length.
  destruct (Z.le_gt_cases 2 (zlen l)) as [H|H]; unfold zlen in H.
  - destruct (NewTrack_ok (makePoints l) (fst (d j)) (snd (d j))) as (t & E & A & _); [lia|]. rewrite E.
    destruct (IH (AddTrack r (Some t)) (S j)) as [(B & r' & ts & E' & D & F)|(B & E')].
    + left. split; [constructor; [exact H|exact B]|]. exists r', (t :: ts). split; [exact E'|]. split; [rewrite D; cbn; rewrite <- app_assoc; reflexivity|]. constructor; [exact A|exact F].
    + right. split; [|exact E']. intros K. inversion K; subst. contradiction.
  - rewrite NewTrack_err by lia. right. split; [|reflexivity]. intros K. inversion K; subst. unfold zlen in *. lia.
Qed.
Lemma new_routes_ok x k : forall lss i, (Forall (Forall (fun l => (2 <= zlen l)%Z)) lss /\ exists rs, new_routes x k i lss = GOk rs /\ Forall2 drawn lss rs) \/
  (~ Forall (Forall (fun l => (2 <= zlen l)%Z)) lss /\ new_routes x k i lss = GErr ErrInvalidRoutePath).
Proof.
  induction lss as [|ls lss IH]; intros i; cbn [new_routes]; [left; split; [constructor|]; exists []; split; [reflexivity|constructor]|].
  destruct (new_tracks_ok (xd_track x k i) ls (NewRoute (fst (xd_route x k i)) (snd (xd_route x k i))) 0) as [(A & r & ts & -> & B & C)|(A & ->)].
  - destruct (IH (S i)) as [(D & rs & -> & F)|(D & ->)].
    + left. split; [now constructor|]. exists (r :: rs). split; [reflexivity|]. constructor; [|exact F]. unfold drawn. rewrite B. exact C.
    + right. split; [|reflexivity]. intros K. inversion K; subst. contradiction.
  - right. split; [|reflexivity]. intros K. inversion K; subst. contradiction.
Qed.
Lemma not_ours_exists (d : gpxdoc T) : not_ours d -> routesExists d = false.
Proof. unfold not_ours, routesExists. intros H. destruct (gx_ext d) as [|n l]; [reflexivity|]. apply String.eqb_neq. exact (H n l eq_refl). Qed.
Lemma Decode_foreign data x (d : gpxdoc T) : data <> ""%string -> gpx_parse data = Some d -> not_ours d -> gpx_Decode data x = Ret (foreign_routes x d).
Proof.
  intros Hd E Ho. unfold gpx_Decode. assert (Z0 : (slen data =? 0)%Z = false) by (destruct data; [contradiction|unfold slen; cbn; apply Z.eqb_neq; lia]).
  now rewrite Z0, E, (not_ours_exists d Ho).
Qed.
Lemma C68_gpx_proof x data (d : gpxdoc T) lss : data <> ""%string -> gpx_parse data = Some d -> not_ours d -> gpx_lines d lss ->
  (Forall (Forall (fun l => (2 <= zlen l)%Z)) lss -> exists rs, gpx_Decode data x = Ret (GOk rs) /\
     Forall2 (fun ls r => Forall2 (fun l t => is_track_through (pts l) t) ls (rt_tracks r)) lss rs) /\
  (~ Forall (Forall (fun l => (2 <= zlen l)%Z)) lss -> gpx_Decode data x = Ret (GErr ErrInvalidRoutePath)).
Proof.
  intros Hd E Ho Hl. rewrite (Decode_foreign data x d Hd E Ho). unfold foreign_routes.
  assert (Fin : exists k, match Ret (match new_routes (T := T) x k 0 lss with GErr e => GErr e | GOk l => GOk l end) with y => y = Ret (foreign_routes x d) end).
  { unfold foreign_routes. destruct Hl as [e|r rs e|t ts e|p ps e]; cbn [gx_routes gx_tracks gx_waypoints].
    - exists 0%nat. reflexivity.
    - exists 0%nat. cbn [map]. destruct (new_routes x 0 0 ([r] :: map (fun l => [l]) rs)); reflexivity.
    - exists 1%nat. destruct (new_routes x 1 0 (t :: ts)); reflexivity.
    - exists 2%nat. destruct (new_routes x 2 0 [[p :: ps]]); reflexivity. }
  destruct Fin as (k & Fin). fold (foreign_routes x d). rewrite <- Fin. destruct (new_routes_ok x k lss 0) as [(A & rs & -> & F)|(A & ->)].
  - split; [intros _; exists rs; auto|contradiction].
  - split; [contradiction|reflexivity].
Qed.
Lemma Ret_eq {A} (a b : A) : Ret a = Ret b -> a = b.
Proof. congruence. Qed.
Lemma C68_waypoints_proof x data (d : gpxdoc T) rs : data <> ""%string -> gpx_parse data = Some d -> not_ours d -> gx_waypoints d <> [] -> gpx_Decode data x = Ret (GOk rs) ->
  exists r t, rs = [r] /\ rt_tracks r = [t] /\ is_track_through (pts (gx_waypoints d)) t.
Proof.
  intros Hd E Ho Hw. rewrite (Decode_foreign data x d Hd E Ho). unfold foreign_routes. intros H. apply Ret_eq in H.
  destruct (match gx_routes d with [] => _ | _ => _ end) as [l0|]; [|discriminate]. destruct (match gx_tracks d with [] => _ | _ => _ end) as [l1|]; [|discriminate].
  destruct (gx_waypoints d) as [|p ps]; [contradiction|]. destruct (new_routes_ok x 2 [[p :: ps]] 0) as [(A & rs' & E' & F)|(A & E')]; rewrite E' in H; [|discriminate]. injection H as <-.
  inversion F as [|? r ? ? Fr F']; subst. inversion F'; subst. inversion Fr as [|? t ? ? Ft F2 Q1 Q2]; subst. inversion F2; subst. exists r, t. auto.
Qed.
Lemma C68_waypoint_proof x data (d : gpxdoc T) p : data <> ""%string -> gpx_parse data = Some d -> not_ours d -> gx_waypoints d = [p] ->
  exists e, gpx_Decode data x = Ret (GErr e).
Proof.
  intros Hd E Ho Hw. rewrite (Decode_foreign data x d Hd E Ho). unfold foreign_routes. rewrite Hw.
  destruct (match gx_routes d with [] => _ | _ => _ end) as [l0|e]; [|eauto]. destruct (match gx_tracks d with [] => _ | _ => _ end) as [l1|e]; [|eauto].
  destruct (new_routes_ok x 2 [[[p]]] 0) as [(A & _)|(A & ->)]; [|eauto]. exfalso. inversion A as [|? ? A1 _]; subst. inversion A1 as [|? ? A2 _]; subst. unfold zlen in A2. cbn in A2. lia.
Qed.
Lemma C68_tracks_proof x data (d : gpxdoc T) rs : data <> ""%string -> gpx_parse data = Some d -> not_ours d -> gx_waypoints d = [] -> gx_tracks d <> [] -> gpx_Decode data x = Ret (GOk rs) ->
  Forall2 (fun ls r => Forall2 (fun l t => is_track_through (pts l) t) ls (rt_tracks r)) (gx_tracks d) rs.
Proof.
  intros Hd E Ho Hw Ht. rewrite (Decode_foreign data x d Hd E Ho). unfold foreign_routes. rewrite Hw. intros H. apply Ret_eq in H.
  destruct (match gx_routes d with [] => _ | _ => _ end) as [l0|]; [|discriminate].
  destruct (gx_tracks d) as [|t ts]; [contradiction|]. destruct (new_routes_ok x 1 (t :: ts) 0) as [(A & rs' & E' & F)|(A & E')]; rewrite E' in H; [|discriminate]. injection H as <-. exact F.
Qed.
End Q.
