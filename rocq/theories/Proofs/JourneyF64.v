(** C81: journeys at binary64 precision. *)
From Coq Require Import Reals Lra Lia ZArith.
From Flocq Require Import Core BinarySingleNaN Relative.
From Verif.Model Require Import Base Num NumF64 Geo Curve PropMap Types TypesSnap Track Route Navigator.
From Verif.Spec Require Import ListSpec TrackSpec RouteSpec NavSpec NumLaws RealSpec JourneySpec.
From Verif.Proofs Require Import F64Lemmas JourneyHist JourneyAny.
Open Scope R_scope.

#[local] Instance prec_pos : Prec_gt_0 53 := eq_refl.
#[local] Instance vexp : Valid_exp fexp64 := FLT_exp_valid (-1074) 53.
#[local] Instance mexp : Monotone_exp fexp64 := FLT_exp_monotone (-1074) 53.

(** comparison of a value known to be finite below something *)
Lemma leb_fin (x y : f64) : fin x -> fin y -> Bleb x y = true -> val x <= val y.
Proof. intros Fx Fy H. pose proof (Bleb_correct _ _ x y Fx Fy) as E. rewrite H in E. symmetry in E.
  destruct (Rle_bool_spec (B2R x) (B2R y)); [assumption|discriminate]. Qed.

Lemma add_fits (c d x D : f64) : fin c -> fin D -> 0 <= val c -> Bleb (f64_ofZ 0) d = true ->
  Bleb x D = true -> Bleb (f64_add c d) x = true ->
  fin (f64_add c d) /\ fin d /\ val (f64_add c d) = rnd (val c + val d) /\ 0 <= val d /\ val (f64_add c d) <= val D.
Proof.
  intros Fc FD Hc H0 HD Hx.
  assert (Fd : fin d).
  { destruct d as [s|[|]| |s m e' B]; try reflexivity.
    - exfalso. clear -H0. vm_compute in H0. discriminate.
    - exfalso. destruct c as [|[|]| |]; try discriminate Fc; destruct x as [|[|]| |], D as [|[|]| |]; cbn in *; try discriminate.
    - exfalso. clear -H0. vm_compute in H0. discriminate. }
  pose proof (@Bplus_correct 53 1024 prec53 emax1024 mode_NE c d Fc Fd) as C.
  destruct (ofZ_ok 0) as [V0 F0]; [lia|].
  pose proof (leb_fin _ _ F0 Fd H0) as Hd. rewrite V0 in Hd.
  destruct (Rlt_bool_spec (Rabs (round radix2 (SpecFloat.fexp 53 1024) (round_mode mode_NE) (B2R c + B2R d))) (bpow radix2 1024)) as [L|L].
  - destruct C as (C1 & C2 & _). change (Bplus mode_NE c d) with (f64_add c d) in C1, C2.
    split; [exact C2|]. split; [exact Fd|]. split; [exact C1|]. split; [exact Hd|].
    assert (Fx : fin x).
    { destruct x as [s|[|]| |s m e' B]; try reflexivity.
      - exfalso. revert Hx. destruct (f64_add c d) as [|[|]| |]; try discriminate; cbn in C2; discriminate.
      - exfalso. revert HD. destruct D as [|[|]| |]; try discriminate; cbn in FD; discriminate.
      - exfalso. revert HD. destruct D as [|[|]| |]; discriminate. }
    eapply Rle_trans; [apply (leb_fin _ _ C2 Fx Hx)|apply (leb_fin _ _ Fx FD HD)].
  - exfalso. destruct C as [C Cs]. change (Bplus mode_NE c d) with (f64_add c d) in C.
    assert (Hs : Bsign c = false \/ val c = 0).
    { destruct c as [s|s| |s m e' B]; try discriminate Fc; [right; reflexivity|left]. destruct s; [|reflexivity].
      exfalso. pose proof (F2R_lt_0 radix2 (Float radix2 (Z.neg m) e') (Pos2Z.neg_is_neg m)) as X.
      change (val (B754_finite true m e' B)) with (F2R (Float radix2 (Z.neg m) e')) in Hc. lra. }
    destruct Hs as [Hs|Hs].
    + rewrite Hs in C. destruct (f64_add c d) as [|[|]| |] eqn:E; cbn in C; try discriminate.
      destruct x as [|[|]| |]; cbn in Hx; try discriminate; destruct D as [|[|]| |]; cbn in *; try discriminate.
    + change (B2R c) with (val c) in L. rewrite Hs, Rplus_0_l in L.
      change (bpow radix2 1024 <= Rabs (rnd (val d))) in L. rewrite (rnd_fmt _ (fmt_val d)) in L.
      pose proof (abs_B2R_lt_emax 53 1024 d). unfold val in L. lra.
Qed.

Lemma ulp_step e D : fmt e -> 0 < e -> 0 <= D -> D <= bpow radix2 52 * e -> ulp radix2 fexp64 D <= e.
Proof.
  intros Fe He HD H.
  destruct (Rle_or_lt (bpow radix2 (-1022)) D) as [B|B].
  - eapply Rle_trans; [apply (ulp_FLT_le radix2 (-1074) 53); rewrite Rabs_pos_eq by lra; exact B|].
    rewrite Rabs_pos_eq by lra. change (1 - 53)%Z with (-52)%Z.
    replace e with (bpow radix2 52 * e * bpow radix2 (-52)).
    + apply Rmult_le_compat_r; [apply bpow_ge_0|exact H].
    + rewrite (Rmult_comm _ e), Rmult_assoc, <- bpow_plus. change (bpow radix2 (52 + -52)) with 1. lra.
  - assert (E : ulp radix2 fexp64 D = bpow radix2 (-1074)).
    { apply (ulp_FLT_small radix2 (-1074) 53). rewrite Rabs_pos_eq by lra. eapply Rlt_le_trans; [exact B|]. apply bpow_le. lia. }
    rewrite E. destruct (Rle_or_lt (bpow radix2 (-1074)) e) as [L|L]; [exact L|exfalso].
    apply (Rlt_not_le _ _ L). apply (generic_format_ge_bpow radix2 fexp64 (-1074)); [|exact He|exact Fe].
    intros k. unfold fexp64, FLT_exp. lia.
Qed.

Lemma gain (c d e D : f64) : fin c -> fin d -> 0 <= val c -> val e <= val d -> 0 < val e ->
  0 <= val D -> val D <= bpow radix2 52 * val e -> rnd (val c + val d) <= val D ->
  val c + val e / 2 <= rnd (val c + val d).
Proof.
  intros Fc Fd Hc Hd He HD0 HD H.
  assert (M : rnd (val c + val e) <= rnd (val c + val d)) by (apply rnd_mono; lra).
  pose proof (error_le_half_ulp_round radix2 fexp64 (fun x => negb (Z.even x)) (val c + val e)) as E.
  change (round radix2 fexp64 (Znearest (fun x => negb (Z.even x))) (val c + val e)) with (rnd (val c + val e)) in E.
  assert (P : 0 <= rnd (val c + val e)).
  { apply round_ge_generic; [apply vexp|apply valid_rnd_N|apply generic_format_0|lra]. }
  assert (U : ulp radix2 fexp64 (rnd (val c + val e)) <= val e).
  { eapply Rle_trans; [|apply (ulp_step (val e) (val D)); [apply fmt_val|assumption..]].
    apply ulp_le; [apply vexp|apply mexp|]. rewrite !Rabs_pos_eq by lra. lra. }
  apply Rabs_le_inv in E. lra.
Qed.

Section S.
Context (m : MathLib).
#[local] Instance NF : Num f64 := F64Num m.
Context {J : JsonLib f64}.

Lemma C81_completes_proof opts uuid draws (n0 : navigator f64) ops n (e D : f64) args :
  finite e -> finite D -> 0 < value e -> 0 <= value D <= 2 ^ 52 * value e ->
  navigator_New opts uuid draws = GOk n0 ->
  Forall (lengths_op (fun x => fle x D)) ops -> Forall uint32_op ops -> run_navs n0 ops = Ret n ->
  rewound n \/ Forall no_jump_op ops /\
    Forall (fun o => match o with NNextLocation tick speed _ => fle f0 (fmul tick speed) = true | _ => True end) ops ->
  n_routes n <> [] ->
  Forall (fun a => fle e (fmul (fst (fst a)) (snd (fst a))) = true /\ uint32 (snd a)) args ->
  IZR (Z.max 0 (n_off n)) + 3601 *
    ((2 * value D / value e + 1) * IZR (count_segments n) + IZR (count_tracks n) + IZR (zlen (n_routes n)))
    < INR (List.length args) ->
  completion_among n args.
Proof.
  intros Fe FD He [HD0 HD] H0 Ho Hu H Hr Hne Ha Hl.
  assert (HD' : val D <= bpow radix2 52 * val e).
  { replace (bpow radix2 52) with (2 ^ 52); [exact HD|]. rewrite (pow_IZR 2 52). reflexivity. }
  change (0 <= val D) in HD0.
  set (used := fun c : f64 => Zfloor (2 * val c / val e)).
  set (pos := fun c : f64 => fin c /\ 0 <= val c <= val D).
  assert (He' : 0 < val e) by exact He.
  assert (Mono : forall x y, x <= y -> (Zfloor (2 * x / val e) <= Zfloor (2 * y / val e))%Z).
  { intros x y Hxy. apply Zfloor_le. unfold Rdiv. apply Rmult_le_compat_r; [apply Rlt_le, Rinv_0_lt_compat, He'|lra]. }
  destruct (ofZ_ok 0) as [V0 F0]; [lia|].
  assert (U0 : used (@f0 f64 NF) = 0%Z).
  { unfold used. change (@f0 f64 NF) with (f64_ofZ 0). rewrite V0. replace (2 * 0 / val e) with 0 by (field; lra). apply (Zfloor_IZR 0). }
  assert (Lz : forall x, 0 <= x -> (0 <= Zfloor (2 * x / val e))%Z).
  { intros x Hx. specialize (Mono 0 x Hx). replace (2 * 0 / val e) with 0 in Mono by (field; lra). rewrite (Zfloor_IZR 0) in Mono. exact Mono. }
  assert (E0 : forall d, Bleb e d = true -> Bleb (f64_ofZ 0) d = true).
  { intros d Hd. destruct d as [s|s| |s mm ee B].
    - reflexivity.
    - destruct s; [|reflexivity]. destruct e as [|[|]| |]; discriminate.
    - destruct e as [|[|]| |]; discriminate.
    - destruct s; [|reflexivity]. exfalso.
      assert (Fd : fin (B754_finite true mm ee B)) by reflexivity.
      pose proof (leb_fin _ _ Fe Fd Hd) as L. pose proof (F2R_lt_0 radix2 (Float radix2 (Z.neg mm) ee) (Pos2Z.neg_is_neg mm)) as X.
      change (val (B754_finite true mm ee B)) with (F2R (Float radix2 (Z.neg mm) ee)) in L. lra. }
  refine (completes_reached (zero_eq_zero_F64 m) (Zfloor (2 * val D / val e)) used
            (fun d => Bleb e d = true) (fun x => Bleb x D) pos (Lz _ HD0) U0 _ _ _ _
            (fun d => Bleb (f64_ofZ 0) d = true) _ opts uuid draws n0 ops n args H0 Ho Hu H Hr Hne Ha _).
  - split; [exact F0|]. change (0 <= val (f64_ofZ 0) <= val D). rewrite V0. lra.
  - vm_compute. reflexivity.
  - intros c d x [Fc Hc] Hd Hx Hfit.
    destruct (add_fits c d x D Fc FD (proj1 Hc) (E0 d Hd) Hx Hfit) as (A1 & A2 & A3 & A4 & A5).
    assert (G : val c + val e / 2 <= rnd (val c + val d)).
    { apply (gain c d e D Fc A2 (proj1 Hc) (leb_fin _ _ Fe A2 Hd) He' HD0 HD'). rewrite <- A3. exact A5. }
    rewrite <- A3 in G. change (pos (f64_add c d) /\ (used c + 1 <= used (f64_add c d) <= Zfloor (2 * val D / val e))%Z). unfold pos, used.
    split; [split; [exact A1|lra]|]. split; [|apply Mono; exact A5].
    apply Z.le_trans with (Zfloor (2 * (val c + val e / 2) / val e)); [|apply Mono; exact G].
    replace (2 * (val c + val e / 2) / val e) with (2 * val c / val e + 1) by (field; lra).
    apply Zfloor_lub. rewrite plus_IZR. pose proof (Zfloor_lb (2 * val c / val e)). lra.
  - intros c [_ Hc]. split; [apply Lz, Hc|apply Mono, Hc].
  - intros c d x [Fc Hc] Hd Hx Hfit.
    destruct (add_fits c d x D Fc FD (proj1 Hc) Hd Hx Hfit) as (A1 & A2 & A3 & A4 & A5).
    split; [exact A1|]. split; [|exact A5]. change (0 <= val (f64_add c d)). rewrite A3.
    apply round_ge_generic; [apply vexp|apply valid_rnd_N|apply generic_format_0|lra].
  - apply lt_IZR. rewrite <- INR_IZR_INZ. eapply Rle_lt_trans; [|exact Hl].
    rewrite plus_IZR, mult_IZR, !plus_IZR, mult_IZR, plus_IZR.
    pose proof (Zfloor_lb (2 * val D / val e)) as F. change (value D) with (val D). change (value e) with (val e).
    assert (C : 0 <= IZR (count_segments n)) by (apply IZR_le, count_segments_nonneg).
    apply Rplus_le_compat_l, Rmult_le_compat_l; [lra|].
    apply Rplus_le_compat_r, Rplus_le_compat_r, Rmult_le_compat_r; lra.
Qed.
End S.
