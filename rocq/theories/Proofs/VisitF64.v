(** C28 and C32 at binary64 precision: the laws JourneyVisit.v asks for. *)
From Coq Require Import Reals Lra Lia ZArith.
From Flocq Require Import Core BinarySingleNaN Relative.
From Verif.Model Require Import Base Num NumF64 Geo Curve PropMap Types TypesSnap Track Route Navigator.
From Verif.Spec Require Import ListSpec TrackSpec RouteSpec NavSpec NumLaws RealSpec JourneySpec.
From Verif.Proofs Require Import F64Lemmas NavLemmas NavProofs NavProofs2 NavReal6 JourneyHist JourneyAny JourneyF64 JourneyVisit.
Open Scope R_scope.

#[local] Instance prec_pos : Prec_gt_0 53 := eq_refl.
#[local] Instance vexp : Valid_exp fexp64 := FLT_exp_valid (-1074) 53.

Lemma ltb_fin (x y : f64) : fin x -> fin y -> Bltb x y = true <-> val x < val y.
Proof. intros Fx Fy. rewrite (Bltb_correct _ _ x y Fx Fy). unfold val.
  destruct (Rlt_bool_spec (B2R x) (B2R y)); split; intros; try assumption; try reflexivity; try discriminate; lra. Qed.

Lemma pos_shape (mk d : f64) : fin mk -> 0 <= val mk -> Bltb mk d = true ->
  d = B754_infinity false \/ exists m e B, d = B754_finite false m e B.
Proof.
  intros Fm Hm H. destruct d as [s|[|]| |[|] m e B].
  - exfalso. apply (ltb_fin mk (B754_zero s) Fm eq_refl) in H. cbn in H. lra.
  - exfalso. destruct mk as [|[|]| |[|]]; discriminate.
  - now left.
  - exfalso. destruct mk as [|[|]| |[|]]; discriminate.
  - exfalso. apply (ltb_fin mk (B754_finite true m e B) Fm eq_refl) in H.
    pose proof (F2R_lt_0 radix2 (Float radix2 (Z.neg m) e) (Pos2Z.neg_is_neg m)) as X.
    change (val (B754_finite true m e B)) with (F2R (Float radix2 (Z.neg m) e)) in H. lra.
  - right. eauto.
Qed.

Lemma zero_add (d : f64) mk : fin mk -> 0 <= val mk -> Bltb mk d = true -> f64_add (f64_ofZ 0) d = d.
Proof. intros Fm Hm H. destruct (pos_shape mk d Fm Hm H) as [->|(m & e & B & ->)]; reflexivity. Qed.

Lemma pos_add mk (c d : f64) : fin mk -> 0 <= val mk -> Bltb mk d = true -> 0 < val c -> fin c -> Bltb mk (f64_add c d) = true.
Proof.
  intros Fm Hm Hd Hc Fc. destruct (pos_shape mk d Fm Hm Hd) as [->|(m & e & B & E)].
  { destruct c as [| | |]; try discriminate Fc; [exfalso; cbn in Hc; lra|]. cbn. destruct mk as [|[|]| |[|]]; try discriminate; reflexivity. }
  assert (Fd : fin d) by (rewrite E; reflexivity).
  apply (ltb_fin mk d Fm Fd) in Hd.
  pose proof (@Bplus_correct 53 1024 prec53 emax1024 mode_NE c d Fc Fd) as C.
  destruct (Rlt_bool_spec (Rabs (round radix2 (SpecFloat.fexp 53 1024) (round_mode mode_NE) (B2R c + B2R d))) (bpow radix2 1024)) as [L|L].
  - destruct C as (C1 & C2 & _). change (Bplus mode_NE c d) with (f64_add c d) in C1, C2.
    apply (ltb_fin mk _ Fm C2). change (val (f64_add c d) = rnd (val c + val d)) in C1. rewrite C1.
    assert (M : rnd (val d) <= rnd (val c + val d)) by (apply rnd_mono; lra).
    rewrite (rnd_fmt _ (fmt_val d)) in M. lra.
  - destruct C as [C _]. change (Bplus mode_NE c d) with (f64_add c d) in C.
    assert (Hs : Bsign c = false).
    { destruct c as [s|s| |s m' e' B']; try discriminate Fc; [exfalso; cbn in Hc; lra|]. destruct s; [|reflexivity].
      exfalso. pose proof (F2R_lt_0 radix2 (Float radix2 (Z.neg m') e') (Pos2Z.neg_is_neg m')) as X.
      change (val (B754_finite true m' e' B')) with (F2R (Float radix2 (Z.neg m') e')) in Hc. lra. }
    rewrite Hs in C. destruct (f64_add c d) as [|[|]| |]; cbn in C; try discriminate.
    destruct mk as [|[|]| |[|]]; try discriminate; reflexivity.
Qed.

Section S.
Context (m : MathLib).
#[local] Instance NF : Num f64 := F64Num m.
Context {J : JsonLib f64}.

Lemma mark_fin : fin (@fdec f64 NF 1 10) /\ 0 < val (@fdec f64 NF 1 10).
Proof.
  assert (F : fin (@fdec f64 NF 1 10)) by (vm_compute; reflexivity). split; [exact F|].
  destruct (ofZ_ok 0) as [V0 F0]; [lia|]. rewrite <- V0. apply (ltb_fin _ _ F0 F). vm_compute. reflexivity.
Qed.

Lemma beyond_add (c d : f64) : c = f0 \/ c = @fdec f64 NF 1 10 \/ flt (@fdec f64 NF 1 10) c = true ->
  flt (@fdec f64 NF 1 10) d = true -> flt (@fdec f64 NF 1 10) (fadd c d) = true.
Proof.
  destruct mark_fin as [Fm Hm]. intros Hc Hd. change (Bltb (@fdec f64 NF 1 10) d = true) in Hd.
  change (Bltb (@fdec f64 NF 1 10) (f64_add c d) = true).
  destruct Hc as [->|[->|Hc]].
  - change (@f0 f64 NF) with (f64_ofZ 0). rewrite (zero_add d _ Fm (Rlt_le _ _ Hm) Hd). exact Hd.
  - apply pos_add; try assumption. lra.
  - change (Bltb (@fdec f64 NF 1 10) c = true) in Hc.
    destruct (pos_shape _ c Fm (Rlt_le _ _ Hm) Hc) as [->|(mm & e & B & E)].
    + destruct (pos_shape _ d Fm (Rlt_le _ _ Hm) Hd) as [->|(mm & e & B & ->)]; vm_compute; reflexivity.
    + assert (Fc : fin c) by (rewrite E; reflexivity). apply pos_add; try assumption; [lra|].
      apply (ltb_fin _ _ Fm Fc) in Hc. lra.
Qed.

Lemma ltb_neq (x y : f64) : Bltb x y = true -> Beqb y x = false.
Proof.
  unfold Bltb, Beqb, SpecFloat.SFltb, SpecFloat.SFeqb. intros H.
  pose proof (Bcompare_swap _ _ x y) as S. unfold Bcompare in S.
  destruct (SpecFloat.SFcompare (B2SF x) (B2SF y)) as [[| |]|]; try discriminate. cbn in S. rewrite S. reflexivity.
Qed.

Lemma C32_f64_proof opts uuid draws (n0 : navigator f64) ops n ops' n' :
  navigator_New opts uuid draws = GOk n0 -> run_navs n0 ops = Ret n -> rewound n ->
  Forall longer_than_mark ops' -> run_navs n ops' = Ret n' ->
  (fst (IsFinish n') = true <-> pending n False ops').
Proof.
  intros H0 H Hs. apply (C32_proof (zero_eq_zero_F64 m)); [vm_compute; reflexivity|vm_compute; reflexivity|..|exact Hs].
  - intros x Hx. exact (ltb_neq _ _ Hx).
  - exact beyond_add.
  - eapply reach_wf; [exact H0|exact H|now apply rewound_on].
Qed.

Lemma C28_f64_proof opts uuid draws (n0 : navigator f64) ops n tk args a bs n1 n2 :
  navigator_New opts uuid draws = GOk n0 -> run_navs n0 ops = Ret n ->
  at_track_start n tk -> linked tk -> tk_segments tk <> [] ->
  Forall (small_step tk) (args ++ [a]) ->
  locations n args = Ret (bs, n1) -> ~ offline_now n1 ->
  NextLocation n1 (fst (fst a)) (snd (fst a)) (snd a) = Ret (false, n2) ->
  forall i, (0 <= i < zlen (tk_segments tk))%Z -> visited n args (n_ri n) (n_ti n) i.
Proof.
  intros H0 H Hs. destruct (ofZ_ok 0) as [V0 F0]; [lia|].
  assert (P0 : 0 <= val (f64_ofZ 0)) by (rewrite V0; lra).
  apply (C28_proof (zero_eq_zero_F64 m)); [..|exact Hs].
  - intros d x Hd Hx. change (Bltb (f64_ofZ 0) d = true) in Hd. change (Bleb d x = true) in Hx. change (Beqb x (f64_ofZ 0) = false).
    destruct (pos_shape _ d F0 P0 Hd) as [->|(mm & e & B & ->)]; destruct x as [|[|]| |[|]]; try discriminate; reflexivity.
  - intros d x Hd Hx. change (Bltb (f64_ofZ 0) d = true) in Hd. change (Bleb (f64_add (f64_ofZ 0) d) x = true).
    rewrite (zero_add d _ F0 P0 Hd). exact Hx.
  - eapply reach_wf; [exact H0|exact H|].
    destruct Hs as (_ & _ & rt & Hrt & _). right. eauto.
Qed.
End S.
