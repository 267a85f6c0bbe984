(** C86: simulated time and the clock. *)
From Coq Require Import Reals Lra Lia Sorting.Sorted.
From Flocq Require Import BinarySingleNaN.
From Verif.Model Require Import Base Num NumF64 NumR Geo Curve PropMap Pb Types Clock.
From Verif.Spec Require Import ClockSpec RealSpec.
From Verif.Proofs Require Import ClockProofs.
Open Scope R_scope.

(** C86. The seconds handed to the devices at a tick, in binary64: the time since the tick before, but at least one
    second, with a relative error of at most 2^-51; exact for whole seconds. *)
Theorem C86_tick :
  forall (m : MathLib) (last t : Z), (Z.abs (last - t) < 2 ^ 63)%Z ->
    let x := @tick_of f64 (F64Num m) last t in
    let exact := Rmax 1 (Rabs (seconds last t)) in
    is_finite x = true /\ 1 <= B2R x /\ Rabs (B2R x - exact) <= / 2 ^ 51 * exact.
Proof. exact C86_tick_proof. Qed.
Print Assumptions C86_tick.
Theorem C86_whole_seconds :
  forall (m : MathLib) (last k : Z), (1 <= k <= 2 ^ 53)%Z -> B2R (@tick_of f64 (F64Num m) last (last + k * 1000000000)) = IZR k.
Proof. exact C86_whole_proof. Qed.
Print Assumptions C86_whole_seconds.

(** Whatever the run loop missed (ticks dropped while it was busy): if the ticker goes off first at least one second after
    Run and then at intervals of at least one second, the seconds handed to the devices add up to the time from Run to
    the last tick. *)
Theorem C86_keeps_up_partial :
  forall (start : Z) (evs : list tick_event), apart 1000000000 (start :: fires evs) ->
    rsum (run_ticks start (ticker None evs)) = seconds start (List.last (ticker None evs) start).
Proof. exact C86_ticker_proof. Qed.
Print Assumptions C86_keeps_up_partial.

(** With any intervals, simulated time is never behind. *)
Theorem C86_never_behind_partial :
  forall (start : Z) (ts : list Z), apart 0 (start :: ts) -> seconds start (List.last ts start) <= rsum (run_ticks start ts).
Proof. intros start ts. exact (C86_never_behind_proof ts start). Qed.
Print Assumptions C86_never_behind_partial.

(** An interval of less than one second (Options.Interval may be any): every tick counts as a whole second. *)
Theorem C86_interval_refuted :
  forall (interval : Z) (n : nat), (0 < interval <= 1000000000)%Z ->
    rsum (run_ticks 0 (regular interval n)) = INR n /\ seconds 0 (List.last (regular interval n) 0%Z) = INR n * (IZR interval / 1000000000).
Proof.
  intros interval n H. split; [apply (C86_interval_proof interval n ltac:(lia) 0)|].
  destruct n as [|n]; [change (seconds 0 0 = 0 * (IZR interval / 1000000000)); unfold seconds; rewrite Z.sub_diag; lra|]. unfold regular. rewrite seq_S, map_app. cbn [map]. rewrite List.last_last.
  unfold seconds. rewrite Z.sub_0_r, mult_IZR, <- INR_IZR_INZ. change (1 + n)%nat with (S n). lra.
Qed.
Print Assumptions C86_interval_refuted.

(** A generator that is run later than one interval after New: the tick that is waiting counts the time before Run, and
    so does the next one. After two ticks the devices are ahead by twice that time. *)
Theorem C86_late_refuted :
  forall (interval start t : Z) (more : list Z), (interval <= start <= t)%Z ->
    seconds start t + 2 * seconds interval start <=
    rsum (run_ticks start (ticker None (Fire interval :: map Fire more ++ [Recv; Fire t; Recv]))).
Proof. intros interval start t more [H1 H2]. exact (C86_late_proof interval more start t H1 H2). Qed.
Print Assumptions C86_late_refuted.

(** Ticks every three seconds, of which the loop misses two. *)
Example C86_keeps_up_example :
  let s x := (x * 1000000000)%Z in
  let evs := [Fire (s 13); Recv; Fire (s 16); Fire (s 19); Fire (s 22); Recv; Fire (s 25); Recv]%Z in
  apart 1000000000 (s 10%Z :: fires evs) /\ ticker None evs = [s 13; s 16; s 25]%Z /\ rsum (run_ticks (s 10%Z) (ticker None evs)) = 15.
Proof.
  cbv zeta. split; [|split; [reflexivity|]].
  - cbn [fires]. repeat (constructor; [|repeat constructor; lia]). constructor.
  - rewrite C86_keeps_up_partial; [change (IZR 15000000000 / 1000000000 = 15); lra|]. cbn [fires]. repeat (constructor; [|repeat constructor; lia]). constructor.
Qed.
(** Binary64: a tick 100 ms after the last one, one 3.5 s after it. *)
Example C86_tick_example :
  let tick last t := @tick_of f64 (F64Num idMath) last t in
  Beqb (tick 5000000000 5100000000)%Z (f64_ofZ 1) = true /\ Beqb (tick 5000000000 8500000000)%Z (f64_norm 7 (-1)) = true.
Proof. vm_compute. auto. Qed.
(** An interval of 100 ms: 600 seconds of simulation in one minute. *)
Example C86_interval_example : rsum (run_ticks 0 (regular 100000000 600)) = 600 /\ seconds 0 (List.last (regular 100000000 600) 0%Z) = 60.
Proof.
  destruct (C86_interval_refuted 100000000 600 ltac:(lia)) as [E F]. rewrite E, F.
  rewrite INR_IZR_INZ. change (Z.of_nat 600) with 600%Z. split; lra.
Qed.
(** New, Run one hour later, an interval of three seconds: after the second tick (three seconds after Run) the devices have
    been moved by nearly two hours. *)
Example C86_late_example :
  let s x := (x * 1000000000)%Z in
  7197 <= rsum (run_ticks (s 3600%Z) (ticker None (Fire (s 3%Z) :: map Fire [s 6; s 9; s 3600]%Z ++ [Recv; Fire (s 3603%Z); Recv]))).
Proof.
  cbv zeta. eapply Rle_trans; [|apply C86_late_refuted; lia]. change (7197 <= IZR 3000000000 / 1000000000 + 2 * (IZR 3597000000000 / 1000000000)). lra.
Qed.
