(** What users expect of a running generator. *)
From Coq Require Import Permutation.
From Verif.Model Require Import Base Generator GenConc.

Section S.
Context {D : Type}.
Implicit Types s : state D.

(** a slice some worker still has to serialise *)
Definition to_serialise s (x : nat * nat) : Prop :=
  In x (s_sliceCh s) \/ In (WGot x) (s_workers s) \/ In (WMarshal x) (s_workers s).

(** the run loop is in flush *)
Definition in_flush (r : rpc) : bool :=
  match r with
  | RFlush _ | RSend1 _ | RChk1 _ | RRecv1 _ | RLoopS _ _ | RSendN _ _ | RLoopR _ _ | RRecvN _ _ => true
  | _ => false
  end.

(** from [s] to the end of the flush, in any schedule; devices may come and go, nobody calls Close *)
Inductive flush_run (c : genConf) (on : bool) : state D -> state D -> Prop :=
| fr_last l s s' : in_flush (s_run s) = true -> l <> LClose -> step c on l s s' -> in_flush (s_run s') = false -> flush_run c on s s'
| fr_more l s s1 s' : in_flush (s_run s) = true -> l <> LClose -> step c on l s s1 -> in_flush (s_run s1) = true ->
    flush_run c on s1 s' -> flush_run c on s s'.

(** what is in the packet at a flush *)
Definition filled s : list (option D) := firstn (s_index s) (s_packet s).

(** Whatever the schedule, [P] will hold: some goroutine can move until it does, and no schedule of the
    goroutines goes on forever without it. Up to [n] times in between something comes from outside: a
    tick of the clock, Attach, Detach or Close. *)
Inductive inevitable (c : genConf) (on : bool) (P : state D -> Prop) : nat -> state D -> Prop :=
| iv_now n s : P s -> inevitable c on P n s
| iv_later n s : (exists s', step c on LInt s s') ->
    (forall s', step c on LInt s s' -> inevitable c on P n s') ->
    (forall l s' m, n = S m -> step c on l s s' -> inevitable c on P m s') ->
    inevitable c on P n s.

(** Reached with at most [n] devices attached at any time. *)
Inductive reachable_upto (c : genConf) (on : bool) (n : nat) : state D -> Prop :=
| ru_start devs : (List.length devs <= n)%nat -> reachable_upto c on n (start c devs)
| ru_step l s s' : reachable_upto c on n s -> step c on l s s' -> (List.length (s_devs s') <= n)%nat ->
    reachable_upto c on n s'.

(** The devices flushed as one slice, in one flush. *)
Definition one_flush (c : genConf) (n : nat) : Prop := (n < c_packet c /\ n <= c_workers c + c_workerSize c)%nat.

(** ** Attach and Detach during a tick *)
(** From [s] to [s'] in any schedule, while devices come and go and nobody calls Close; [vs] are the lists of devices
    the generator had on the way, one for each state. *)
Inductive visits (c : genConf) (on : bool) : state D -> list (list D) -> state D -> Prop :=
| vi_here s : visits c on s [s_devs s] s
| vi_step l s s1 vs s' : l = LInt \/ l = LDevs -> step c on l s s1 -> visits c on s1 vs s' ->
    visits c on s (s_devs s :: vs) s'.

(** [l] is what is left of [l'] when some elements are crossed out. *)
Inductive subsequence {A : Type} : list A -> list A -> Prop :=
| sq_nil : subsequence [] []
| sq_skip x l l' : subsequence l l' -> subsequence l (x :: l')
| sq_keep x l l' : subsequence l l' -> subsequence (x :: l) (x :: l').

(** The devices at the positions from [i] on, read [size] at a time, each time from the next of the lists; the last
    list has fewer than [size] left. *)
Inductive reads (size : nat) : nat -> list (list D) -> list D -> Prop :=
| re_last i l : (List.length l < i + size)%nat -> reads size i [l] (skipn i l)
| re_full i l ls r : (i + size <= List.length l)%nat -> reads size (i + size) ls r ->
    reads size i (l :: ls) (firstn size (skipn i l) ++ r).

(** Nobody calls Detach: the lists only grow at the end. *)
Inductive only_attached : list (list D) -> Prop :=
| oa_one l : only_attached [l]
| oa_more l x ls : only_attached ((l ++ x) :: ls) -> only_attached (l :: (l ++ x) :: ls).
End S.
