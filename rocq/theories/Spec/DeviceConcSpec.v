(** What users expect of a device used by several goroutines. *)
From Verif.Model Require Import Base Num Geo Curve PropMap Types Pb TypesSnap Track Route Navigator Device Mutex DeviceConc.
From Verif.Spec Require Import NavSpec TypesSpec DeviceSpec MutexSpec.

Section S.
Context {T : Type} {N : Num T} {J : JsonLib T} {U : UtmLib T}.

(** The methods that hold the device's lock from beginning to end: Next, those that change the device, and
    those that look at it under the read lock. *)
Inductive dev_call : Type :=
| CNext (tick : T) (x : nextDraws T)
| CChange (o : dev_op T)
| CQuery (f : device T -> dval T).

(** the changes made under the lock: all but the calls through handles, Next and the queries *)
Definition under_lock (o : dev_op T) : Prop :=
  match o with DSensorOp _ _ | DRouteOp _ _ | DIsFinish | DNext _ _ _ | DSnapshot => False | _ => True end.
Definition lawful (c : dev_call) : Prop := match c with CChange o => under_lock o | _ => True end.

Definition call_prog (c : dev_call) : dprog T :=
  match c with
  | CNext tick x => Next_prog tick x
  | CChange o => change (fun d => let* d' := run_dev d o in Ret (VUnit, d'))
  | CQuery f => query f
  end.

(** The calls of several goroutines made one at a time in the given turns: the device and what each goroutine was
    told so far, before and after. A call of Next finds some seconds owed, as if that many contended calls had
    come before it, or answers false at once because the lock was held. How many seconds are owed is not said here. *)
Inductive history : list nat -> device T -> list (list dev_call) -> list (list (dval T)) -> device T -> list (list (dval T)) -> Prop :=
| hi_nil d calls rs : history [] d calls rs d rs
| hi_change i turns d calls rs l r o d1 d2 rs2 :
    nth_error calls i = Some (CChange o :: l) -> nth_error rs i = Some r ->
    run_dev d o = Ret d1 ->
    history turns d1 (set_nth i l calls) (set_nth i (r ++ [VUnit]) rs) d2 rs2 ->
    history (i :: turns) d calls rs d2 rs2
| hi_next i turns d calls rs l r tick x owed d0 b d1 d2 rs2 :
    nth_error calls i = Some (CNext tick x :: l) -> nth_error rs i = Some r ->
    run_devs d (repeat (DNext false tick x) owed) = Ret d0 -> Next d0 true tick x = Ret (b, d1) ->
    history turns d1 (set_nth i l calls) (set_nth i (r ++ [VBool b]) rs) d2 rs2 ->
    history (i :: turns) d calls rs d2 rs2
| hi_busy i turns d calls rs l r tick x d2 rs2 :
    nth_error calls i = Some (CNext tick x :: l) -> nth_error rs i = Some r ->
    history turns d (set_nth i l calls) (set_nth i (r ++ [VBool false]) rs) d2 rs2 ->
    history (i :: turns) d calls rs d2 rs2
| hi_query i turns d calls rs l r f d2 rs2 :
    nth_error calls i = Some (CQuery f :: l) -> nth_error rs i = Some r ->
    history turns d (set_nth i l calls) (set_nth i (r ++ [f d]) rs) d2 rs2 ->
    history (i :: turns) d calls rs d2 rs2.

(** Calls that cannot panic by themselves: no sensors but those of NewSensor are added, and DestinationTo, which may
    panic on a device with three routes or more, is not used. *)
Definition harmless (c : dev_call) : Prop :=
  match c with CChange (DDestinationTo _) => False | CChange o => under_lock o /\ sensors_made o | _ => True end.

(** Callbacks for EachSensor and EachRoute: one calls a method that changes the device, one calls a method that only
    looks at it; both then ask for the next element. *)
Definition callback_change {A} (o : dev_op T) (_ : nat) (_ : A) (k : bool -> dprog T) : dprog T :=
  Lock (part_ (fun d => run_dev d o) (Unlock (k true))).
Definition callback_query {A} (_ : nat) (_ : A) (k : bool -> dprog T) : dprog T := RLock (look (fun _ => RUnlock (k true))).
End S.
Arguments dev_call : clear implicits.
