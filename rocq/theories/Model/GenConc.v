(** Model of generator.go, the goroutines of a running generator: the run loop, the workers, the OnNext
    loop, the channels between them, Close, and Attach/Detach by other goroutines.

    A state is what the goroutines share and where each of them is; a step is one communication, one test
    of the context, or the code between two of those. Simplifications:
    - Run spawns its goroutines before any of them moves;
    - the critical sections of dmu (one store into the packet, one clearing of the packet, one
      marshalling) exclude each other, so each is one step; g.mu is held by the run loop from the
      start of a tick to the final flush, except during flushes in between, and Attach and Detach are
      steps that can only happen while it is not held;
    - devices are opaque values of a type [D]; a packet is the list of the entries it was made of;
    - the callbacks return; whether OnNext is set does not change during Run;
    - the clock can tick whenever the run loop waits for it. *)
From Verif.Model Require Import Base Generator.

Section GenConc.
Context {D : Type}.

(** Where flush was called from: in the loop over the devices, after storing device [i] (line 243), or
    at the end of the tick (line 252). *)
Inductive caller : Type := Mid (i : nat) | Final.

(** The run loop (lines 206-259, flush 337-366). *)
Inductive rpc : Type :=
| RSelect                       (* select, line 217 *)
| RChk                          (* a tick was received; isClosed, line 221 *)
| RFill (i : nat)               (* the loop over the devices, line 236 *)
| RFlush (k : caller)           (* line 338 *)
| RSend1 (k : caller)           (* line 339 *)
| RChk1 (k : caller)            (* line 340 *)
| RRecv1 (k : caller)           (* line 343 *)
| RLoopS (k : caller) (j : nat) (* lines 347-348 *)
| RSendN (k : caller) (j : nat) (* line 357 *)
| RLoopR (k : caller) (j : nat) (* lines 359-360 *)
| RRecvN (k : caller) (j : nat) (* line 363 *)
| RReset                        (* line 253 *)
| RNotify                       (* line 254 *)
| RExit                         (* line 208 *)
| RGone.

(** A worker (lines 265-309). *)
Inductive wpc : Type :=
| WSelect                       (* select, line 275 *)
| WGot (s : nat * nat)          (* line 279 *)
| WMarshal (s : nat * nat)      (* lines 291-294 *)
| WCall (p : list (option D))   (* OnPacket or OnError with the packet, lines 296-300 *)
| WChk                          (* line 302 *)
| WAck                          (* lines 284, 306 *)
| WExit                         (* line 267 *)
| WExitSend                     (* line 268 *)
| WGone.

(** The OnNext loop (lines 318-335). *)
Inductive npc : Type :=
| NSelect                       (* select, line 322 *)
| NGot                          (* line 326 *)
| NCall                         (* line 332 *)
| NExit                         (* line 319 *)
| NGone.

(** [s_out]: the packets handed to the callback so far, oldest first; [s_ticks]: the ticks completed; [s_calls]:
    the OnNext calls made. These three are only written, never read, by the code. *)
Record state : Type := mkState {
  s_closed : bool;
  s_devs : list D;
  s_packet : list (option D);
  s_index : nat;
  s_run : rpc;
  s_workers : list wpc;
  s_next : npc;
  s_sliceCh : list (nat * nat);
  s_waitCh : nat;
  s_nextCh : bool;
  s_wg : nat;
  s_out : list (list (option D));
  s_ticks : nat;
  s_calls : nat
}.

Inductive label : Type :=
| LInt      (* a goroutine of the generator moves *)
| LClock    (* the ticker fires *)
| LClose    (* Close is called *)
| LDevs.    (* Attach or Detach is called *)

Definition holds_mu (r : rpc) : bool := match r with RFill _ => true | _ => false end.

(** What a return from flush leads to: the next device (line 245: index = 0), or the end of the tick. *)
Definition flushed (s : state) (k : caller) : state :=
  match k with
  | Mid i => mkState (s_closed s) (s_devs s) (s_packet s) 0 (RFill (S i)) (s_workers s) (s_next s) (s_sliceCh s)
               (s_waitCh s) (s_nextCh s) (s_wg s) (s_out s) (s_ticks s) (s_calls s)
  | Final => mkState (s_closed s) (s_devs s) (s_packet s) (s_index s) RReset (s_workers s) (s_next s) (s_sliceCh s)
               (s_waitCh s) (s_nextCh s) (s_wg s) (s_out s) (s_ticks s) (s_calls s)
  end.

Definition at_run (s : state) (r : rpc) : state :=
  mkState (s_closed s) (s_devs s) (s_packet s) (s_index s) r (s_workers s) (s_next s) (s_sliceCh s)
    (s_waitCh s) (s_nextCh s) (s_wg s) (s_out s) (s_ticks s) (s_calls s).
Definition at_fill (s : state) (p : list (option D)) (index : nat) (r : rpc) : state :=
  mkState (s_closed s) (s_devs s) p index r (s_workers s) (s_next s) (s_sliceCh s)
    (s_waitCh s) (s_nextCh s) (s_wg s) (s_out s) (s_ticks s) (s_calls s).
Definition put_slice (s : state) (x : nat * nat) (r : rpc) : state :=
  mkState (s_closed s) (s_devs s) (s_packet s) (s_index s) r (s_workers s) (s_next s) (s_sliceCh s ++ [x])
    (s_waitCh s) (s_nextCh s) (s_wg s) (s_out s) (s_ticks s) (s_calls s).
Definition set_wait (s : state) (n : nat) : state :=
  mkState (s_closed s) (s_devs s) (s_packet s) (s_index s) (s_run s) (s_workers s) (s_next s) (s_sliceCh s)
    n (s_nextCh s) (s_wg s) (s_out s) (s_ticks s) (s_calls s).
Definition set_wg (s : state) (n : nat) : state :=
  mkState (s_closed s) (s_devs s) (s_packet s) (s_index s) (s_run s) (s_workers s) (s_next s) (s_sliceCh s)
    (s_waitCh s) (s_nextCh s) n (s_out s) (s_ticks s) (s_calls s).
Definition notified (s : state) : state :=
  mkState (s_closed s) (s_devs s) (s_packet s) (s_index s) RSelect (s_workers s) (s_next s) (s_sliceCh s)
    (s_waitCh s) true (s_wg s) (s_out s) (S (s_ticks s)) (s_calls s).
Definition set_workers (s : state) (l : list wpc) : state :=
  mkState (s_closed s) (s_devs s) (s_packet s) (s_index s) (s_run s) l (s_next s) (s_sliceCh s)
    (s_waitCh s) (s_nextCh s) (s_wg s) (s_out s) (s_ticks s) (s_calls s).
Definition set_slices (s : state) (l : list (nat * nat)) : state :=
  mkState (s_closed s) (s_devs s) (s_packet s) (s_index s) (s_run s) (s_workers s) (s_next s) l
    (s_waitCh s) (s_nextCh s) (s_wg s) (s_out s) (s_ticks s) (s_calls s).
Definition add_out (s : state) (p : list (option D)) : state :=
  mkState (s_closed s) (s_devs s) (s_packet s) (s_index s) (s_run s) (s_workers s) (s_next s) (s_sliceCh s)
    (s_waitCh s) (s_nextCh s) (s_wg s) (s_out s ++ [p]) (s_ticks s) (s_calls s).
Definition at_next (s : state) (n : npc) (ch : bool) (calls : nat) : state :=
  mkState (s_closed s) (s_devs s) (s_packet s) (s_index s) (s_run s) (s_workers s) n (s_sliceCh s)
    (s_waitCh s) ch (s_wg s) (s_out s) (s_ticks s) calls.
Definition set_closed (s : state) : state :=
  mkState true (s_devs s) (s_packet s) (s_index s) (s_run s) (s_workers s) (s_next s) (s_sliceCh s)
    (s_waitCh s) (s_nextCh s) (s_wg s) (s_out s) (s_ticks s) (s_calls s).
Definition set_devs (s : state) (l : list D) : state :=
  mkState (s_closed s) l (s_packet s) (s_index s) (s_run s) (s_workers s) (s_next s) (s_sliceCh s)
    (s_waitCh s) (s_nextCh s) (s_wg s) (s_out s) (s_ticks s) (s_calls s).

(** A worker, the generator being in state [s]: [work c s w w' s'] is one step of a worker from [w] to
    [w'], after which the shared state is [s']. (lines 265-309) *)
Inductive work (c : genConf) (s : state) : wpc -> wpc -> state -> Prop :=
| wk_done : s_closed s = true -> work c s WSelect WExit s
| wk_recv x r : s_sliceCh s = x :: r -> work c s WSelect (WGot x) (set_slices s r)
| wk_closed x : s_closed s = true -> work c s (WGot x) WExit s
| wk_zero x : s_closed s = false -> is_zero x = true -> work c s (WGot x) WAck s
| wk_open x : s_closed s = false -> is_zero x = false -> work c s (WGot x) (WMarshal x) s
| wk_marshal x : work c s (WMarshal x) (WCall (sub_list (s_packet s) x)) s
| wk_call p : work c s (WCall p) WChk (add_out s p)
| wk_chk_closed : s_closed s = true -> work c s WChk WExit s
| wk_chk_open : s_closed s = false -> work c s WChk WAck s
| wk_ack : (s_waitCh s < c_workers c)%nat -> work c s WAck WSelect (set_wait s (S (s_waitCh s)))
| wk_exit : work c s WExit WExitSend (set_wg s (s_wg s - 1))
| wk_exit_send : (s_waitCh s < c_workers c)%nat -> work c s WExitSend WGone (set_wait s (S (s_waitCh s))).

(** The run loop (lines 206-259, 311-316, 337-366, 377-383). *)
Inductive run (c : genConf) (s : state) : rpc -> state -> Prop :=
| rn_done : s_closed s = true -> run c s RSelect (at_run s RExit)
| rn_chk_closed : s_closed s = true -> run c s RChk (at_run s RExit)
| rn_chk_open : s_closed s = false -> run c s RChk (at_fill s (s_packet s) 0 (RFill 0))
| rn_store i d : nth_error (s_devs s) i = Some d -> (s_index s + 1 =? c_packet c)%nat = false ->
    run c s (RFill i) (at_fill s (set_nth (s_index s) (Some d) (s_packet s)) (S (s_index s)) (RFill (S i)))
| rn_store_full i d : nth_error (s_devs s) i = Some d -> (s_index s + 1 =? c_packet c)%nat = true ->
    run c s (RFill i) (at_fill s (set_nth (s_index s) (Some d) (s_packet s)) (s_index s) (RFlush (Mid i)))
| rn_stored i : nth_error (s_devs s) i = None -> run c s (RFill i) (at_run s (RFlush Final))
| rn_one k : one_slice c (s_index s) = true -> run c s (RFlush k) (at_run s (RSend1 k))
| rn_many k : one_slice c (s_index s) = false -> run c s (RFlush k) (at_run s (RLoopS k 0))
| rn_send1 k : (List.length (s_sliceCh s) < c_workers c)%nat ->
    run c s (RSend1 k) (put_slice s (0, s_index s)%nat (RChk1 k))
| rn_chk1_closed k : s_closed s = true -> run c s (RChk1 k) (flushed s k)
| rn_chk1_open k : s_closed s = false -> run c s (RChk1 k) (at_run s (RRecv1 k))
| rn_recv1 k n : s_waitCh s = S n -> run c s (RRecv1 k) (flushed (set_wait s n) k)
| rn_loops_end k j : (j <? c_workers c)%nat = false -> run c s (RLoopS k j) (at_run s (RLoopR k 0))
| rn_loops_closed k j : (j <? c_workers c)%nat = true -> s_closed s = true -> run c s (RLoopS k j) (flushed s k)
| rn_loops_open k j : (j <? c_workers c)%nat = true -> s_closed s = false -> run c s (RLoopS k j) (at_run s (RSendN k j))
| rn_sendn k j : (List.length (s_sliceCh s) < c_workers c)%nat ->
    run c s (RSendN k j) (put_slice s (slice_no c (s_index s) j) (RLoopS k (S j)))
| rn_loopr_end k j : (j <? c_workers c)%nat = false -> run c s (RLoopR k j) (flushed s k)
| rn_loopr_closed k j : (j <? c_workers c)%nat = true -> s_closed s = true -> run c s (RLoopR k j) (flushed s k)
| rn_loopr_open k j : (j <? c_workers c)%nat = true -> s_closed s = false -> run c s (RLoopR k j) (at_run s (RRecvN k j))
| rn_recvn k j n : s_waitCh s = S n -> run c s (RRecvN k j) (at_run (set_wait s n) (RLoopR k (S j)))
| rn_reset : run c s RReset (at_fill s (map (fun _ => None) (s_packet s)) (s_index s) RNotify)
| rn_notify : run c s RNotify (notified s)
| rn_exit : run c s RExit (at_run (set_wg s (s_wg s - 1)) RGone).

(** The OnNext loop; [on]: a callback is set (lines 318-335). *)
Inductive next (on : bool) (s : state) : npc -> state -> Prop :=
| nx_done : s_closed s = true -> next on s NSelect (at_next s NExit (s_nextCh s) (s_calls s))
| nx_recv : s_nextCh s = true -> next on s NSelect (at_next s NGot false (s_calls s))
| nx_closed : s_closed s = true -> next on s NGot (at_next s NExit (s_nextCh s) (s_calls s))
| nx_off : s_closed s = false -> on = false -> next on s NGot (at_next s NSelect (s_nextCh s) (s_calls s))
| nx_call : s_closed s = false -> on = true -> next on s NGot (at_next s NCall (s_nextCh s) (S (s_calls s)))
| nx_return : next on s NCall (at_next s NSelect (s_nextCh s) (s_calls s))
| nx_exit : next on s NExit (at_next (set_wg s (s_wg s - 1)) NGone (s_nextCh s) (s_calls s)).

Inductive step (c : genConf) (on : bool) : label -> state -> state -> Prop :=
| st_work i w w' s s' : nth_error (s_workers s) i = Some w -> work c s w w' s' ->
    step c on LInt s (set_workers s' (set_nth i w' (s_workers s')))
| st_run s s' : run c s (s_run s) s' -> step c on LInt s s'
| st_next s s' : next on s (s_next s) s' -> step c on LInt s s'
| st_clock s : s_run s = RSelect -> step c on LClock s (at_run s RChk)
| st_close s : step c on LClose s (set_closed s)
| st_devs s l : holds_mu (s_run s) = false -> step c on LDevs s (set_devs s l).

(** Run (lines 191-204) with the devices attached so far, New's channels empty. Run returns when the wait
    group is zero. *)
Definition start (c : genConf) (devs : list D) : state :=
  mkState false devs (repeat None (c_packet c)) 0 RSelect (repeat WSelect (c_workers c)) NSelect [] 0 false
    (c_workers c + 2) [] 0 0.
Definition run_returned (s : state) : Prop := s_wg s = 0%nat.

Inductive steps (c : genConf) (on : bool) : list label -> state -> state -> Prop :=
| ss_nil s : steps c on [] s s
| ss_cons l ls s1 s2 s3 : step c on l s1 s2 -> steps c on ls s2 s3 -> steps c on (l :: ls) s1 s3.
Definition reachable (c : genConf) (on : bool) (s : state) : Prop :=
  exists devs ls, steps c on ls (start c devs) s.
End GenConc.
Arguments state : clear implicits.
Arguments wpc : clear implicits.
