(** Model of generator.go, the sequential parts: options, the slices of a packet handed to the workers,
    packing the devices of a tick, the list of attached devices. The goroutines and channels are
    modelled in GenConc.v. *)
From Verif.Model Require Import Base Num Geo Curve PropMap Pb Types TypesSnap Track Route Navigator Device.

(** ** Options *)

(** generator.go 38-47; the interval in nanoseconds *)
Record genOptions : Type := mkGenOpts { go_Interval : Z; go_PacketSize : Z; go_NumWorkers : Z }.

(** generator.go 50-56 *)
Definition NewGenOptions : genOptions := mkGenOpts 3000000000 8192 4.

(** generator.go 58-68; [cpus] is runtime.NumCPU() *)
Definition prepare (cpus : Z) (o : genOptions) : genOptions :=
  let o := if (go_PacketSize o <? 1024)%Z then mkGenOpts (go_Interval o) 1024 (go_NumWorkers o) else o in
  let o := if (go_Interval o <=? 0)%Z then mkGenOpts 1000000000 (go_PacketSize o) (go_NumWorkers o) else o in
  if (go_NumWorkers o <=? 0)%Z then mkGenOpts (go_Interval o) (go_PacketSize o) cpus else o.

(** The settings of a generator. From here on its integers are natural numbers: all of them are sizes
    or positions that never become negative. *)
Record genConf : Type := mkConf { c_workers : nat; c_packet : nat; c_workerSize : nat }.

(** generator.go 71-92: New, the settings (channels and packet are created in GenConc.v) *)
Definition New (cpus : Z) (opts : option genOptions) : genConf :=
  let o := prepare cpus (match opts with Some o => o | None => NewGenOptions end) in
  mkConf (Z.to_nat (go_NumWorkers o)) (Z.to_nat (go_PacketSize o))
         (Z.to_nat (go_PacketSize o / go_NumWorkers o)).

(** ** Slices of a packet *)

(** generator.go 338: one slice or one for each worker *)
Definition one_slice (c : genConf) (index : nat) : bool := (index <=? c_workers c + c_workerSize c)%nat.

(** generator.go 345-356: slice number [i] of the second branch *)
Definition slice_no (c : genConf) (index i : nat) : nat * nat :=
  let step := (index / c_workers c)%nat in
  let rem := (index mod c_workers c)%nat in
  (i * step, i * step + step + (if i =? c_workers c - 1 then rem else 0))%nat.

(** generator.go 337-366: everything flush sends, in order *)
Definition flush_slices (c : genConf) (index : nat) : list (nat * nat) :=
  if one_slice c index then [(0, index)]%nat
  else map (slice_no c index) (seq 0 (c_workers c)).

(** generator.go 292: packet.Devices[s.from:s.to] *)
Definition sub_list {A} (l : list A) (s : nat * nat) : list A := firstn (snd s - fst s) (skipn (fst s) l).

(** generator.go 283-286: workers skip the slice {0, 0} *)
Definition is_zero (s : nat * nat) : bool := (fst s =? 0)%nat && (snd s =? 0)%nat.

(** ** One tick *)

(** generator.go 235-252: the contents of packet.Devices[0:index] at each flush of a tick. [buf] is that
    list now, the devices are still to be added. A flush comes before index is advanced, so the last
    device added is not in it. *)
Fixpoint fill {A} (size : nat) (buf devices : list A) : list (list A) :=
  match devices with
  | [] => [buf]
  | d :: r => if (List.length buf + 1 =? size)%nat then buf :: fill size [] r else fill size (buf ++ [d]) r
  end.

(** generator.go 337-366 and 265-309: the packets made of one flush *)
Definition flush_packets {A} (c : genConf) (buf : list A) : list (list A) :=
  map (sub_list buf) (filter (fun s => negb (is_zero s)) (flush_slices c (List.length buf))).

(** all packets of a tick *)
Definition tick_packets {A} (c : genConf) (devices : list A) : list (list A) :=
  List.concat (map (flush_packets c) (fill (c_packet c) [] devices)).

(** ** Attached devices

    Devices are pointers: numbers, with the devices they point to in a store. Several generators share
    the store. *)
Section Store.
Context {T : Type}.

Record world : Type := mkWorld { w_heap : nat -> device T; w_gens : list (list nat) }.

Definition device_ID (d : device T) : string := pde_id (d_state d).
Definition set_heap (w : world) (p : nat) (d : device T) : world :=
  mkWorld (fun q => if (q =? p)%nat then d else w_heap w q) (w_gens w).
Definition gen_devices (w : world) (g : nat) : list nat := nth g (w_gens w) [].
Definition set_gen (w : world) (g : nat) (l : list nat) : world := mkWorld (w_heap w) (set_nth g l (w_gens w)).
Definition has_id (w : world) (id : string) (p : nat) : bool := String.eqb (device_ID (w_heap w p)) id.

(** generator.go 104-118; [None] is the nil device *)
Definition Attach (w : world) (g : nat) (p : option nat) : option goerr * world :=
  match p with
  | None => (None, w)
  | Some p =>
      match mount (w_heap w p) with
      | (Some e, _) => (Some e, w)
      | (None, d) => (None, set_gen (set_heap w p d) g (gen_devices w g ++ [p]))
      end
  end.

(** generator.go 385-394 *)
Definition gen_delete (w : world) (g : nat) (id : string) : option goerr * world :=
  let l := gen_devices w g in
  match find_index (has_id w id) l with
  | None => (None, w)
  | Some i =>
      let p := nth i l 0%nat in
      let '(e, d) := unmount (w_heap w p) in
      (e, set_gen (set_heap w p d) g (del_nth i l))
  end.

(** generator.go 121-130 *)
Definition Detach (w : world) (g : nat) (id : string) : option goerr * world :=
  if (slen id =? 0)%Z then (None, w) else gen_delete w g id.

(** generator.go 396-405 *)
Definition gen_find (w : world) (g : nat) (id : string) : option nat :=
  match find_index (has_id w id) (gen_devices w g) with
  | None => None
  | Some i => nth_error (gen_devices w g) i
  end.

(** generator.go 95-101 *)
Definition HasTracker (w : world) (g : nat) (id : string) : bool :=
  match gen_find w g id with Some _ => true | None => false end.

(** generator.go 146-155; [None] is (nil, false) *)
Definition GenLookup (w : world) (g : nat) (id : string) : option nat :=
  if (slen id =? 0)%Z then None else gen_find w g id.

(** generator.go 158-162 *)
Definition NumDevices (w : world) (g : nat) : Z := zlen (gen_devices w g).

(** generator.go 134-142: the calls fn(i, d) Each makes; [more i p] is what fn returns *)
Fixpoint each_from (more : nat -> nat -> bool) (i : nat) (l : list nat) : list (nat * nat) :=
  match l with
  | [] => []
  | p :: r => (i, p) :: if more i p then each_from more (S i) r else []
  end.
Definition Each (w : world) (g : nat) (more : nat -> nat -> bool) : list (nat * nat) := each_from more 0 (gen_devices w g).
End Store.
Arguments world : clear implicits.
