(** What users expect of a generator apart from its goroutines: slices, packets, attached devices. *)
From Coq Require Import Permutation.
From Verif.Model Require Import Base Num Geo Curve PropMap Pb Types TypesSnap Track Route Navigator Device Generator.
From Verif.Spec Require Import DeviceSpec.

(** A generator New can make has at least one worker and room for at least one device. *)
Definition conf_ok (c : genConf) : Prop := (1 <= c_workers c)%nat /\ (1 <= c_packet c)%nat.

(** ** Slices *)

(** [l] cuts [a, b) into consecutive pieces. *)
Inductive tiles : nat -> list (nat * nat) -> nat -> Prop :=
| tl_nil a : tiles a [] a
| tl_cons a b c l : (a <= b)%nat -> tiles b l c -> tiles a ((a, b) :: l) c.

(** the number of slices of [l] with entry [e] in them *)
Fixpoint covered (e : nat) (l : list (nat * nat)) : nat :=
  match l with
  | [] => 0
  | (a, b) :: r => (if (a <=? e) && (e <? b) then 1 else 0) + covered e r
  end%nat.

(** ** Packets *)

(** The devices at the positions [p] holds of, from position [i] on. *)
Fixpoint at_positions {A} (p : nat -> bool) (i : nat) (l : list A) : list A :=
  match l with
  | [] => []
  | x :: r => (if p i then [x] else []) ++ at_positions p (S i) r
  end.

(** ** Attached devices *)

Section W.
Context {T : Type} {N : Num T} {J : JsonLib T} {U : UtmLib T}.

(** Calls on any number of generators (numbers into the list) and devices (pointers). *)
Inductive world_op : Type :=
| OpAttach (g : nat) (p : option nat)
| OpDetach (g : nat) (id : string)
| OpCall (p : nat) (o : dev_op T).    (* a call on a device; a panic leaves it as it is *)

Definition not_mount (o : dev_op T) : Prop := match o with DMount | DUnmount => False | _ => True end.

(** generators exist; devices are mounted and unmounted by generators only *)
Definition op_ok (w : world T) (o : world_op) : Prop :=
  match o with
  | OpAttach g _ => (g < List.length (w_gens w))%nat
  | OpDetach g _ => (g < List.length (w_gens w))%nat
  | OpCall _ o => not_mount o
  end.

Definition run_world (w : world T) (o : world_op) : world T :=
  match o with
  | OpAttach g p => snd (Attach w g p)
  | OpDetach g id => snd (Detach w g id)
  | OpCall p o => match run_dev (w_heap w p) o with Ret d => set_heap w p d | _ => w end
  end.

(** Worlds after any history, from generators without devices and devices that do not run. *)
Inductive made_world : world T -> Prop :=
| mw_start heap n : (forall p, d_status (heap p) <> Running) -> made_world (mkWorld heap (repeat [] n))
| mw_op w o : made_world w -> op_ok w o -> made_world (run_world w o).

(** what the devices and the lists of attached devices are *)
Definition is_running (w : world T) (p : nat) : Prop := d_status (w_heap w p) = Running.
Definition attached (w : world T) (g p : nat) : Prop := In p (gen_devices w g).
Definition id_of (w : world T) (p : nat) : string := device_ID (w_heap w p).
Definition same_ids (w w' : world T) : Prop := forall p, id_of w' p = id_of w p.
Definition same_status_except (w w' : world T) (p : nat) : Prop :=
  forall q, q <> p -> w_heap w' q = w_heap w q.
Definition same_gens_except (w w' : world T) (g : nat) : Prop :=
  List.length (w_gens w') = List.length (w_gens w) /\ forall h, h <> g -> gen_devices w' h = gen_devices w h.
End W.
