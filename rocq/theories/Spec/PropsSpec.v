(** Properties as functions from keys to values. *)
From Verif.Model Require Import Base Num PropMap.

Section PropsSpec.
Context {T : Type} {N : Num T}.

(** the value, or the zero value and false *)
Definition gets {A} (want : option A) (zero : A) (got : A * bool) : Prop :=
  match want with Some a => got = (a, true) | None => got = (zero, false) end.

Definition as_string (v : option (gval T)) : option string := match v with Some (GStr s) => Some s | _ => None end.
Definition as_bool (v : option (gval T)) : option bool := match v with Some (GBool b) => Some b | _ => None end.
Definition as_int (v : option (gval T)) : option Z := match v with Some (GInt z) => Some z | _ => None end.
Definition as_float (v : option (gval T)) : option T := match v with Some (GFloat x) => Some x | _ => None end.

(** calls on one map *)
Inductive prop_op : Type :=
| PSet (k : string) (v : gval T)
| PRemove (k : string)
| PMerge (other : props T)
| PReset.

Definition run_prop (p : props T) (o : prop_op) : props T :=
  match o with
  | PSet k v => props_Set p k v
  | PRemove k => props_Remove p k
  | PMerge q => props_Merge p q
  | PReset => props_Reset p
  end.
Definition run_props (p : props T) (ops : list prop_op) : props T := fold_left run_prop ops p.

(** what they do to a function *)
Definition mean_prop (f : string -> option (gval T)) (o : prop_op) : string -> option (gval T) :=
  match o with
  | PSet k v => fun k' => if String.eqb k k' then Some v else f k'
  | PRemove k => fun k' => if String.eqb k k' then None else f k'
  | PMerge q => fun k' => match props_lookup q k' with Some v => Some v | None => f k' end
  | PReset => fun _ => None
  end.
Definition mean_props (f : string -> option (gval T)) (ops : list prop_op) := fold_left mean_prop ops f.
End PropsSpec.
