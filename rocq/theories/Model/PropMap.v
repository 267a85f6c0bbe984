(** Model of package properties: map[string]interface{} as a std++ finite map. *)
From stdpp Require Import gmap strings.
From Verif.Model Require Base.
From Verif.Model Require Num.

(** The dynamic values stored in properties. [GInt] stands for int, int32 and int64 (the three
    kinds Properties.Int accepts); [GOther] for every value encoding/json cannot marshal. *)
Inductive gval (T : Type) : Type :=
| GNil
| GBool (b : bool)
| GInt (z : Z)
| GFloat (x : T)
| GStr (s : string)
| GArr (l : list (gval T))
| GObj (l : list (string * gval T))
| GOther.
Arguments GNil {T}.
Arguments GBool {T} b.
Arguments GInt {T} z.
Arguments GFloat {T} x.
Arguments GStr {T} s.
Arguments GArr {T} l.
Arguments GObj {T} l.
Arguments GOther {T}.

(** properties/properties.go 4 *)
Definition props (T : Type) : Type := gmap string (gval T).

Section Props.
Context {T : Type}.

(** properties/properties.go 7-9 *)
Definition props_Make : props T := (∅ : gmap string (gval T)).

Definition props_lookup (p : props T) (k : string) : option (gval T) :=
  (p : gmap string (gval T)) !! k.

(** properties/properties.go 19-25 *)
Definition props_String (p : props T) (k : string) : string * bool :=
  match props_lookup p k with Some (GStr s) => (s, true) | _ => (""%string, false) end.

(** properties/properties.go 28-34 *)
Definition props_Bool (p : props T) (k : string) : bool * bool :=
  match props_lookup p k with Some (GBool b) => (b, true) | _ => (false, false) end.

(** properties/properties.go 37-48 *)
Definition props_Int (p : props T) (k : string) : Z * bool :=
  match props_lookup p k with Some (GInt z) => (z, true) | _ => (0%Z, false) end.

(** properties/properties.go 51-57 *)
Definition props_Float64 {N : Num.Num T} (p : props T) (k : string) : T * bool :=
  match props_lookup p k with Some (GFloat x) => (x, true) | _ => (Num.f0, false) end.

(** properties/properties.go 60-63 *)
Definition props_Set (p : props T) (k : string) (v : gval T) : props T := <[k := v]> (p : gmap string (gval T)).

(** properties/properties.go 66-68 *)
Definition props_Remove (p : props T) (k : string) : props T := delete k (p : gmap string (gval T)).

(** properties/properties.go 71-73 *)
Definition props_Reset (p : props T) : props T := props_Make.

(** len(p) *)
Definition props_len (p : props T) : Z := Z.of_nat (size (p : gmap string (gval T))).

(** The entries of a map, in an unspecified order (Go's range over a map). *)
Definition props_entries (p : props T) : list (string * gval T) :=
  map_to_list (p : gmap string (gval T)).

(** properties/properties.go 12-16: for k, v := range other { p[k] = v }, [entries] being the entries of
    [other] in the order of this iteration *)
Definition props_MergeIn (p : props T) (entries : list (string * gval T)) : props T :=
  fold_left (fun m kv => props_Set m kv.1 kv.2) entries p.
Definition props_Merge (p other : props T) : props T := props_MergeIn p (props_entries other).

(** Building a map from entries, later entries win (m[k] = v in a loop). *)
Definition props_of_entries (l : list (string * gval T)) : props T :=
  fold_left (fun m kv => props_Set m kv.1 kv.2) l props_Make.

End Props.

(** encoding/json on property maps: an oracle; its assumed behaviour (a law on
    [json_unmarshal (json_marshal p)]) is a hypothesis of the theorems that need it, see
    Spec/SnapSpec.v. [None] is a non-nil error; [json_unmarshal b = Some None] is the JSON value
    null, which makes the map nil. Bytes are a [string]. *)
Class JsonLib (T : Type) : Type := {
  json_marshal : props T -> option string;
  json_unmarshal : string -> option (option (props T))
}.
