(** What a snapshot should preserve. Property values travel as JSON; the behaviour of encoding/json that
    the theorems rely on is spelled out here. *)
From Coq Require Import Permutation.
From Verif.Model Require Import Base Num Utf8 Geo Curve PropMap Types Pb TypesSnap Track Route Navigator Device.
From Verif.Spec Require Import ListSpec TrackSpec RouteSpec NavSpec TypesSpec DeviceSpec.
Open Scope num_scope.

Section SnapSpec.
Context {T : Type} {N : Num T} {J : JsonLib T}.

(** neither infinite nor NaN *)
Definition finite_num (x : T) : Prop := ((x - x) =? (x - x)) = true.

(** [json_of v v']: encoding [v] and decoding the text gives [v']. Integers become floats, the entries
    of an object have no order, everything else is unchanged. *)
Inductive json_of : gval T -> gval T -> Prop :=
| jo_nil : json_of GNil GNil
| jo_bool b : json_of (GBool b) (GBool b)
| jo_int z : json_of (GInt z) (GFloat (fofZ z))
| jo_float x : finite_num x -> json_of (GFloat x) (GFloat x)
| jo_str s : utf8_valid s = true -> json_of (GStr s) (GStr s)
| jo_arr l l' : Forall2 json_of l l' -> json_of (GArr l) (GArr l')
| jo_obj l l' l'' :
    Forall2 (fun a b => fst a = fst b /\ utf8_valid (fst a) = true /\ json_of (snd a) (snd b)) l l' ->
    Permutation l' l'' -> json_of (GObj l) (GObj l'').

(** Values JSON has no text for: infinities, NaNs, channels, functions, ... *)
Inductive json_bad : gval T -> Prop :=
| jb_float x : ~ finite_num x -> json_bad (GFloat x)
| jb_other : json_bad GOther
| jb_arr l v : In v l -> json_bad v -> json_bad (GArr l)
| jb_obj l k v : In (k, v) l -> json_bad v -> json_bad (GObj l).

(** The same for whole property maps. *)
Definition json_props (p p' : props T) : Prop :=
  forall k, match props_lookup p k with
            | Some v => utf8_valid k = true /\ exists v', props_lookup p' k = Some v' /\ json_of v v'
            | None => props_lookup p' k = None
            end.
Definition json_able (p : props T) : Prop := exists p', json_props p p'.
Definition json_unable (p : props T) : Prop := exists k v, props_lookup p k = Some v /\ json_bad v.

(** encoding/json on property maps: what can be encoded is decoded up to [json_props]; what has no JSON
    text is an error; the text of a map is never empty and always decodes to some map (strings that are
    not UTF-8 are altered, nothing more is assumed about them). *)
Record json_law : Prop := {
  law_able : forall p, json_able p -> exists b p',
    json_marshal p = Some b /\ json_unmarshal b = Some (Some p') /\ json_props p p';
  law_unable : forall p, json_unable p -> json_marshal p = None;
  law_text : forall p b, json_marshal p = Some b -> (0 < slen b)%Z /\ exists p', json_unmarshal b = Some (Some p') }.

(** Properties after a snapshot: gone through JSON; a map JSON cannot encode is lost. *)
Definition restored_props (p p' : option (props T)) : Prop :=
  match p with
  | None => p' = None
  | Some q => (json_able q -> exists q', p' = Some q' /\ json_props q q') /\ (json_unable q -> p' = None)
  end.

(** Everything else is unchanged. *)
Definition restored_track (t t' : track T) : Prop :=
  tk_id t' = tk_id t /\ tk_segments t' = tk_segments t /\ tk_color t' = tk_color t /\ tk_name t' = tk_name t /\
  tk_dist t' = tk_dist t /\ tk_isClosed t' = tk_isClosed t /\ tk_version t' = tk_version t /\
  restored_props (tk_props t) (tk_props t').
Definition restored_route (r r' : route T) : Prop :=
  rt_id r' = rt_id r /\ rt_dist r' = rt_dist r /\ rt_color r' = rt_color r /\ rt_name r' = rt_name r /\
  rt_version r' = rt_version r /\ Forall2 restored_track (rt_tracks r) (rt_tracks r') /\
  restored_props (rt_props r) (rt_props r').

(** Routes a program can get hold of: built or decoded by this library, then used. *)
Inductive made_route : route T -> Prop :=
| mr_new uuid color : made_route (NewRoute uuid color)
| mr_restored id color p : made_route (RestoreRoute id color p)
| mr_decoded s e r : RouteFromSnapshot route_zero s = Ret (e, r) -> made_route r
| mr_used r o : made_route r -> made_route (run_route r o).
Definition adds_made_routes (o : nav_op T) : Prop :=
  match o with NAddRoute rs => forall r, In (Some r) rs -> made_route r | _ => True end.
Definition dev_adds_made_routes (o : dev_op T) : Prop :=
  match o with DAddRoute rs => forall r, In (Some r) rs -> made_route r | _ => True end.

(** A navigator: routes as above, all indexes, distances, the position, the elevation generator, the
    version and the offline configuration. (A navigator in skip-offline mode has no offline range.) *)
Definition restored_nav (n n' : navigator T) : Prop :=
  Forall2 restored_route (n_routes n) (n_routes n') /\
  (n_ri n', n_ti n', n_si n') = (n_ri n, n_ti n, n_si n) /\
  (n_csd n', n_crd n', n_ctd n', n_cd n') = (n_csd n, n_crd n, n_ctd n, n_cd n) /\
  n_off n' = n_off n /\ n_point n' = n_point n /\ n_elev n' = n_elev n /\ n_dist n' = n_dist n /\
  n_skip n' = n_skip n /\ n_ver n' = n_ver n /\ (n_skip n = false -> n_rnd n' = n_rnd n).

End SnapSpec.
Arguments json_law T {N J}.
