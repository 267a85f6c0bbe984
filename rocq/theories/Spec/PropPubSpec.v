(** The properties of routes and tracks in the published state. *)
From Verif.Model Require Import Base Num Geo Curve PropMap Types Pb TypesSnap Track Route Navigator Device.
From Verif.Spec Require Import RouteSpec NavSpec DeviceSpec.

Section PropPubSpec.
Context {T : Type} {N : Num T} {J : JsonLib T} {U : UtmLib T}.

(** how the properties [p] are shown: as JSON, if there are any and encoding/json can encode them, and their number *)
Definition shown_props (p : option (props T)) : string * Z :=
  match p with
  | Some m => (if (props_len m =? 0)%Z then ""%string else match json_marshal m with Some b => b | None => ""%string end, props_len m)
  | None => (""%string, 0%Z)
  end.

(** the published list shows the properties of every route and of every track as they are *)
Definition props_published (d : device T) : Prop :=
  exists l, pde_routes (d_state d) = Some l /\
    map (fun r => (pdr_props r, pdr_props_count r, map (fun t => (pdt_props t, pdt_props_count t)) (pdr_tracks r))) (pds_routes l) =
    map (fun r => (shown_props (rt_props r), map (fun t => shown_props (tk_props t)) (rt_tracks r))) (n_routes (d_nav d)).

(** no writing through Props() of a route or a track *)
Definition no_props_route_op (o : route_op T) : Prop :=
  match o with RSetProps _ | RTrackSetProps _ _ => False | _ => True end.
Definition no_props_op (o : dev_op T) : Prop := match o with DRouteOp _ o => no_props_route_op o | _ => True end.

(** calls that neither change the routes nor ask for an update *)
Definition driving (o : dev_op T) : Prop :=
  match o with
  | DAddRoute _ | DRemoveRoute _ | DRemoveTrack _ _ | DResetRoutes | DRouteOp _ _ | DUpdate => False
  | _ => True
  end.
End PropPubSpec.
