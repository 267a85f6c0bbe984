(** Model of gpx/encoding.go, between routes and the documents of github.com/tkrajina/gpxgo. The text of a
    document (encoding/xml and gpxgo) and the texts of floats (strconv, fmt) are an oracle [GpxLib]. *)
From stdpp Require Import gmap strings.
From Coq Require Import Ascii.
From Verif.Model Require Import Base Num Geo PropMap Pb Track Route.
Open Scope go_scope.

(** gpx.ExtensionNode of gpxgo: XMLName.Local, Attrs (name and value), Data, Nodes *)
Inductive xnode : Type := XNode (name : string) (attrs : list (string * string)) (data : string) (nodes : list xnode).
Definition xn_name (n : xnode) : string := let '(XNode s _ _ _) := n in s.
Definition xn_attrs (n : xnode) : list (string * string) := let '(XNode _ l _ _) := n in l.
Definition xn_data (n : xnode) : string := let '(XNode _ _ d _) := n in d.
Definition xn_nodes (n : xnode) : list xnode := let '(XNode _ _ _ l) := n in l.

Section GPX.
Context {T : Type} {N : Num T}.

(** gpx.GPX of gpxgo, as far as it is used: Tracks (lists of segments), Routes, Waypoints, all of them lists of
    points (latitude, longitude), and Extensions.Nodes *)
Record gpxdoc : Type := mkGpx { gx_tracks : list (list (list (T * T))); gx_routes : list (list (T * T));
  gx_waypoints : list (T * T); gx_ext : list xnode }.

(** Oracles. gpxgo: ToXml and ParseBytes ([None] is a non-nil error; a successful ParseBytes returns a
    document). strconv.FormatFloat(v, 'f', -1, 64), fmt.Sprintf("%v", v) for floats and for values that are
    neither strings nor truth values nor numbers, strconv.ParseFloat(s, 64). *)
Class GpxLib : Type := {
  gpx_toxml : gpxdoc -> option string;
  gpx_parse : string -> option gpxdoc;
  f2s : T -> string;
  fmt_float : T -> string;
  fmt_other : gval T -> string;
  parse_float : string -> option T
}.
Context {X : GpxLib}.

(** ** strconv *)
(** the decimal digits of z >= 0; an int64 has at most 19 *)
Fixpoint dec_digits (fuel : nat) (z : Z) (acc : string) : string :=
  match fuel with
  | O => acc
  | S f => let s := String (ascii_of_nat (48 + Z.to_nat (z mod 10))) acc in if (z <? 10)%Z then s else dec_digits f (z / 10) s
  end.
(** fmt.Sprintf("%v", z) *)
Definition fmt_int (z : Z) : string := if (z <? 0)%Z then String "-"%char (dec_digits 20 (- z) "") else dec_digits 20 z "".

(** strconv.ParseUint(s, 10, 64) without its range test *)
Fixpoint parse_digits (a : Z) (s : string) : option Z :=
  match s with
  | "" => Some a
  | String c r => let d := (Z.of_nat (nat_of_ascii c) - 48)%Z in if ((0 <=? d) && (d <=? 9))%Z then parse_digits (a * 10 + d)%Z r else None
  end.
Definition parse_nat (s : string) : option Z := match s with "" => None | _ => parse_digits 0 s end.
(** strconv.ParseInt(s, 10, 64): a sign, digits, the range of int64 *)
Definition ParseInt (s : string) : option Z :=
  let z := match s with
           | String "-" r => option_map Z.opp (parse_nat r)
           | String "+" r => parse_nat r
           | _ => parse_nat s
           end in
  match z with
  | Some z => if ((- 2 ^ 63 <=? z) && (z <? 2 ^ 63))%Z then Some z else None
  | None => None
  end.
(** strconv.ParseBool *)
Definition ParseBool (s : string) : option bool :=
  if existsb (String.eqb s) ["1"; "t"; "T"; "true"; "TRUE"; "True"]%string then Some true
  else if existsb (String.eqb s) ["0"; "f"; "F"; "false"; "FALSE"; "False"]%string then Some false
  else None.

(** encoding.go 244-261. An int64 is a [GInt]. *)
Definition value (s : string) : gval T :=
  match ParseInt s with
  | Some z => GInt z
  | None => match ParseBool s with
            | Some b => GBool b
            | None => match parse_float s with Some x => GFloat x | None => GStr s end
            end
  end.

(** encoding.go 218: fmt.Sprintf("%v", v) *)
Definition fmt_v (v : gval T) : string :=
  match v with
  | GStr s => s
  | GBool true => "true"
  | GBool false => "false"
  | GInt z => fmt_int z
  | GFloat x => fmt_float x
  | _ => fmt_other v
  end.

(** encoding.go 210-222, [entries] being the properties in the order of the iteration *)
Definition makeAttrs (entries : list (string * gval T)) : list (string * string) := map (fun kv => (kv.1, fmt_v kv.2)) entries.
(** encoding.go 224-232 *)
Definition makeProps (attrs : list (string * string)) : props T := props_of_entries (map (fun a => (a.1, value a.2)) attrs).
(** encoding.go 234-242 *)
Definition gpx_reserved : list string := ["id"; "color"; "distance"; "tracksInfo"; "numTracks"; "name"; "units"]%string.
Definition gpx_resetProps (p : props T) : props T := fold_left props_Remove gpx_reserved p.

(** encoding.go 281-301: the start of every segment, and the end of the last one *)
Fixpoint gpx_segs (l : list (segment T)) : list (T * T) :=
  match l with
  | [] => []
  | [s] => [(lat (sg_a s), lon (sg_a s)); (lat (sg_b s), lon (sg_b s))]
  | s :: r => (lat (sg_a s), lon (sg_a s)) :: gpx_segs r
  end.
Definition gpx_copyPoints (t : track T) : list (T * T) := gpx_segs (tk_segments t).
(** encoding.go 303-312 *)
Definition makePoints (l : list (T * T)) : list (point T) := map (fun p => mkPoint p.1 p.2) l.

(** encoding.go 59-69. The attributes made of the properties (67-69) are appended to the local copy of the node,
    after the node has been appended to the route: they are not part of the document. *)
Definition trackNode (t : track T) : xnode :=
  XNode "track" [("name"%string, tk_name t); ("color"%string, tk_color t); ("distance"%string, f2s (tk_dist t))] (tk_id t) [].
(** encoding.go 41-72; [ord] is the order in which the properties are iterated (49, 215) *)
Definition routeNode (ord : props T -> list (string * gval T)) (r : route T) : xnode :=
  XNode "route" ([("id"%string, rt_id r); ("name"%string, rt_name r); ("color"%string, rt_color r); ("distance"%string, f2s (rt_dist r)); ("units"%string, "meters"%string)]
                 ++ makeAttrs (ord (fst (route_Props r)))) "" (map trackNode (rt_tracks r)).
(** encoding.go 26-78. Not modelled: Props() (49, 67) replaces nil maps by empty ones. *)
Definition gpx_doc (ord : props T -> list (string * gval T)) (routes : list (route T)) : gpxdoc :=
  mkGpx (map (fun r => map gpx_copyPoints (rt_tracks r)) routes) [] [] [XNode "gpsgen" [] "" (map (routeNode ord) routes)].

(** encoding.go 21-81 *)
Definition gpx_Encode (ord : props T -> list (string * gval T)) (routes : list (route T)) : goret string :=
  if (zlen routes =? 0)%Z then GErr ErrNoRoutes
  else match gpx_toxml (gpx_doc ord routes) with Some b => GOk b | None => GErr ErrXML end.

(** encoding.go 199-204 *)
Definition routesExists (d : gpxdoc) : bool :=
  match gx_ext d with [] => false | n :: _ => String.eqb (xn_name n) "gpsgen" end.

(** encoding.go 270-277; root[i] is in range after line 267 *)
Fixpoint validateTracks (tracks : list (list (list (T * T)))) (root : list xnode) : res bool :=
  match tracks with
  | [] => Ret true
  | t :: rest => match root with
                 | [] => Panic
                 | n :: root => if (zlen t =? zlen (xn_nodes n))%Z then validateTracks rest root else Ret false
                 end
  end.
(** encoding.go 263-279 *)
Definition validateRoutes (d : gpxdoc) : res bool :=
  match gx_tracks d, gx_ext d with
  | [], _ => Ret false
  | _, [] => Ret false
  | ts, n :: _ => if (zlen (xn_nodes n) =? zlen ts)%Z then validateTracks ts (xn_nodes n) else Ret false
  end.

(** encoding.go 120-145: segments and the nodes of the route, paired by index (122) *)
Fixpoint restore_tracks (r : route T) (segs : list (list (T * T))) (nodes : list xnode) : res (goret (route T)) :=
  match segs with
  | [] => Ret (GOk r)
  | seg :: rest =>
      match nodes with
      | [] => Panic
      | n :: nodes =>
          let p := makeProps (xn_attrs n) in
          let color := fst (props_String p "color") in
          let name := fst (props_String p "name") in
          let p := gpx_resetProps p in
          match RestoreTrack (xn_data n) color (makePoints seg) with
          | GErr e => Ret (GErr e)
          | GOk t =>
              let t := track_setProps t (props_Merge (fst (track_Props t)) p) in
              let t := if (0 <? slen name)%Z then snd (track_ChangeName t name) else t in
              restore_tracks (AddTrack r (Some t)) rest nodes
          end
      end
  end.

(** encoding.go 100-147: tracks and the nodes of the root, paired by index (105) *)
Fixpoint restore_routes (tracks : list (list (list (T * T)))) (nodes : list xnode) : res (goret (list (route T))) :=
  match tracks with
  | [] => Ret (GOk [])
  | [] :: rest => restore_routes rest (tl nodes)
  | segs :: rest =>
      match nodes with
      | [] => Panic
      | n :: nodes =>
          let p := makeProps (xn_attrs n) in
          match props_String p "id" with
          | (_, false) => Ret (GErr ErrInvalidRoute)
          | (routeID, true) =>
              let color := fst (props_String p "color") in
              let name := fst (props_String p "name") in
              let p := gpx_resetProps p in
              let r := RestoreRoute routeID color (Some p) in
              let r := if (0 <? slen name)%Z then snd (route_ChangeName r name) else r in
              let* y := restore_tracks r segs (xn_nodes n) in
              match y with
              | GErr e => Ret (GErr e)
              | GOk r =>
                  let* z := restore_routes rest nodes in
                  match z with GErr e => Ret (GErr e) | GOk l => Ret (GOk (r :: l)) end
              end
          end
      end
  end.

(** The identifiers and colours drawn by NewRoute and NewTrack, for each kind of list in a document (0 routes,
    1 tracks, 2 waypoints). *)
Record gpxDraws : Type := mkGpxDraws { xd_route : nat -> nat -> string * string; xd_track : nat -> nat -> nat -> string * string }.

(** encoding.go 167-181 and, for one line, 154-160, 186-192: a new route with one track per line *)
Fixpoint new_tracks (r : route T) (d : nat -> string * string) (j : nat) (ls : list (list (T * T))) : goret (route T) :=
  match ls with
  | [] => GOk r
  | l :: rest => match NewTrack (makePoints l) (fst (d j)) (snd (d j)) with
                 | GErr e => GErr e
                 | GOk t => new_tracks (AddTrack r (Some t)) d (S j) rest
                 end
  end.
Fixpoint new_routes (x : gpxDraws) (kind i : nat) (lss : list (list (list (T * T)))) : goret (list (route T)) :=
  match lss with
  | [] => GOk []
  | ls :: rest =>
      match new_tracks (NewRoute (fst (xd_route x kind i)) (snd (xd_route x kind i))) (xd_track x kind i) 0 ls with
      | GErr e => GErr e
      | GOk r => match new_routes x kind (S i) rest with GErr e => GErr e | GOk l => GOk (r :: l) end
      end
  end.

(** encoding.go 149-194: each kind replaces the routes read before *)
Definition foreign_routes (x : gpxDraws) (d : gpxdoc) : goret (list (route T)) :=
  match match gx_routes d with [] => GOk [] | rs => new_routes x 0 0 (map (fun l => [l]) rs) end with
  | GErr e => GErr e
  | GOk routes =>
      match match gx_tracks d with [] => GOk routes | ts => new_routes x 1 0 ts end with
      | GErr e => GErr e
      | GOk routes => match gx_waypoints d with [] => GOk routes | w => new_routes x 2 0 [[w]] end
      end
  end.

(** encoding.go 84-197 *)
Definition gpx_Decode (data : string) (x : gpxDraws) : res (goret (list (route T))) :=
  if (slen data =? 0)%Z then Ret (GErr ErrNoRoutes)
  else match gpx_parse data with
       | None => Ret (GErr ErrXML)
       | Some d =>
           if routesExists d then
             let* ok := validateRoutes d in
             if ok then let* n := deref (head (gx_ext d)) in restore_routes (gx_tracks d) (xn_nodes n)
             else Ret (GErr ErrInvalidRoute)
           else Ret (foreign_routes x d)
       end.

End GPX.
Arguments gpxdoc : clear implicits.
Arguments GpxLib : clear implicits.
