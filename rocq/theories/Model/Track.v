(** Model of navigator/route_track_segment.go, navigator/route_track.go and navigator/types.go. *)
From Verif.Model Require Import Base Num Geo PropMap Pb.
Open Scope num_scope.

(** navigator/types.go 17-23, 35-43; a Name is its string, "" is the zero Name *)
Definition ParseName (name : string) : goret string :=
  if (slen name <? 3)%Z then GErr ErrNameTooShort
  else if (256 <? slen name)%Z then GErr ErrNameTooLong
  else GOk name.

Section Track.
Context {T : Type} {N : Num T} {J : JsonLib T}.

(** navigator/route_track_segment.go 9-16 *)
Record segment : Type := mkSegment {
  sg_a : point T; sg_b : point T; sg_dist : T; sg_bearing : T; sg_index : Z; sg_rel : Z }.

(** the zero value Segment{} *)
Definition segment_zero : segment := mkSegment (mkPoint f0 f0) (mkPoint f0 f0) f0 f0 0 0.

(** navigator/route_track_segment.go 43-46 *)
Definition segment_DestinationTo (s : segment) (meters : T) : point T :=
  let '(la, lo) := Destination (lat (sg_a s)) (lon (sg_a s)) meters (sg_bearing s) in
  mkPoint la lo.

(** navigator/route_track_segment.go 54-56 *)
Definition segment_IsEmpty (s : segment) : bool := sg_dist s =? f0.

(** navigator/route_track_segment.go 91-93 *)
Definition segment_hasRelation (s : segment) : bool := negb (sg_rel s =? -1)%Z.

(** navigator/route_track_segment.go 103-122: the segments between consecutive points *)
Fixpoint make_segs (i : nat) (points : list (point T)) : list segment :=
  match points with
  | a :: ((b :: _) as r) =>
      mkSegment a b (Distance (lat a) (lon a) (lat b) (lon b))
                (Bearing (lat a) (lon a) (lat b) (lon b)) (Z.of_nat i) (-1) :: make_segs (S i) r
  | _ => []
  end.

(** navigator/route_track_segment.go 102, 121: dist += newSeg.dist *)
Definition sum_dist (l : list segment) : T := fold_left (fun d s => d + sg_dist s) l f0.

Definition set_rel (s : segment) (r : Z) : segment :=
  mkSegment (sg_a s) (sg_b s) (sg_dist s) (sg_bearing s) (sg_index s) r.

(** navigator/route_track_segment.go 124-132: linking consecutive segments; iteration s of the
    loop looks at segments s-1 ([prev]) and s *)
Fixpoint link_segs (s : Z) (prev : segment) (l : list segment) : list segment :=
  match l with
  | [] => [prev]
  | c :: r =>
      if point_eqb (sg_b prev) (sg_a c)
      then set_rel prev (s - 1)%Z :: link_segs (s + 1)%Z (set_rel c s) r
      else prev :: link_segs (s + 1)%Z c r
  end.

(** navigator/route_track_segment.go 95-135 *)
Definition makeSegments (points : list (point T)) : goret (list segment * T) :=
  if (zlen points <? 2)%Z then GErr ErrInvalidRoutePath
  else
    let segs := make_segs 0 points in
    match segs with
    | [] => GOk ([], sum_dist segs)
    | s0 :: r => GOk (link_segs 1 s0 r, sum_dist segs)
    end.

(** navigator/route_track_segment.go 59-74 *)
Definition segment_Snapshot (s : segment) : pbSegment T :=
  mkPbSegment (Some (mkPbPLL (lon (sg_a s)) (lat (sg_a s))))
              (Some (mkPbPLL (lon (sg_b s)) (lat (sg_b s))))
              (sg_dist s) (sg_bearing s) (sg_index s) (sg_rel s).

(** navigator/route_track_segment.go 77-89 (the nil test is moot: elements are non-nil) *)
Definition SegmentFromSnapshot (snap : pbSegment T) : res segment :=
  let* a := deref (psg_point_a snap) in
  let* b := deref (psg_point_b snap) in
  Ret (mkSegment (mkPoint (pll_lat a) (pll_lon a)) (mkPoint (pll_lat b) (pll_lon b))
                 (psg_distance snap) (psg_bearing snap) (psg_index snap) (psg_rel snap)).

(** navigator/route_track.go 15-24; props is None when the map is nil *)
Record track : Type := mkTrack {
  tk_id : string; tk_segments : list segment; tk_color : string; tk_name : string;
  tk_props : option (props T); tk_dist : T; tk_isClosed : bool; tk_version : Z }.

(** navigator/route_track.go 179-187; note the comparison of p2.Lat with itself *)
Definition isClosed (points : list (point T)) : bool :=
  if (zlen points <? 3)%Z then false
  else
    match points, rev points with
    | p1 :: _, p2 :: _ => (lon p1 =? lon p2) && (lat p2 =? lat p2)
    | _, _ => false
    end.

(** navigator/route_track.go 30-42; [uuid] = uuid.NewString(), [color] = the happy color *)
Definition NewTrack (points : list (point T)) (uuid color : string) : goret track :=
  match makeSegments points with
  | GErr e => GErr e
  | GOk (segs, d) => GOk (mkTrack uuid segs color "" None d (isClosed points) 0)
  end.

(** navigator/route_track.go 45-60 *)
Definition RestoreTrack (trackID color : string) (points : list (point T)) : goret track :=
  if (slen trackID =? 0)%Z then GErr ErrEmptyTrackID
  else
    match makeSegments points with
    | GErr e => GErr e
    | GOk (segs, d) => GOk (mkTrack trackID segs color "" None d (isClosed points) 0)
    end.

(** navigator/route_track.go 152-154 *)
Definition track_nextVersion (t : track) : track :=
  mkTrack (tk_id t) (tk_segments t) (tk_color t) (tk_name t) (tk_props t) (tk_dist t)
          (tk_isClosed t) (tk_version t + 1)%Z.

(** navigator/route_track.go 83-91; [parsed] = colorful.Hex(color) rendered back by Hex() *)
Definition track_ChangeColor (t : track) (parsed : option string) : option goerr * track :=
  match parsed with
  | None => (Some ErrInvalidColor, t)
  | Some c => (None, track_nextVersion
      (mkTrack (tk_id t) (tk_segments t) c (tk_name t) (tk_props t) (tk_dist t)
               (tk_isClosed t) (tk_version t)))
  end.

(** navigator/route_track.go 94-102 *)
Definition track_ChangeName (t : track) (name : string) : option goerr * track :=
  match ParseName name with
  | GErr e => (Some e, t)
  | GOk n => (None, track_nextVersion
      (mkTrack (tk_id t) (tk_segments t) (tk_color t) n (tk_props t) (tk_dist t)
               (tk_isClosed t) (tk_version t)))
  end.

(** navigator/route_track.go 110-115: the map is created on first access *)
Definition track_Props (t : track) : props T * track :=
  match tk_props t with
  | Some p => (p, t)
  | None => (props_Make,
      mkTrack (tk_id t) (tk_segments t) (tk_color t) (tk_name t) (Some props_Make) (tk_dist t)
              (tk_isClosed t) (tk_version t))
  end.

(** a caller writing through the map returned by Props() *)
Definition track_setProps (t : track) (p : props T) : track :=
  mkTrack (tk_id t) (tk_segments t) (tk_color t) (tk_name t) (Some p) (tk_dist t)
          (tk_isClosed t) (tk_version t).

(** navigator/route_track.go 118-120 *)
Definition NumSegments (t : track) : Z := zlen (tk_segments t).

(** navigator/route_track.go 123-128 *)
Definition SegmentAt (t : track) (i : Z) : segment :=
  if ((zlen (tk_segments t) =? 0) || (zlen (tk_segments t) - 1 <? i) || (i <? 0))%Z
  then segment_zero
  else match zget (tk_segments t) i with Some s => s | None => segment_zero end.

(** rawProps, _ = json.Marshal(props) when props != nil (route_track.go 136-139,
    route.go 184-187); a marshalling error leaves the bytes nil *)
Definition marshal_props (p : option (props T)) : string :=
  match p with
  | None => ""
  | Some p => match json_marshal p with Some b => b | None => "" end
  end.

(** navigator/route_track.go 131-150 *)
Definition track_Snapshot (t : track) : pbTrack T :=
  mkPbTrack (tk_id t) (map segment_Snapshot (tk_segments t)) (tk_color t)
            (marshal_props (tk_props t)) (tk_dist t) (tk_isClosed t) (tk_name t) (tk_version t).

(** navigator/route_track.go 161-165; on a JSON error the freshly made map is kept *)
Definition track_props_of (raw : string) : option (props T) :=
  if (0 <? slen raw)%Z
  then match json_unmarshal raw with Some p => p | None => Some props_Make end
  else None.

(** navigator/route_track.go 157-177 *)
Definition TrackFromSnapshot (snap : pbTrack T) : res track :=
  let* segs := mapM SegmentFromSnapshot (ptr_segments snap) in
  Ret (mkTrack (ptr_id snap) segs (ptr_color snap) (ptr_name snap)
               (track_props_of (ptr_props snap)) (ptr_distance snap) (ptr_is_closed snap)
               (ptr_version snap)).

End Track.
Arguments segment : clear implicits.
Arguments track : clear implicits.
