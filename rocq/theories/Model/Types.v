(** Model of package types: Random, Speed, Battery, Sensor, Model. *)
From Verif.Model Require Import Base Num Curve.
Open Scope num_scope.

(** * types/validator.go *)

(** types/validator.go 17-25 *)
Definition validateAmplitude (val : Z) : option goerr :=
  if (val <? 4)%Z then Some ErrMinAmplitude
  else if (512 <? val)%Z then Some ErrMaxAmplitude
  else None.

(** types/validator.go 27-29; SensorMode is a uint16 *)
Definition validateSensorMode (mode : Z) : bool := (0 <? mode)%Z.

(** * types/random.go *)

(** types/random.go 8-11; the generator state is replaced by explicit draws *)
Record random : Type := mkRandom { r_min : Z; r_max : Z }.

(** types/random.go 29-48 *)
Definition NewRandom (min max : Z) : random :=
  let min := if (min <? 0)%Z then 0%Z else min in
  let '(min, max) := if (max <? 0)%Z then (0%Z, 1%Z) else (min, max) in
  let max := if ((min =? 0) && (max =? 0))%Z then 1%Z else max in
  mkRandom min max.

(** valyala/fastrand v1.1.0 RNG.Uint32n: uint32((uint64(x) * uint64(maxN)) >> 32),
    [draw] is the 32-bit output x of the generator *)
Definition Uint32n (draw maxN : Z) : Z := ((draw * maxN) / 2 ^ 32) mod 2 ^ 32.

(** types/random.go 24-26; the conversion uint32(r.max-r.min) wraps *)
Definition random_Value (r : random) (draw : Z) : Z :=
  (Uint32n draw ((r_max r - r_min r) mod 2 ^ 32) + r_min r)%Z.

(** * types/model.go *)

(** types/model.go 34-42 *)
Definition NewModel (value : string) : goret string :=
  if (slen value <? 3)%Z then GErr ErrModelTooShort
  else if (64 <? slen value)%Z then GErr ErrModelTooLong
  else GOk value.

(** types/model.go 47-49; [s] = random.String(6) *)
Definition RandomModel (s : string) : string := ("RT-" ++ s)%string.

Section Types.
Context {T : Type} {N : Num T}.

(** * types/speed.go *)

(** types/speed.go 26-31 *)
Record speed : Type := mkSpeed { sp_min : T; sp_max : T; sp_val : T; sp_gen : curve T }.

(** types/speed.go 36-67 *)
Definition NewSpeed (min max : T) (amplitude : Z) (draws : nat -> T) : goret speed :=
  if min <? f0 then GErr ErrMinSpeed
  else if max >? fofZ 1000 then GErr ErrMaxSpeed
  else
    let max := if max <=? f0 then min else max in
    if min >? max then GErr ErrSpeedMinGreaterMax
    else
      let '(min, max) := if (min =? f0) && (max =? f0) then (f1, f1) else (min, max) in
      match validateAmplitude amplitude with
      | Some e => GErr e
      | None => GOk (mkSpeed min max f0 (curve_New min max amplitude ModeDefault draws))
      end.

(** types/speed.go 128-130 *)
Definition speed_isStatic (s : speed) : bool := sp_min s =? sp_max s.

(** types/speed.go 80-85 *)
Definition speed_Value (s : speed) : T := if speed_isStatic s then sp_min s else sp_val s.

(** types/speed.go 93-95 *)
Definition speed_Shuffle (s : speed) (draws : nat -> T) : speed :=
  mkSpeed (sp_min s) (sp_max s) (sp_val s) (curve_Shuffle (sp_gen s) draws).

(** types/speed.go 101-107 *)
Definition speed_Next (s : speed) (tick : T) : res speed :=
  if speed_isStatic s then Ret s
  else
    let* (p, g) := curve_Point (sp_gen s) tick in
    Ret (mkSpeed (sp_min s) (sp_max s) (Y p) g).

(** * types/battery.go *)

(** types/battery.go 25-30; chargeTime is a time.Duration in nanoseconds *)
Record battery : Type := mkBattery { b_min : T; b_max : T; b_val : T; b_chargeTime : Z }.

(** time.Duration.Seconds: sec := d / Second; nsec := d % Second (truncated division);
    float64(sec) + float64(nsec)/1e9 *)
Definition duration_Seconds (d : Z) : T :=
  fofZ (Z.quot d 1000000000) + fofZ (Z.rem d 1000000000) / fofZ 1000000000.

(** types/battery.go 14: 9 hours *)
Definition defaultChargeTime : Z := 32400000000000.

(** types/battery.go 39-57 *)
Definition NewBattery (min max : T) (chargeTime : Z) : goret battery :=
  if min <? f0 then GErr ErrMinBattery
  else if max >? fofZ 100 then GErr ErrMaxBattery
  else
    let min := if min >? max then max else min in
    let chargeTime := if (chargeTime <? 0)%Z then defaultChargeTime else chargeTime in
    GOk (mkBattery min max f0 chargeTime).

(** types/battery.go 81-87 *)
Definition battery_Value (b : battery) : T :=
  let val := fofZ 100 - (b_val b / duration_Seconds (b_chargeTime b) * fofZ 100) in
  if val <? b_min b then b_min b else val.

(** types/battery.go 75-78 *)
Definition battery_IsLow (b : battery) : bool := battery_Value b =? b_min b.

(** types/battery.go 90-92 *)
Definition battery_Reset (b : battery) : battery :=
  mkBattery (b_min b) (b_max b) f0 (b_chargeTime b).

(** types/battery.go 101-103 *)
Definition battery_Next (b : battery) (seconds : T) : battery :=
  mkBattery (b_min b) (b_max b) (b_val b + seconds) (b_chargeTime b).

(** * types/sensor.go *)

(** types/sensor.go 18-26 *)
Record sensor : Type := mkSensor {
  s_id : string; s_name : string;
  s_min : T; s_max : T; s_valX : T; s_valY : T;
  s_gen : curve T
}.

(** types/sensor.go 44-67; [uuid] = uuid.NewString() *)
Definition NewSensor (name : string) (min max : T) (amplitude mode : Z)
    (uuid : string) (draws : nat -> T) : goret sensor :=
  match validateAmplitude amplitude with
  | Some e => GErr e
  | None =>
    if (slen name =? 0)%Z then GErr ErrEmptySensorName
    else
      let mode := if validateSensorMode mode then mode else ModeDefault in
      GOk (mkSensor uuid name min max f0 f0 (curve_New min max amplitude mode draws))
  end.

(** types/sensor.go 71-104; [parsed] = uuid.Parse(id) rendered by String(), None on error *)
Definition RestoreSensor (parsed : option string) (name : string) (min max : T)
    (amplitude mode : Z) (draws : nat -> T) : goret sensor :=
  match parsed with
  | None => GErr ErrInvalidUUID
  | Some sid =>
    if (slen name =? 0)%Z then GErr ErrEmptySensorName
    else
      match validateAmplitude amplitude with
      | Some e => GErr e
      | None =>
        let mode := if validateSensorMode mode then mode else ModeDefault in
        GOk (mkSensor sid name min max f0 f0 (curve_New min max amplitude mode draws))
      end
  end.

(** types/sensor.go 142-144 *)
Definition sensor_Shuffle (s : sensor) (draws : nat -> T) : sensor :=
  mkSensor (s_id s) (s_name s) (s_min s) (s_max s) (s_valX s) (s_valY s)
           (curve_Shuffle (s_gen s) draws).

(** types/sensor.go 150-154 *)
Definition sensor_Next (s : sensor) (tick : T) : res sensor :=
  let* (p, g) := curve_Point (s_gen s) tick in
  Ret (mkSensor (s_id s) (s_name s) (s_min s) (s_max s) (X p) (Y p) g).

End Types.
Arguments speed : clear implicits.
Arguments battery : clear implicits.
Arguments sensor : clear implicits.
