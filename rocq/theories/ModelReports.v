(** Model of package commands/reports and commands/duration.go. *)
From Verif Require Import ModelBase.
From Coq Require Import Floats.SpecFloat DecimalString DecimalN.
Local Open Scope string_scope.

(** float64 is IEEE binary64. *)
Definition f64_prec : Z := 53.
Definition f64_emax : Z := 1024.
(** Go's conversion float64(int). *)
Definition f64_of_Z (z : Z) : spec_float :=
  binary_normalize f64_prec f64_emax z 0 false.
(** Go's float64 division. *)
Definition f64_div (x y : spec_float) : spec_float :=
  SFdiv f64_prec f64_emax x y.
(** math.Pow(10, float64(p)) for 0 <= p <= 7.  The powers 10^1..10^7 are
    exactly representable and Go's Pow computes them exactly; this is the only
    library fact taken on trust here. *)
Definition f64_pow10 (p : N) : spec_float := f64_of_Z (10 ^ Z.of_N p).

(** strconv.Itoa on a non-negative int. *)
Definition itoa (n : N) : string := NilEmpty.string_of_uint (N.to_uint n).

(** fmt.Sprintf("%04x", uint16). *)
Definition hexdigit (n : N) : ascii :=
  match n with
  | 0 => "0" | 1 => "1" | 2 => "2" | 3 => "3" | 4 => "4" | 5 => "5"
  | 6 => "6" | 7 => "7" | 8 => "8" | 9 => "9" | 10 => "a" | 11 => "b"
  | 12 => "c" | 13 => "d" | 14 => "e" | _ => "f"
  end%char%N.
Definition hex4 (n : N) : string :=
  String (hexdigit (N.modulo (N.div n 4096) 16))
  (String (hexdigit (N.modulo (N.div n 256) 16))
  (String (hexdigit (N.modulo (N.div n 16) 16))
  (String (hexdigit (N.modulo n 16)) EmptyString))).

(** encoding/binary.BigEndian.Uint16 *)
Definition be16 (hi lo : byte) : N := (256 * b2N hi + b2N lo)%N.

(** *** commands/duration.go:12-22  [Duration.Duration], in seconds
    (time.Duration counts nanoseconds; every value here is a whole number of
    seconds). *)
Definition duration_secs (d : byte) : res Z :=
  if beq d x00 then Ok 0%Z
  else if (b2N d <=? 127)%N then Ok (Z.of_N (b2N d))
  else if (b2N d <=? 253)%N then Ok (Z.of_N (b2N (sub8 d x7f)) * 60)%Z
  else Fail EFactoryDefault.

(** Go's time.Duration.String for whole non-negative seconds: "0s", "59s",
    "2m7s", "1h3m0s" (standard library, modelled because
    commands/duration.go:24-32 exposes it). *)
Definition duration_string_secs (s : Z) : string :=
  let n := Z.to_N s in
  let h := (n / 3600)%N in
  let m := ((n / 60) mod 60)%N in
  let sec := (n mod 60)%N in
  if (h =? 0)%N then
    if (m =? 0)%N then itoa sec ++ "s"
    else itoa m ++ "m" ++ itoa sec ++ "s"
  else itoa h ++ "h" ++ itoa m ++ "m" ++ itoa sec ++ "s".

(** commands/duration.go:24-32 [Duration.String] *)
Definition duration_string (d : byte) : string :=
  match duration_secs d with
  | Ok s => duration_string_secs s
  | _ => "Factory default duration"
  end.

(** *** The report structs.  The embedded *report pointer (report.go:14-25) is
    nil in every constructor and SetNode on it has no effect, so it is left
    out.  The private [data] fields are left out except Alarm's, whose length
    is read by String (alarm.go:43-50). *)
Inductive report : Type :=
| RAlarm (typ level source sensorType event status : byte) (raw : list byte)
| RManufacturer (manufacturer typ id : string)
| REndpoints (dynamic identical : bool) (endpoints : N)
| RSensor (valueType size scale precision : byte) (value : spec_float)
          (typeString unit : string)
| RSwitchBinary1 (current valid : bool)
| RSwitchBinary2 (current target : bool) (duration : byte)
| RSwitchMulti1 (current : N) (valid : bool)
| RSwitchMulti4 (current target : N) (duration : byte) (valid targetValid : bool)
| RWakeUp.

(** alarm.go:19-41 [NewAlarm] *)
Definition new_alarm (data : list byte) : res report :=
  if (List.length data <? 2)%nat then Fail ETooShort else
  do t <- idx data 0;
  do l <- idx data 1;
  if (6 <=? List.length data)%nat then
    do a <- idx data 2;
    do b <- idx data 3;
    do c <- idx data 4;
    do e <- idx data 5;
    Ok (RAlarm t l a c e b data)
  else Ok (RAlarm t l x00 x00 x00 x00 data).

(** manufacturer_specific.go:18-41 [NewManufacturerSpecific] *)
Definition new_manufacturer (data : list byte) : res report :=
  match data with
  | [a; b; c; d; e; f] =>
      Ok (RManufacturer (hex4 (be16 a b)) (hex4 (be16 c d)) (hex4 (be16 e f)))
  | _ => Fail EWrongLength
  end.

(** multi_instance_endpoint.go:16-45 [NewMultiChannelEndpoints] *)
Definition new_endpoints (data : list byte) : res report :=
  match data with
  | bits :: n :: _ =>
      Ok (REndpoints (hasbit bits x80) (hasbit bits x40) (b2N n))
  | _ => Fail ETooShort
  end.

(** sensor_multi_level.go:102-336: TypeString by ValueType. *)
Definition sensor_type (vt : byte) : string :=
  match vt with
  | x01 => "Temperature" | x02 => "General" | x03 => "Luminance"
  | x04 => "Power" | x05 => "RelativeHumidity" | x06 => "Velocity"
  | x07 => "Direction" | x08 => "AtmosphericPressure"
  | x09 => "BarometricPressure" | x0a => "SolarRadiation" | x0b => "DewPoint"
  | x0c => "RainRate" | x0d => "TideLevel" | x0e => "Weight"
  | x0f => "Voltage" | x10 => "Current" | x11 => "CO2" | x12 => "AirFlow"
  | x13 => "TankCapacity" | x14 => "Distance" | x15 => "AnglePosition"
  | x16 => "Rotation" | x17 => "WaterTemperature" | x18 => "SoilTemperature"
  | x19 => "SeismicIntensity" | x1a => "SeismicMagnitude"
  | x1b => "Ultraviolet" | x1c => "ElectricalResistivity"
  | x1d => "ElectricalConductivity" | x1e => "Loudness" | x1f => "Moisture"
  | _ => "Unknown (" ++ itoa (b2N vt) ++ ")"
  end.

(** sensor_multi_level.go:102-336: Unit by ValueType and Scale. *)
Definition sensor_unit (vt scale : byte) : string :=
  match vt, scale with
  | x01, x00 => "C" | x01, x01 => "F"
  | x02, x00 => "%"
  | x03, x00 => "%" | x03, x01 => "lux"
  | x04, x00 => "W" | x04, x01 => "BTU/h"
  | x05, x00 => "%"
  | x06, x00 => "m/s" | x06, x01 => "mph"
  | x08, x00 => "kPa" | x08, x01 => "inHg"
  | x09, x00 => "kPa" | x09, x01 => "inHg"
  | x0a, _ => "W/m2"
  | x0b, x00 => "C" | x0b, x01 => "F"
  | x0c, x00 => "mm/h" | x0c, x01 => "in/h"
  | x0d, x00 => "m" | x0d, x01 => "ft"
  | x0e, x00 => "kg" | x0e, x01 => "lb"
  | x0f, x00 => "V" | x0f, x01 => "mV"
  | x10, x00 => "A" | x10, x01 => "mA"
  | x11, _ => "ppm"
  | x12, x00 => "m3/h" | x12, x01 => "cfm"
  | x13, x00 => "l" | x13, x01 => "cbm" | x13, x02 => "gal"
  | x14, x00 => "m" | x14, x01 => "cm" | x14, x02 => "ft"
  | x15, x00 => "%" | x15, x01 => "deg N" | x15, x02 => "deg S"
  | x16, x00 => "rpm" | x16, x01 => "hz"
  | x17, x00 => "C" | x17, x01 => "F"
  | x18, x00 => "C" | x18, x01 => "F"
  | x19, x00 => "mercalli" | x19, x01 => "EU macroseismic"
  | x19, x02 => "liedu" | x19, x03 => "shindo"
  | x1a, x00 => "local" | x1a, x01 => "moment"
  | x1a, x02 => "surface wave" | x1a, x03 => "body wave"
  | x1c, _ => "ohm"
  | x1d, _ => "siemens/m"
  | x1e, x00 => "db" | x1e, x01 => "dBA"
  | x1f, x00 => "%" | x1f, x01 => "content" | x1f, x02 => "k ohm"
  | x1f, x03 => "water activity"
  | _, _ => ""
  end.

(** binary.Read(buf, BigEndian, &intN): big-endian two's complement of [n]
    bytes (standard library). *)
Definition be_unsigned (l : list byte) : Z :=
  fold_left (fun acc b => (acc * 256 + Z.of_N (b2N b))%Z) l 0%Z.
Definition be_signed (l : list byte) : Z :=
  let u := be_unsigned l in
  let w := (256 ^ Z.of_nat (List.length l))%Z in
  if (2 * u <? w)%Z then u else (u - w)%Z.

(** sensor_multi_level.go:64-339 [NewSensorMultiLevel].  binary.Read cannot
    fail: the length check at line 76 guarantees enough bytes. *)
Definition new_sensor (data : list byte) : res report :=
  if (List.length data <? 2)%nat then Fail ETooShort else
  do vt <- idx data 0;
  do h <- idx data 1;
  let size := and8 h x07 in
  let scale := shr8 (and8 h x18) 3 in
  let precision := shr8 (and8 h xe0) 5 in
  if (List.length data <? 2 + b2n size)%nat then Fail ETooShort else
  let body := skipn 2 data in
  let v0 :=
    match size with
    | x01 => f64_of_Z (be_signed (firstn 1 body))
    | x02 => f64_of_Z (be_signed (firstn 2 body))
    | x04 => f64_of_Z (be_signed (firstn 4 body))
    | _ => S754_zero false
    end in
  let v := if (0 <? b2N precision)%N then f64_div v0 (f64_pow10 (b2N precision))
           else v0 in
  Ok (RSensor vt size scale precision v (sensor_type vt) (sensor_unit vt scale)).

(** switch_binary.go:23-33 [NewSwitchBinaryV1] *)
Definition new_switch_binary1 (data : list byte) : res report :=
  match data with
  | [b] => Ok (RSwitchBinary1 (beq b xff && negb (beq b xfe)) (negb (beq b xfe)))
  | _ => Fail EWrongLength
  end.

(** switch_binary.go:54-65 [NewSwitchBinaryV2] *)
Definition new_switch_binary2 (data : list byte) : res report :=
  match data with
  | [c; t; d] => Ok (RSwitchBinary2 (negb (beq c x00)) (negb (beq t x00)) d)
  | _ => Fail EWrongLength
  end.

(** math.Min(float64(b), 100): both arguments are small integers, so the float
    is represented by the natural number. *)
Definition min100 (b : byte) : N := N.min (b2N b) 100.

(** switch_multilevel.go:22-32 [NewSwitchMultilevelV1] *)
Definition new_switch_multi1 (data : list byte) : res report :=
  match data with
  | [b] => Ok (RSwitchMulti1 (min100 b) (negb (beq b xfe)))
  | _ => Fail EWrongLength
  end.

(** switch_multilevel.go:56-69 [NewSwitchMultilevelV4] *)
Definition new_switch_multi4 (data : list byte) : res report :=
  match data with
  | [c; t; d] => Ok (RSwitchMulti4 (min100 c) (min100 t) d
                       (negb (beq c xfe)) (negb (beq t xfe)))
  | _ => Fail EWrongLength
  end.

(** report.go:28-77 [New].  Every path that leaves an inner switch without
    returning reaches the final error. *)
Definition reports_new (c class : byte) (data : list byte) : res report :=
  match c with
  | x71 => match class with x05 => new_alarm data | _ => Fail EUnknownCommand end
  | x72 => match class with x05 => new_manufacturer data | _ => Fail EUnknownCommand end
  | x60 => match class with x08 => new_endpoints data | _ => Fail EUnknownCommand end
  | x31 => match class with x05 => new_sensor data | _ => Fail EUnknownCommand end
  | x25 => match class with
           | x03 => match List.length data with
                    | 1%nat => new_switch_binary1 data
                    | 3%nat => new_switch_binary2 data
                    | _ => Fail EUnknownCommand
                    end
           | _ => Fail EUnknownCommand end
  | x26 => match class with
           | x03 => match List.length data with
                    | 1%nat => new_switch_multi1 data
                    | 3%nat => new_switch_multi4 data
                    | _ => Fail EUnknownCommand
                    end
           | _ => Fail EUnknownCommand end
  | x84 => Ok RWakeUp
  | _ => Fail EUnknownCommand
  end.
