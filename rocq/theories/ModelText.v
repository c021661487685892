(** Model of the String methods of package commands/reports: the text a report
    is printed as. *)
From Verif Require Import ModelBase ModelReports.
From Coq Require Import Floats.SpecFloat.
Local Open Scope string_scope.

(** *** The verbs of fmt.Sprintf that are used (standard library). *)
(** %x of a byte: no leading zero. *)
Definition hex_byte (b : byte) : string :=
  let n := b2N b in
  if (n <? 16)%N then String (hexdigit n) ""
  else String (hexdigit (N.div n 16)) (String (hexdigit (N.modulo n 16)) "").

(** %t *)
Definition bool_text (b : bool) : string := if b then "true" else "false".

(** %f: six decimals; the exact value of the double is rounded to a multiple of
    10^-6, ties to even (strconv.FormatFloat, format 'f', precision 6). *)
Definition millionths (m : positive) (e : Z) : Z :=
  if (0 <=? e)%Z then (Zpos m * 2 ^ e * 1000000)%Z
  else
    let n := (Zpos m * 1000000)%Z in
    let d := (2 ^ (- e))%Z in
    let q := (n / d)%Z in
    let r := (n mod d)%Z in
    if (2 * r <? d)%Z then q
    else if (d <? 2 * r)%Z then (q + 1)%Z
    else if Z.even q then q else (q + 1)%Z.
Definition digit (n : N) : ascii := ascii_of_N (48 + N.modulo n 10).
Definition six_digits (n : N) : string :=
  String (digit (n / 100000)) (String (digit (n / 10000)) (String (digit (n / 1000))
  (String (digit (n / 100)) (String (digit (n / 10)) (String (digit n) ""))))).
Definition sign_text (s : bool) : string := if s then "-" else "".
Definition float_text (x : spec_float) : string :=
  match x with
  | S754_zero s => sign_text s ++ "0.000000"
  | S754_infinity s => if s then "-Inf" else "+Inf"
  | S754_nan => "NaN"
  | S754_finite s m e =>
      let k := Z.to_N (millionths m e) in
      sign_text s ++ itoa (N.div k 1000000) ++ "." ++ six_digits (N.modulo k 1000000)
  end.

(** *** The methods: alarm.go:43-50, manufacturer_specific.go:43-45,
    multi_instance_endpoint.go:47-49, sensor_multi_level.go:341-343,
    switch_binary.go:35-37 and 67-69, switch_multilevel.go:34-39 and 71-81,
    wakeup.go:15-17.  The levels of the multilevel switch are float64 in Go;
    the model keeps the integer (see [min100]), which is exact. *)
Definition report_text (r : report) : string :=
  match r with
  | RAlarm t l src sensor event status raw =>
      if (6 <=? List.length raw)%nat then
        "alarm type:" ++ hex_byte t ++ " level:" ++ hex_byte l ++
        " sensorSrcID:" ++ hex_byte src ++ " status:" ++ hex_byte status ++
        " sensorType:" ++ hex_byte sensor ++ " event:" ++ hex_byte event
      else "alarm type:" ++ hex_byte t ++ " level:" ++ hex_byte l
  | RManufacturer m t i =>
      "manufacturerSpecific manufacturer:" ++ m ++ " type:" ++ t ++ " id:" ++ i ++
      " (" ++ m ++ ":" ++ t ++ ":" ++ i ++ ")"
  | REndpoints dyn ident n =>
      "multiChannelEndpoints dynamic:" ++ bool_text dyn ++ " identical:" ++ bool_text ident ++
      " endpoints:" ++ itoa n
  | RSensor _ _ _ _ v ts un => float_text v ++ " " ++ ts ++ " " ++ un
  | RSwitchBinary1 cur _ => "current:" ++ bool_text cur
  | RSwitchBinary2 cur tgt d =>
      "current:" ++ bool_text cur ++ " target:" ++ bool_text tgt ++
      " duration:" ++ duration_string d
  | RSwitchMulti1 cur valid =>
      if negb valid then "current:unknown"
      else "current:" ++ float_text (f64_of_Z (Z.of_N cur))
  | RSwitchMulti4 cur tgt d valid tvalid =>
      let ret := if negb valid then "current:unknown "
                 else "current:" ++ float_text (f64_of_Z (Z.of_N cur)) ++ " " in
      if negb tvalid then ret ++ "target:unknown duration:" ++ duration_string d
      else ret ++ "target:" ++ float_text (f64_of_Z (Z.of_N tgt)) ++
           " duration:" ++ duration_string d
  | RWakeUp => "wakeup"
  end.
