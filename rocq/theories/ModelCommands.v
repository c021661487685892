(** Model of package commands: the encoders. *)
From Verif Require Import ModelBase ModelReports.
From Coq Require Import Floats.SpecFloat.

(** Go's conversion [byte(n)] of an int: the low eight bits. *)
Definition Z2b (n : Z) : byte := N2b (Z.to_N (n mod 256)).

(** Integer part (truncation towards zero) of a finite float64; infinities and
    NaN have none (Go leaves the conversion of those to the implementation). *)
Definition f64_trunc (x : spec_float) : option Z :=
  match x with
  | S754_zero _ => Some 0%Z
  | S754_finite s m e =>
      let q := match e with
               | Z0 => Zpos m
               | Zpos k => (Zpos m * 2 ^ Zpos k)%Z
               | Zneg k => (Zpos m / 2 ^ Zpos k)%Z
               end in
      Some (if s then (- q)%Z else q)
  | _ => None
  end.

(** SwitchBinary.go:13-37: [SetValue], [SetNode], [Encode] of a fresh command. *)
Definition encode_switch_binary (node : Z) (value : bool) : list byte :=
  [x13; Z2b node; x03; x25; x01; (if value then xff else x00); x25].

(** SwitchMultilevel.go:13-23 [SetValue]: the level byte.  [undef] is what the
    platform makes of [byte(NaN)], which Go leaves open. *)
Definition multilevel_byte (undef : byte) (v : spec_float) : byte :=
  let v1 := if SFltb v (f64_of_Z 1) then S754_zero false else v in
  let v2 := if SFltb (f64_of_Z 99) v1 then f64_of_Z 99 else v1 in
  match f64_trunc v2 with Some z => Z2b z | None => undef end.

(** SwitchMultilevel.go:13-39 *)
Definition encode_switch_multilevel (undef : byte) (node : Z) (v : spec_float) : list byte :=
  [x13; Z2b node; x03; x26; x01; multilevel_byte undef v; x25].

(** raw.go:9-26 [NewRaw], [SetNode], [Encode] *)
Definition encode_raw (node : Z) (data : list byte) : list byte :=
  [x13; Z2b node; Z2b (Z.of_nat (List.length data) + 1)] ++ data.

(** serialapi/raw.go: [NewRaw], [Encode] returns the bytes unchanged. *)
Definition encode_serial_raw (data : list byte) : list byte := data.

(** MultiChannelEncap.go:15-31 [Encode].  [msg[2] + 4] is byte arithmetic;
    reading msg[0..2] panics on shorter messages. *)
Definition encode_multichannel (msg : list byte) (endpoint : Z) : res (list byte) :=
  do m0 <- idx msg 0;
  do m1 <- idx msg 1;
  do m2 <- idx msg 2;
  Ok ([m0; m1; add8 m2 x04; x60; x0d; x01; Z2b endpoint] ++ skipn 3 msg).
