(** Commands as they must appear, stated on plain byte strings and numbers. *)
From Coq Require Import List NArith ZArith Reals Floats.SpecFloat Init.Byte String.
From Coq Require Strings.Byte.
From Verif Require Import SpecFloat64.
Import ListNotations.

(** Send-data commands: function 13, node, length, command class, SET,
    value, transmit options. *)
Definition binary_set (node value : byte) : list byte := [x13; node; x03; x25; x01; value; x25].
Definition multilevel_set (node level : byte) : list byte := [x13; node; x03; x26; x01; level; x25].

(** [b] is the byte of node number [z] (the low eight bits of the int). *)
Definition low_byte (z : Z) (b : byte) : Prop := (Z.of_N (Byte.to_N b) = z mod 256)%Z.

(** The level to send when level [v] is requested. *)
Inductive level_sent : spec_float -> N -> Prop :=
| ls_low v : is_double v -> (double_value v < 1)%R -> level_sent v 0
| ls_minus_infinity : level_sent (S754_infinity true) 0
| ls_high v : is_double v -> (99 < double_value v)%R -> level_sent v 99
| ls_infinity : level_sent (S754_infinity false) 99
| ls_mid v n : is_double v -> (1 <= double_value v <= 99)%R ->
    (IZR (Z.of_N n) <= double_value v < IZR (Z.of_N n) + 1)%R -> level_sent v n.

(** [out] is [inner] addressed to endpoint [e] of the same node: function, node,
    length and body are those of [inner], with 60 0D 01 e put before the body
    and counted in the length. *)
Inductive encapsulated : list byte -> byte -> list byte -> Prop :=
| enc_intro fn node l l' e body :
    (Byte.to_N l' = (Byte.to_N l + 4) mod 256)%N ->
    encapsulated (fn :: node :: l :: body) e
                 (fn :: node :: l' :: x60 :: x0d :: x01 :: e :: body).
