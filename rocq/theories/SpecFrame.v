(** The framing grammar of the Z-Wave serial line, stated on plain byte
    strings, independently of the model. *)
From Coq Require Import List NArith ZArith Init.Byte.
From Coq Require Strings.Byte.
Import ListNotations.

Definition SOF : byte := x01.
Definition ACK : byte := x06.
Definition NAK : byte := x15.
Definition CAN : byte := x18.

(** XOR of all bytes of a string. *)
Definition xor_sum (l : list byte) : N :=
  fold_right (fun b acc => N.lxor (Byte.to_N b) acc) 0%N l.

(** A complete frame: start byte, a length byte that counts everything after
    itself, and contents that XOR (length byte included) to FF. *)
Inductive frame : list byte -> Prop :=
| frame_intro n rest :
    Byte.to_N n = N.of_nat (length rest) ->
    xor_sum (n :: rest) = 255%N ->
    frame (SOF :: n :: rest).

(** What stands at the front of a received byte string. *)
Inductive shape : Type :=
| SMore (wanted : nat)     (* an incomplete frame; [wanted] bytes are needed *)
| SReject                  (* not a start byte, or a damaged frame *)
| SControl                 (* ACK, NAK or CAN *)
| SFrame (total : nat).    (* a complete, intact frame of [total] bytes *)

Inductive shape_of : list byte -> shape -> Prop :=
| sh_garbage b l :
    ~ In b [SOF; ACK; NAK; CAN] -> shape_of (b :: l) SReject
| sh_control b l :
    In b [ACK; NAK; CAN] -> shape_of (b :: l) SControl
| sh_more1 :
    shape_of [SOF] (SMore 2)
| sh_more n rest :
    (N.of_nat (length rest) < Byte.to_N n)%N ->
    shape_of (SOF :: n :: rest) (SMore (N.to_nat (Byte.to_N n) + 2))
| sh_damaged n rest tail :
    Byte.to_N n = N.of_nat (length rest) ->
    xor_sum (n :: rest) <> 255%N ->
    shape_of (SOF :: n :: rest ++ tail) SReject
| sh_frame f tail :
    frame f -> shape_of (f ++ tail) (SFrame (length f)).

(** The length Decode must report. *)
Definition shape_code (s : shape) : Z :=
  match s with
  | SMore k => Z.of_nat k
  | SReject => (-1)%Z
  | SControl => 1%Z
  | SFrame k => Z.of_nat k
  end.

(** A frame whose own bytes contain everything its function promises
    (offsets: 3 function, 5 node, 6 payload length, 7.. payload). *)
Definition byte_at (l : list byte) (i : nat) : N := Byte.to_N (nth i l x00).

Definition self_contained (f : list byte) : Prop :=
  frame f /\ 5 <= length f /\
  (byte_at f 3 = 4%N ->
     8 <= length f /\ (2 <= byte_at f 6 <= 248)%N /\
     (7 + byte_at f 6 <= N.of_nat (length f))%N) /\
  (byte_at f 3 = 2%N ->
     8 <= length f /\ (byte_at f 6 <= 29)%N /\
     (7 + byte_at f 6 <= N.of_nat (length f))%N) /\
  (byte_at f 3 = 65%N -> 10 <= length f).
