(** Independent statements about what Decode may do with a message. *)
From Coq Require Import List NArith ZArith Init.Byte.
From Verif Require Import SpecFrame.
Import ListNotations.

(** The exact condition under which decoding the message in buffer [l] (with
    [room] bytes of capacity) goes out of bounds: byte 3 is the function,
    byte 6 the announced payload length. *)
Definition message_crashes (l : list byte) (room : nat) : Prop :=
  length l = 2 \/ length l = 3 \/
  (4 <= length l /\ byte_at l 3 = 4%N /\
     (length l < 7 \/ (byte_at l 6 < 2)%N \/ (248 < byte_at l 6)%N \/
      (N.of_nat room < 7 + byte_at l 6)%N)) \/
  (4 <= length l /\ byte_at l 3 = 2%N /\
     (length l < 7 \/ (29 < byte_at l 6)%N \/
      (N.of_nat room < 7 + byte_at l 6)%N)).

(** [l] with the byte at [i] cleared. *)
Fixpoint clear_at (i : nat) (l : list byte) : list byte :=
  match l, i with
  | [], _ => []
  | _ :: r, O => x00 :: r
  | x :: r, S j => x :: clear_at j r
  end.
