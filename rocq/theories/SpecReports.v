(** Independent meaning of the payloads: bits, integers, tables. *)
From Coq Require Import NArith ZArith Bool String Ascii List Init.Byte.
From Verif Require Import SpecFrame.
Import ListNotations.

(** Bit [i] (0 = least significant) of a byte. *)
Definition bit (b : byte) (i : N) : bool := N.testbit (Byte.to_N b) i.

(** ** Report kinds and the dispatch table (command, class, accepted payloads). *)
Inductive kind : Set :=
| KAlarm | KManufacturer | KEndpoints | KSensor
| KBinary1 | KBinary2 | KMulti1 | KMulti4 | KWakeUp.

(** Payload acceptance. A sensor payload starts with two header bytes, the low
    three bits of the second say how many value bytes follow. *)
Definition accepts (k : kind) (data : list byte) : Prop :=
  match k with
  | KAlarm | KEndpoints => 2 <= length data
  | KManufacturer => length data = 6
  | KSensor => (2 <= N.of_nat (length data))%N /\
               (2 + byte_at data 1 mod 8 <= N.of_nat (length data))%N
  | KBinary1 | KMulti1 => length data = 1
  | KBinary2 | KMulti4 => length data = 3
  | KWakeUp => True
  end.

Inductive dispatch : N -> N -> kind -> Prop :=
| disp_alarm  : dispatch 0x71 0x05 KAlarm
| disp_manu   : dispatch 0x72 0x05 KManufacturer
| disp_endp   : dispatch 0x60 0x08 KEndpoints
| disp_sensor : dispatch 0x31 0x05 KSensor
| disp_bin1   : dispatch 0x25 0x03 KBinary1
| disp_bin2   : dispatch 0x25 0x03 KBinary2
| disp_mul1   : dispatch 0x26 0x03 KMulti1
| disp_mul4   : dispatch 0x26 0x03 KMulti4
| disp_wake c : dispatch 0x84 c KWakeUp.

(** ** Integers on the wire *)
(** Big-endian unsigned value. *)
Fixpoint big_endian (l : list byte) : Z :=
  match l with
  | [] => 0%Z
  | b :: r => (Z.of_N (Byte.to_N b) * 256 ^ Z.of_nat (length r) + big_endian r)%Z
  end.

(** [z] is the two's complement reading of the bytes [l]. *)
Definition twos_complement (l : list byte) (z : Z) : Prop :=
  let w := (8 * Z.of_nat (length l))%Z in
  (- 2 ^ (w - 1) <= z < 2 ^ (w - 1))%Z /\ (z mod 2 ^ w)%Z = big_endian l.

(** ** Hexadecimal text *)
Definition hex_digit_value (c : ascii) : option N :=
  let n := N_of_ascii c in
  if (48 <=? n)%N && (n <=? 57)%N then Some (n - 48)%N          (* 0-9 *)
  else if (97 <=? n)%N && (n <=? 102)%N then Some (n - 87)%N    (* a-f *)
  else None.
Fixpoint hex_value_from (acc : N) (s : string) : option N :=
  match s with
  | EmptyString => Some acc
  | String c r => match hex_digit_value c with
                  | Some v => hex_value_from (16 * acc + v) r
                  | None => None
                  end
  end.
Definition hex_value (s : string) : option N := hex_value_from 0 s.

(** ** Go duration text, read back: [<h>h<m>m<s>s] with leading parts optional *)
Fixpoint read_duration (acc num : N) (s : string) : option N :=
  match s with
  | EmptyString => if (num =? 0)%N then Some acc else None
  | String c r =>
      let n := N_of_ascii c in
      if (48 <=? n)%N && (n <=? 57)%N then read_duration acc (10 * num + (n - 48)) r
      else if (n =? 104)%N then read_duration (acc + 3600 * num) 0 r   (* h *)
      else if (n =? 109)%N then read_duration (acc + 60 * num) 0 r     (* m *)
      else if (n =? 115)%N then read_duration (acc + num) 0 r          (* s *)
      else None
  end.
