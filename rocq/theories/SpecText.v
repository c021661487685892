(** Reading a printed report back: named fields, decimal and hexadecimal
    numbers.  Nothing here refers to how the text is made. *)
From Coq Require Import NArith ZArith Bool String Ascii List Init.Byte.
From Verif Require Import SpecReports.
Local Open Scope string_scope.

(** [strip p s]: what follows the prefix [p] of [s]. *)
Fixpoint strip (p s : string) : option string :=
  match p, s with
  | "", _ => Some s
  | String a p', String b s' => if Ascii.eqb a b then strip p' s' else None
  | _, "" => None
  end.
(** What follows the first occurrence of [p] in [s]. *)
Fixpoint after (p s : string) : option string :=
  match strip p s with
  | Some r => Some r
  | None => match s with "" => None | String _ s' => after p s' end
  end.
(** The text up to the first space. *)
Fixpoint word (s : string) : string :=
  match s with
  | "" => ""
  | String c r => if Ascii.eqb c " " then "" else String c (word r)
  end.
(** The value of the field [name:value] of a text, where fields are preceded by
    a space or by nothing: the rest of the text, or one word. *)
Definition rest_of (name text : string) : option string :=
  after (" " ++ name ++ ":") (" " ++ text).
Definition field (name text : string) : option string := option_map word (rest_of name text).

(** The hexadecimal number in a field. *)
Definition hex_field (name text : string) : option N :=
  match field name text with
  | Some v => if String.eqb v "" then None else hex_value v
  | None => None
  end.

(** Decimal digits read from the left; the rest of the text. *)
Fixpoint digits (acc : N) (s : string) : N * string :=
  match s with
  | "" => (acc, s)
  | String c r =>
      let n := N_of_ascii c in
      if (48 <=? n)%N && (n <=? 57)%N then digits (10 * acc + (n - 48)) r else (acc, s)
  end.
Definition dec_value (s : string) : option N :=
  match s with
  | "" => None
  | _ => match digits 0 s with (n, "") => Some n | _ => None end
  end.
(** A number with six decimals, in millionths: [-]<digits>.<six digits>. *)
Definition read_abs (s : string) : option N :=
  match digits 0 s with
  | (n, String "." f) =>
      if (String.length f =? 6)%nat then option_map (fun d => (n * 1000000 + d)%N) (dec_value f)
      else None
  | _ => None
  end.
Definition read_millionths (s : string) : option Z :=
  match s with
  | String "-" r => option_map (fun n => (- Z.of_N n)%Z) (read_abs r)
  | _ => option_map Z.of_N (read_abs s)
  end.

Definition truth (b : bool) : string := if b then "true" else "false".

(** What a level byte of a multilevel switch means and how it is printed:
    0xfe unknown, everything above 100 is 100. *)
Definition level_shown (b : byte) (v : string) : Prop :=
  if (Byte.to_N b =? 254)%N then v = "unknown"
  else read_millionths v = Some (Z.of_N (N.min (Byte.to_N b) 100) * 1000000)%Z.
(** What the duration byte means: seconds up to 127, then minutes; 0xfe and 0xff
    have no duration. *)
Definition duration_shown (d : byte) (v : string) : Prop :=
  if (Byte.to_N d <=? 253)%N then
    read_duration 0 0 v =
      Some (if Byte.to_N d <=? 127 then Byte.to_N d else (Byte.to_N d - 127) * 60)%N
  else v = "Factory default duration".
(** What the byte of a first-version on/off report means: 0xff on, 0xfe unknown,
    everything else off. *)
Definition switch_shown (b : byte) (v : string) : Prop :=
  v = if (Byte.to_N b =? 254)%N then "unknown"
      else if (Byte.to_N b =? 255)%N then "true" else "false".
