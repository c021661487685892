(** JSON text as package encoding/json writes and reads it.  No code of the
    repository is modelled here: this is the part of the standard library that
    controller.go:134-190 and nodes/list.go:70-94 rely on. *)
From Verif Require Import ModelBase.
From Coq Require Import Floats.SpecFloat.

Notation text := (list byte).
Definition txt (s : string) : text := list_byte_of_string s.

(** Numbers keep their literal; objects keep the order and the repetitions of
    their keys. *)
Inductive json : Type :=
| JNull | JBool (b : bool) | JNum (lit : text) | JStr (s : text)
| JArr (l : list json) | JObj (l : list (text * json)).

(** ** Characters *)
Definition between (lo hi b : byte) : bool := (b2N lo <=? b2N b)%N && (b2N b <=? b2N hi)%N.
Definition is_digit (b : byte) : bool := between x30 x39 b.
Definition is_ws (b : byte) : bool := beq b x20 || beq b x09 || beq b x0a || beq b x0d.
Fixpoint skip_ws (s : text) : text :=
  match s with
  | b :: r => if is_ws b then skip_ws r else s
  | [] => []
  end.
(** Length of the UTF-8 sequence at the beginning; 0 if there is none
    (utf8.DecodeRune). *)
Definition cont (b : byte) : bool := between x80 xbf b.
Definition lead3 (a b : byte) : bool :=
  (beq a xe0 && between xa0 xbf b) || (beq a xed && between x80 x9f b)
  || ((between xe1 xec a || between xee xef a) && cont b).
Definition lead4 (a b : byte) : bool :=
  (beq a xf0 && between x90 xbf b) || (between xf1 xf3 a && cont b)
  || (beq a xf4 && between x80 x8f b).
Definition utf8_len (s : text) : nat :=
  match s with
  | [] => 0
  | a :: r =>
      if between x00 x7f a then 1
      else match r with
      | [] => 0
      | b :: r1 =>
          if between xc2 xdf a then (if cont b then 2 else 0)
          else match r1 with
          | [] => 0
          | c :: r2 =>
              if lead3 a b then (if cont c then 3 else 0)
              else match r2 with
              | [] => 0
              | d :: _ =>
                  if lead4 a b then (if cont c && cont d then 4 else 0)
                  else 0
              end
          end
      end
  end.

Definition hexdigit (n : N) : byte :=
  if (n <? 10)%N then N2b (48 + n) else N2b (87 + n).
(** encode.go, escapeHTML: quotes, backslashes, control characters and < > & *)
Definition escape1 (b : byte) : text :=
  if beq b x22 then [x5c; x22]
  else if beq b x5c then [x5c; x5c]
  else if beq b x0a then [x5c; x6e]
  else if beq b x0d then [x5c; x72]
  else if beq b x09 then [x5c; x74]
  else if (b2N b <? 32)%N || beq b x3c || beq b x3e || beq b x26
  then [x5c; x75; x30; x30; hexdigit (N.shiftr (b2N b) 4); hexdigit (N.land (b2N b) 15)]
  else [b].
(** [strip p s]: what follows the prefix [p]. *)
Fixpoint strip (p s : text) : option text :=
  match p, s with
  | [], _ => Some s
  | a :: p, b :: s => if beq a b then strip p s else None
  | _, [] => None
  end.
(** Bytes that are not UTF-8 become the replacement character; U+2028 and
    U+2029 are escaped. *)
Definition escape_rune (k : nat) (s : text) : text :=
  match strip [xe2; x80; xa8] s, strip [xe2; x80; xa9] s with
  | Some _, _ => [x5c; x75; x32; x30; x32; x38]
  | _, Some _ => [x5c; x75; x32; x30; x32; x39]
  | _, _ => firstn k s
  end.
Fixpoint escape (fuel : nat) (s : text) : text :=
  match fuel with
  | O => []
  | S n =>
      match s with
      | [] => []
      | b :: r =>
          match utf8_len s with
          | O => [x5c; x75; x66; x66; x66; x64] ++ escape n r
          | S O => escape1 b ++ escape n r
          | k => escape_rune k s ++ escape n (skipn k s)
          end
      end
  end.
Definition quote (s : text) : text := [x22] ++ escape (List.length s) s ++ [x22].

(** ** Writing: MarshalIndent with a tab. *)
Definition nl (d : nat) : text := x0a :: repeat x09 d.
Fixpoint jprint (d : nat) (v : json) : text :=
  match v with
  | JNull => [x6e; x75; x6c; x6c]
  | JBool true => [x74; x72; x75; x65]
  | JBool false => [x66; x61; x6c; x73; x65]
  | JNum lit => lit
  | JStr s => quote s
  | JArr [] => [x5b; x5d]
  | JArr (x :: l) =>
      [x5b] ++ nl (S d) ++ jprint (S d) x ++
      (fix rest l := match l with
                     | [] => nl d ++ [x5d]
                     | y :: l => [x2c] ++ nl (S d) ++ jprint (S d) y ++ rest l
                     end) l
  | JObj [] => [x7b; x7d]
  | JObj ((k, x) :: l) =>
      [x7b] ++ nl (S d) ++ quote k ++ [x3a; x20] ++ jprint (S d) x ++
      (fix rest l := match l with
                     | [] => nl d ++ [x7d]
                     | (k, y) :: l => [x2c] ++ nl (S d) ++ quote k ++ [x3a; x20] ++ jprint (S d) y ++ rest l
                     end) l
  end.

(** ** Reading *)
Definition unhex (b : byte) : option N :=
  if is_digit b then Some (b2N b - 48)%N
  else if between x61 x66 b then Some (b2N b - 87)%N
  else if between x41 x46 b then Some (b2N b - 55)%N
  else None.
Definition hex4 (s : text) : option (N * text) :=
  match s with
  | a :: b :: c :: d :: r =>
      match unhex a, unhex b, unhex c, unhex d with
      | Some a, Some b, Some c, Some d => Some (((a * 16 + b) * 16 + c) * 16 + d, r)%N
      | _, _, _, _ => None
      end
  | _ => None
  end.
(** utf8.EncodeRune *)
Definition utf8_encode (r : N) : text :=
  if (r <? 128)%N then [N2b r]
  else if (r <? 2048)%N then [N2b (192 + N.shiftr r 6); N2b (128 + N.land r 63)]
  else if (r <? 65536)%N
  then [N2b (224 + N.shiftr r 12); N2b (128 + N.land (N.shiftr r 6) 63); N2b (128 + N.land r 63)]
  else [N2b (240 + N.shiftr r 18); N2b (128 + N.land (N.shiftr r 12) 63);
        N2b (128 + N.land (N.shiftr r 6) 63); N2b (128 + N.land r 63)].
Definition replacement : text := [xef; xbf; xbd].
Definition is_surrogate (r : N) : bool := (55296 <=? r)%N && (r <? 57344)%N.

(** One character of a string (scanner.go:stateInString, decode.go:unquote). *)
Definition p_escape (s : text) : option (text * text) :=
  match s with
  | [] => None
  | e :: r1 =>
      if beq e x22 || beq e x5c || beq e x2f then Some ([e], r1)
      else if beq e x62 then Some ([x08], r1)
      else if beq e x66 then Some ([x0c], r1)
      else if beq e x6e then Some ([x0a], r1)
      else if beq e x72 then Some ([x0d], r1)
      else if beq e x74 then Some ([x09], r1)
      else if beq e x75 then
        match hex4 r1 with
        | None => None
        | Some (u, r2) =>
            if is_surrogate u then
              match strip [x5c; x75] r2 with
              | Some r3 =>
                  match hex4 r3 with
                  | Some (w, r4) =>
                      if (u <? 56320)%N && (56320 <=? w)%N && (w <? 57344)%N
                      then Some (utf8_encode (65536 + (u - 55296) * 1024 + (w - 56320)), r4)
                      else Some (replacement, r2)
                  | None => None
                  end
              | None => Some (replacement, r2)
              end
            else Some (utf8_encode u, r2)
        end
      else None
  end.
Definition p_char (s : text) : option (text * text) :=
  match s with
  | [] => None
  | b :: r =>
      if beq b x5c then p_escape r
      else if (b2N b <? 32)%N then None
      else match utf8_len s with
           | O => Some (replacement, r)
           | k => Some (firstn k s, skipn k s)
           end
  end.
(** The rest of a string, after the opening quote. *)
Fixpoint pstr (fuel : nat) (s : text) : option (text * text) :=
  match fuel with
  | O => None
  | S n =>
      match s with
      | [] => None
      | b :: r =>
          if beq b x22 then Some ([], r)
          else match p_char s with
               | None => None
               | Some (c, r1) =>
                   match pstr n r1 with Some (t, r2) => Some (c ++ t, r2) | None => None end
               end
      end
  end.

(** Number literals (scanner.go:stateNeg ... stateE0) *)
Fixpoint digits (s : text) : text * text :=
  match s with
  | b :: r => if is_digit b then let '(d, r') := digits r in (b :: d, r') else ([], s)
  | [] => ([], [])
  end.
Definition p_int (s : text) : option (text * text) :=
  match s with
  | b :: r => if beq b x30 then Some ([b], r)
              else if is_digit b then let '(d, r') := digits s in Some (d, r')
              else None
  | [] => None
  end.
Definition p_frac (s : text) : option (text * text) :=
  match strip [x2e] s with
  | Some r => match digits r with ([], _) => None | (d, r') => Some (x2e :: d, r') end
  | None => Some ([], s)
  end.
Definition p_exp (s : text) : option (text * text) :=
  match s with
  | b :: r =>
      if beq b x65 || beq b x45 then
        let '(sg, r1) := match r with
                         | c :: r1 => if beq c x2b || beq c x2d then ([c], r1) else ([], r)
                         | [] => ([], r)
                         end in
        match digits r1 with ([], _) => None | (d, r') => Some (b :: sg ++ d, r') end
      else Some ([], s)
  | [] => Some ([], s)
  end.
Definition p_num (s : text) : option (text * text) :=
  let '(sg, r) := match strip [x2d] s with
                  | Some r => ([x2d], r)
                  | None => ([], s)
                  end in
  match p_int r with
  | None => None
  | Some (a, r1) =>
      match p_frac r1 with
      | None => None
      | Some (b, r2) =>
          match p_exp r2 with
          | None => None
          | Some (c, r3) => Some (sg ++ a ++ b ++ c, r3)
          end
      end
  end.

(** One value; what follows it is left alone (Decoder.Decode).  The limit of
    10000 nested values of newer versions is left out. *)
Definition p_word (w : text) (v : json) (s : text) : option (json * text) :=
  match strip w s with Some r => Some (v, r) | None => None end.
Definition p_string (s : text) : option (text * text) := pstr (S (List.length s)) s.
(** The next character other than white space. *)
Definition after (b : byte) (s : text) : option text := strip [b] (skip_ws s).
Fixpoint pval (fuel : nat) (s : text) : option (json * text) :=
  match fuel with
  | O => None
  | S n =>
      match skip_ws s with
      | [] => None
      | b :: r =>
          if beq b x6e then p_word [x75; x6c; x6c] JNull r
          else if beq b x74 then p_word [x72; x75; x65] (JBool true) r
          else if beq b x66 then p_word [x61; x6c; x73; x65] (JBool false) r
          else if beq b x22 then
            match p_string r with Some (t, r') => Some (JStr t, r') | None => None end
          else if beq b x5b then
            match after x5d r with
            | Some r' => Some (JArr [], r')
            | None => match parr n r with Some (l, r') => Some (JArr l, r') | None => None end
            end
          else if beq b x7b then
            match after x7d r with
            | Some r' => Some (JObj [], r')
            | None => match pobj n r with Some (l, r') => Some (JObj l, r') | None => None end
            end
          else match p_num (b :: r) with Some (l, r') => Some (JNum l, r') | None => None end
      end
  end
with parr (fuel : nat) (s : text) : option (list json * text) :=
  match fuel with
  | O => None
  | S n =>
      match pval n s with
      | None => None
      | Some (v, r) =>
          match after x5d r with
          | Some r' => Some ([v], r')
          | None =>
              match after x2c r with
              | Some r' => match parr n r' with Some (l, r'') => Some (v :: l, r'') | None => None end
              | None => None
              end
          end
      end
  end
with pobj (fuel : nat) (s : text) : option (list (text * json) * text) :=
  match fuel with
  | O => None
  | S n =>
      match after x22 s with
      | None => None
      | Some r =>
          match p_string r with
          | None => None
          | Some (k, r1) =>
              match after x3a r1 with
              | None => None
              | Some r2 =>
                  match pval n r2 with
                  | None => None
                  | Some (v, r3) =>
                      match after x7d r3 with
                      | Some r' => Some ([(k, v)], r')
                      | None =>
                          match after x2c r3 with
                          | Some r' =>
                              match pobj n r' with Some (l, r'') => Some ((k, v) :: l, r'') | None => None end
                          | None => None
                          end
                      end
                  end
              end
          end
      end
  end.
Definition jread (s : text) : option (json * text) := pval (2 * List.length s + 1) s.

(** ** Numbers *)
Fixpoint dec_value (acc : Z) (s : text) : option Z :=
  match s with
  | [] => Some acc
  | b :: r => if is_digit b then dec_value (acc * 10 + Z.of_N (b2N b - 48)) r else None
  end.
(** strconv.ParseUint, without the range *)
Definition parse_nat (s : text) : option Z :=
  match s with [] => None | _ => dec_value 0 s end.
(** strconv.ParseInt, without the range *)
Definition parse_Z (s : text) : option Z :=
  match strip [x2d] s with
  | Some r => match parse_nat r with Some z => Some (- z)%Z | None => None end
  | None => parse_nat s
  end.
(** strconv.Itoa, strconv.FormatUint *)
Fixpoint dec_digits (fuel : nat) (n : N) (acc : text) : text :=
  match fuel with
  | O => acc
  | S f =>
      let acc' := N2b (48 + N.modulo n 10) :: acc in
      if (n <? 10)%N then acc' else dec_digits f (N.div n 10) acc'
  end.
Definition print_N (n : N) : text := dec_digits (S (N.to_nat (N.log2 n))) n [].
Definition print_Z (z : Z) : text :=
  match z with
  | Zneg p => x2d :: print_N (Npos p)
  | _ => print_N (Z.to_N z)
  end.

(** strconv.ParseFloat of a number literal: correctly rounded; [None] if it is
    out of range. *)
Definition pow10 (n : N) : positive :=
  match n with N0 => 1%positive | Npos p => Pos.pow 10 p end.
Definition decimal (neg : bool) (m : Z) (e : Z) : spec_float :=
  match m with
  | Zpos p =>
      match e with
      | Zneg k => SFdiv 53 1024 (S754_finite neg p 0) (S754_finite false (pow10 (Npos k)) 0)
      | _ => binary_normalize 53 1024 (if neg then - (Zpos p * 10 ^ e) else Zpos p * 10 ^ e)%Z 0 neg
      end
  | _ => S754_zero neg
  end.
Definition parse_float (lit : text) : option spec_float :=
  let '(neg, s) := match strip [x2d] lit with Some r => (true, r) | None => (false, lit) end in
  let '(a, s1) := digits s in
  let '(b, s2) := match strip [x2e] s1 with Some r => digits r | None => ([], s1) end in
  let e := match s2 with
           | _ :: r => match strip [x2b] r with Some r' => parse_nat r' | None => parse_Z r end
           | [] => Some 0%Z
           end in
  match parse_nat (a ++ b), e with
  | Some m, Some e =>
      match decimal neg m (e - Z.of_nat (List.length b)) with
      | S754_infinity _ | S754_nan => None
      | f => Some f
      end
  | _, _ => None
  end.

(** Samples. *)
Definition t1 : json := JObj [(txt "a", JArr [JNum (txt "-12.50e+3"); JNull; JBool true; JObj []; JArr []]);
   (txt "b", JStr [x41; x22; x0a; x01; xc3; xa5; xe2; x80; xa8; x3c])].
Example roundtrip : jread (jprint 0 t1 ++ [x41]) = Some (t1, [x41]).
Proof. vm_compute. reflexivity. Qed.
Example floats : map parse_float [txt "25"; txt "0.1"; txt "-2.5e1"; txt "1e999"; txt "21.3"] =
  [Some (S754_finite false 7036874417766400 (-48)); Some (S754_finite false 7205759403792794 (-56));
   Some (S754_finite true 7036874417766400 (-48)); None; Some (S754_finite false 5995417003936973 (-48))].
Proof. vm_compute. reflexivity. Qed.
