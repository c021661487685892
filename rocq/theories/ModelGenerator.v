(** Model of generators/database/database.go: from the files of database/json to
    the Go source database/devices.go, and of what the Go compiler reads in it.
    Parameters are in [ModelParameters]. *)
From Verif Require Import ModelBase ModelNodes DataDevices DataFiles ModelDatabase.
Local Open Scope string_scope.

(** database.go:49-63 [deviceRef.UnmarshalJSON], of a JSON string *)
Definition parse_ref (s : string) : string * string :=
  match split_on ":"%char "" s with
  | [t] => (t, "")
  | [t; i] => (t, i)
  | _ => ("", "")
  end.

(** database.go:124-129 [escaper] *)
Definition escape_char (c : ascii) : string :=
  if Ascii.eqb c "\" then "\\"
  else if Ascii.eqb c """" then "\"""
  else if (N_of_ascii c =? 13)%N then "\r"
  else if (N_of_ascii c =? 10)%N then "\n"
  else String c "".
Fixpoint escape (s : string) : string :=
  match s with
  | "" => ""
  | String c r => escape_char c ++ escape r
  end.

(** What the template (database.go:140-244) writes for one device and one
    reference.  All fields but the class ids stand between double quotes. *)
Record rendered_class : Type := mkRC {
  rc_id : option string;          (* after 0x; None: no line *)
  rc_nif : bool; rc_secure : bool; rc_nonsecure : bool;
  rc_version : option string }.
Record rendered : Type := mkR {
  r_case : string; r_func : string;
  r_brand : string; r_product : string; r_description : string;
  r_manufacturer : string; r_type : string; r_id : string;
  r_classes : list rendered_class }.

Definition text_unless_empty (s : string) : option string :=
  if String.eqb s "" then None else Some s.
(** database.go:200-217 *)
Definition render_class (c : jclass) : rendered_class :=
  mkRC (text_unless_empty (jc_id c)) (jc_nif c) (jc_secure c) (jc_nonsecure c)
       (text_unless_empty (jc_version c)).

(** database.go:289-298: the classes of the first endpoint *)
Definition first_endpoint (f : jfile) : list jclass :=
  match j_endpoints f with [] => [] | e :: _ => e end.

Definition iden (f : jfile) (ref : string * string) : string :=
  j_manufacturer_id f ++ "_" ++ fst ref ++ "_" ++ snd ref.

(** database.go:174-177 (the case) and 183-221 (the function).
    strings.ToLower for ASCII. *)
Definition render (f : jfile) (ref : string * string) : rendered :=
  let m := j_manufacturer_id f in
  let '(t, i) := ref in
  {| r_case := to_lower m ++ "_" ++ to_lower t ++ "_" ++ to_lower i;
     r_func := "New" ++ m ++ "_" ++ t ++ "_" ++ i;
     r_brand := escape (j_manufacturer_name f);
     r_product := escape (j_label f);
     r_description := escape (j_decription f);
     r_manufacturer := m; r_type := t; r_id := i;
     r_classes := map render_class (first_endpoint f) |}.

(** database.go:300-311: references not met before; [seen] is the map idens. *)
Fixpoint keep (f : jfile) (seen : list string) (refs : list (string * string))
  : list (string * string) * list string :=
  match refs with
  | [] => ([], seen)
  | ref :: r =>
      if existsb (String.eqb (iden f ref)) seen then keep f seen r
      else let '(kept, seen') := keep f (iden f ref :: seen) r in (ref :: kept, seen')
  end.

(** database.go:273-317 and the loops of the template.  (A file without kept
    references, line 313, contributes nothing either way.) *)
Fixpoint generator (seen : list string) (fs : list jfile) : list rendered :=
  match fs with
  | [] => []
  | f :: r =>
      let '(kept, seen') := keep f seen (map parse_ref (j_refs f)) in
      map (render f) kept ++ generator seen' r
  end.

(** ** What the Go compiler reads *)

(** The text between the quotes of an interpreted string literal.  Escapes that
    escaper does not write (\t, \x.., \u....) are left out.  NUL and a byte
    order mark in the middle of a source file are rejected (go/scanner). *)
Fixpoint go_literal (s : string) : option string :=
  match s with
  | "" => Some ""
  | String c r =>
      if Ascii.eqb c "\" then
        match r with
        | "" => None
        | String d r' =>
            match go_literal r' with
            | None => None
            | Some t =>
                if Ascii.eqb d "\" then Some (String "\" t)
                else if Ascii.eqb d """" then Some (String """" t)
                else if Ascii.eqb d "n" then Some (String (ascii_of_N 10) t)
                else if Ascii.eqb d "r" then Some (String (ascii_of_N 13) t)
                else None
            end
        end
      else if Ascii.eqb c """" then None
      else if (N_of_ascii c =? 10)%N then None
      else if (N_of_ascii c =? 0)%N then None
      else if has_prefix s (String (ascii_of_N 239) (String (ascii_of_N 187) (String (ascii_of_N 191) ""))) then None
      else match go_literal r with None => None | Some t => Some (String c t) end
  end.

(** The digits after 0x as a constant of type byte. *)
Definition go_hexdigit (c : ascii) : option N :=
  let n := N_of_ascii c in
  if ((48 <=? n) && (n <=? 57))%N then Some (n - 48)%N
  else if ((97 <=? n) && (n <=? 102))%N then Some (n - 87)%N
  else if ((65 <=? n) && (n <=? 70))%N then Some (n - 55)%N
  else None.
Fixpoint go_hex (acc : N) (s : string) : option N :=
  match s with
  | "" => Some acc
  | String c r => match go_hexdigit c with
                  | Some d => go_hex (16 * acc + d)%N r
                  | None => None
                  end
  end.
Definition go_byte (s : string) : option byte :=
  match s with
  | "" => None
  | _ => match go_hex 0%N s with Some n => Byte.of_N n | None => None end
  end.

Definition go_class (c : rendered_class) : option cclass :=
  match (match rc_id c with None => Some x00 | Some s => go_byte s end),
        (match rc_version c with None => Some "" | Some s => go_literal s end) with
  | Some id, Some v => Some (mkCC id (rc_nif c) (rc_secure c) (rc_nonsecure c) v)
  | _, _ => None
  end.
Fixpoint all_some {A} (l : list (option A)) : option (list A) :=
  match l with
  | [] => Some []
  | Some x :: r => match all_some r with Some y => Some (x :: y) | None => None end
  | None :: _ => None
  end.
Definition go_device (r : rendered) : option (string * device) :=
  match go_literal (r_case r), go_literal (r_brand r), go_literal (r_product r),
        go_literal (r_description r), go_literal (r_manufacturer r), go_literal (r_type r),
        go_literal (r_id r), all_some (map go_class (r_classes r)) with
  | Some k, Some b, Some p, Some d, Some m, Some t, Some i, Some cs =>
      Some (k, mkDevice b p d m t i cs)
  | _, _, _, _, _, _, _, _ => None
  end.
Fixpoint distinct (l : list string) : bool :=
  match l with
  | [] => true
  | x :: r => negb (existsb (String.eqb x) r) && distinct r
  end.
(** The switch and the constructors.  Two equal cases, and two functions of the
    same name, do not compile.  (That the function names are identifiers is left
    out.) *)
Definition go_build (l : list rendered) : option (list (string * device)) :=
  match all_some (map go_device l) with
  | Some ds => if distinct (map fst ds) && distinct (map r_func l) then Some ds else None
  | None => None
  end.
