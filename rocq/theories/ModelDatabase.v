(** Model of package database, of the generator of the mandatory table and of
    the name tables.  The literal tables are in the Data files. *)
From Verif Require Import ModelBase ModelNodes DataDevices DataMandatory DataNames.
Local Open Scope string_scope.

(** ** Device lookup: database/devices.go:31-1447 [New].  The cases of the
    switch are compared in order; each returns a fresh device. *)
Definition device_new (manufacturer typ id : string) : option device :=
  alookup (manufacturer ++ "_" ++ typ ++ "_" ++ id) devices.

(** ** Mandatory classes *)

(** Value of a constant of package protocol (protocol/constants.go). *)
Definition protocol_constant (name : string) : option byte := alookup name protocol_constants.

(** database/mandatory.go:5-1014 [definitions]: the entries of the map literal.
    Each class has only its id set. *)
Definition mandatory_class (id : byte) : cclass := mkCC id false false false "".
Definition resolve (e : string * string * list byte) : option (byte * byte * list cclass) :=
  let '(g, s, ids) := e in
  match protocol_constant g, protocol_constant s with
  | Some g', Some s' => Some (g', s', map mandatory_class ids)
  | _, _ => None
  end.
Definition definitions : list (byte * byte * list cclass) :=
  flat_map (fun e => match resolve e with Some x => [x] | None => [] end) mandatory_go.

(** database/commandclasses.go:4-11 [GetMandatoryCommandClasses]: the first
    match in the iteration order of the map, which Go leaves unspecified:
    [order] is the sequence in which the entries are visited. *)
Fixpoint get_mandatory (order : list (byte * byte * list cclass)) (generic specific : byte)
  : option (list cclass) :=
  match order with
  | [] => None
  | (g, s, v) :: rest =>
      if Byte.eqb g generic && Byte.eqb s specific then Some v
      else get_mandatory rest generic specific
  end.

(** ** Go string functions used by the generator *)

(** strings.HasPrefix *)
Fixpoint has_prefix (s p : string) : bool :=
  match p, s with
  | EmptyString, _ => true
  | String c p', String d s' => Ascii.eqb c d && has_prefix s' p'
  | _, _ => false
  end.
(** strings.Contains *)
Fixpoint contains (s sub : string) : bool :=
  has_prefix s sub ||
  match s with EmptyString => false | String _ r => contains r sub end.
(** strings.TrimSpace.  Simplified to the ASCII white space; Go also trims
    U+0085, U+00A0 and the other Unicode spaces. *)
Definition is_space (c : ascii) : bool :=
  let n := N_of_ascii c in ((9 <=? n) && (n <=? 13) || (n =? 32))%N.
Fixpoint trim_left (f : ascii -> bool) (s : string) : string :=
  match s with
  | EmptyString => EmptyString
  | String c r => if f c then trim_left f r else s
  end.
Fixpoint reverse (s acc : string) : string :=
  match s with EmptyString => acc | String c r => reverse r (String c acc) end.
Definition trim_space (s : string) : string :=
  reverse (trim_left is_space (reverse (trim_left is_space s) "")) "".
(** strings.Split with a one-character separator *)
Fixpoint split_on (sep : ascii) (cur : string) (s : string) : list string :=
  match s with
  | EmptyString => [reverse cur ""]
  | String c r =>
      if Ascii.eqb c sep then reverse cur "" :: split_on sep "" r
      else split_on sep (String c cur) r
  end.

(** ** The generator: generators/commandclasses/commandclasses.go *)

(** commandclasses.go:126-227 [StringToByte] *)
Definition string_to_byte (s : string) : byte :=
  if contains s "Application Status" then x22
  else if contains s "Association Group Information" then x59
  else if contains s "Association" then x85
  else if String.eqb s "Basic" then x20
  else if contains s "Binary Switch" then x25
  else if contains s "Central Scene" then x5b
  else if contains s "CRC16" then x56
  else if contains s "Device Reset Locally" then x5a
  else if String.eqb s "Manufacturer Specific" then x72
  else if contains s "Meter" then x32
  else if contains s "Multichannel Association" then x8e
  else if contains s "Multi Channel" then x60
  else if contains s "Multilevel Sensor" then x31
  else if contains s "Multilevel Switch" then x26
  else if String.eqb s "Notification" then x71
  else if String.eqb s "Power Level" then x73
  else if contains s "Security" then x98
  else if contains s "Version" then x86
  else if contains s "Z-Wave Plus Info" then x5e
  else x00.

(** State of the loop: the map, and the definitions and classes of the current
    block.  The map is kept sorted by key, which is how the template visits it
    (text/template ranges over maps in key order); the key is the text
    ["generic|specific"]. *)
Record gstate : Type := mkG {
  g_map : list (string * list byte); g_defs : list (string * string); g_classes : list byte }.
Definition string_ltb (a b : string) : bool :=
  match String.compare a b with Lt => true | _ => false end.
Fixpoint sorted_set {V} (k : string) (v : V) (m : list (string * V)) : list (string * V) :=
  match m with
  | [] => [(k, v)]
  | (k', w) :: r =>
      if String.eqb k k' then (k, v) :: r
      else if string_ltb k k' then (k, v) :: (k', w) :: r
      else (k', w) :: sorted_set k v r
  end.

(** commandclasses.go:48-82, one line of input.  Indexing [tmp[len(tmp)-2]]
    panics when the line has no dash.  Class ids are kept as bytes; the code
    keeps their text ["0x%x"]. *)
Definition gen_line (st : gstate) (line : string) : res gstate :=
  let text := trim_space line in
  if String.eqb text "" then
    Ok {| g_map := fold_left (fun m d => sorted_set (fst d ++ "|" ++ snd d) (g_classes st) m)
                             (g_defs st) (g_map st);
          g_defs := []; g_classes := [] |}
  else if has_prefix text "#" then
    let tmp := split_on "-" "" text in
    if contains text "SPECIFIC_TYPE_NOT_USED" then Ok st
    else match rev tmp with
         | s :: g :: _ =>
             Ok {| g_map := g_map st;
                   g_defs := (g_defs st ++ [(trim_space g, trim_space s)])%list;
                   g_classes := g_classes st |}
         | _ => Panic
         end
  else if has_prefix text "-" then
    let x := string_to_byte (trim_space (trim_left (Ascii.eqb "-") text)) in
    if Byte.eqb x x00 then Ok st
    else Ok {| g_map := g_map st; g_defs := g_defs st; g_classes := (g_classes st ++ [x])%list |}
  else Ok st.
Fixpoint gen_lines (st : gstate) (lines : list string) : res gstate :=
  match lines with
  | [] => Ok st
  | l :: r => do st' <- gen_line st l ; gen_lines st' r
  end.
(** commandclasses.go:45-82 and the template 229-250: the rows of the generated
    map.  Splitting the key at ["|"] again is [getGeneric]/[getSpecific]
    (86-94).  A block that is not ended by a blank line is not in the map. *)
Definition gen_row (e : string * list byte) : res (string * string * list byte) :=
  match split_on "|" "" (fst e) with
  | g :: s :: _ => Ok (g, s, snd e)
  | _ => Panic
  end.
Fixpoint gen_rows (m : list (string * list byte)) : res (list (string * string * list byte)) :=
  match m with
  | [] => Ok []
  | e :: r => do x <- gen_row e ; do rest <- gen_rows r ; Ok (x :: rest)
  end.
Definition generate (lines : list string) : res (list (string * string * list byte)) :=
  do st <- gen_lines {| g_map := []; g_defs := []; g_classes := [] |} lines ;
  gen_rows (g_map st).

(** ** Printed names: serialapi/types.go:83-239 and commands/constants.go:163-258
    [String]: the cases in order, "" for any other code. *)
Fixpoint string_case (cases : list (string * byte)) (b : byte) : string :=
  match cases with
  | [] => ""
  | (s, c) :: r => if Byte.eqb b c then s else string_case r b
  end.
Definition function_string (b : byte) : string := string_case function_cases b.
Definition command_string (b : byte) : string := string_case command_cases b.
