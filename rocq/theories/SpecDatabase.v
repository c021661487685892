(** Vocabulary for the statements about the device database, the mandatory
    table, the generator and the printed names. *)
From Verif Require Import ModelBase.
Local Open Scope string_scope.

(** [sub] occurs in [s]. *)
Definition occurs (sub s : string) : Prop := exists a b, s = a ++ sub ++ b.

(** Lower-case form of a hexadecimal text. *)
Definition lower_char (c : ascii) : ascii :=
  let n := N_of_ascii c in
  if ((65 <=? n) && (n <=? 90))%N then ascii_of_N (n + 32) else c.
Fixpoint lower_text (s : string) : string :=
  match s with EmptyString => "" | String c r => String (lower_char c) (lower_text r) end.

(** The class names of the specification text, with the class each names (the
    ids are those of the Z-Wave command class registry). *)
Definition class_names : list (string * byte) :=
  [("Application Status", x22); ("Association", x85); ("Association Group Information", x59);
   ("Basic", x20); ("Binary Switch", x25); ("Central Scene", x5b); ("CRC16", x56);
   ("Device Reset Locally", x5a); ("Manufacturer Specific", x72); ("Meter", x32);
   ("Multi Channel", x60); ("Multichannel Association", x8e); ("Multilevel Sensor", x31);
   ("Multilevel Switch", x26); ("Notification", x71); ("Power Level", x73);
   ("Security", x98); ("Version", x86); ("Z-Wave Plus Info", x5e)].
(** Names that must be the whole text. *)
Definition whole_names : list string :=
  ["Basic"; "Manufacturer Specific"; "Notification"; "Power Level"].
(** [text] mentions the name [nm]. *)
Definition mentions (text nm : string) : Prop :=
  In nm (map fst class_names) /\ if in_dec string_dec nm whole_names then text = nm else occurs nm text.
(** [text] names [nm]: it mentions it, and whatever else it mentions is a part
    of that name. *)
Definition names_class (text nm : string) : Prop :=
  mentions text nm /\ forall nm', mentions text nm' -> occurs nm' nm.

(** A table of rows keyed by pairs: [v] is the value of the only row for
    [(g, s)]. *)
Definition only_row {V} (table : list (byte * byte * V)) (g s : byte) (v : V) : Prop :=
  In (g, s, v) table /\ forall v', In (g, s, v') table -> v' = v.

(** The exported command class constants that have no case, or another code, in
    the String method. *)
Definition unnamed_commands : list string :=
  ["CRC16Encap"; "AssociationGRPInfo"; "DeviceResetLocally"; "CentralScenev2"; "ZwavePlusInfov2";
   "FirmwareUpdateMDv3"; "Security"; "Mark"].

(** A line of white space. *)
Definition blank_line (l : string) : Prop :=
  Forall (fun c => c = " "%char \/ (9 <= N_of_ascii c <= 13)%N) (list_ascii_of_string l).
