(** Vocabulary for the generator of the device table. *)
From Verif Require Import ModelBase ModelNodes DataDevices DataFiles.
Local Open Scope string_scope.

(** A reference is "type:id", or a type alone. *)
Fixpoint cut (s : string) : string * option string :=
  match s with
  | "" => ("", None)
  | String c r =>
      if Ascii.eqb c ":" then ("", Some r)
      else (String c (fst (cut r)), snd (cut r))
  end.
Definition ref_of (s : string) : string * string :=
  match cut s with
  | (t, None) => (t, "")
  | (t, Some r) => match cut r with (i, None) => (t, i) | _ => ("", "") end
  end.
Definition full_id (f : jfile) (ref : string * string) : string :=
  j_manufacturer_id f ++ "_" ++ fst ref ++ "_" ++ snd ref.

(** All references of all files, in order. *)
Definition mentions (fs : list jfile) : list (jfile * (string * string)) :=
  flat_map (fun f => map (fun s => (f, ref_of s)) (j_refs f)) fs.

(** File [f] is the first one that mentions this device. *)
Definition first_mention (fs : list jfile) (f : jfile) (ref : string * string) : Prop :=
  exists pre post, mentions fs = (pre ++ (f, ref) :: post)%list /\
    forall g r, In (g, r) pre -> full_id g r <> full_id f ref.

(** No two references differ only in the case of letters. *)
Definition one_case (fs : list jfile) : Prop :=
  forall f r g q, In (f, r) (mentions fs) -> In (g, q) (mentions fs) ->
    to_lower (full_id f r) = to_lower (full_id g q) -> full_id f r = full_id g q.

(** Texts that can stand in a Go source file: no NUL, no byte order mark. *)
Definition occurs (t s : string) : Prop := exists a b, s = a ++ t ++ b.
Definition nul : string := String (ascii_of_N 0) "".
Definition bom : string :=
  String (ascii_of_N 239) (String (ascii_of_N 187) (String (ascii_of_N 191) "")).
Definition source_text (s : string) : Prop := ~ occurs nul s /\ ~ occurs bom s.

(** Letters and digits. *)
Fixpoint alnum (s : string) : Prop :=
  match s with
  | "" => True
  | String c r =>
      let n := N_of_ascii c in
      ((48 <= n <= 57)%N \/ (65 <= n <= 90)%N \/ (97 <= n <= 122)%N) /\ alnum r
  end.

(** Two hexadecimal digits, or nothing, as a number. *)
Definition digit_of (n : N) (c : ascii) : Prop :=
  String.get (N.to_nat n) "0123456789abcdef" = Some c \/
  String.get (N.to_nat n) "0123456789ABCDEF" = Some c.
Definition id_denotes (s : string) (b : byte) : Prop :=
  (s = "" /\ b = x00) \/
  exists h l c d, s = String c (String d "") /\ digit_of h c /\ digit_of l d /\
    (h < 16)%N /\ (l < 16)%N /\ Byte.to_N b = (16 * h + l)%N.

Definition class_matches (j : jclass) (c : cclass) : Prop :=
  id_denotes (jc_id j) (cc_id c) /\ cc_innif c = jc_nif j /\ cc_secure c = jc_secure j /\
  cc_nonsecure c = jc_nonsecure j /\ cc_version c = jc_version j.

(** The device described by a file, for one reference. *)
Definition device_matches (f : jfile) (ref : string * string) (d : device) : Prop :=
  d_brand d = j_manufacturer_name f /\ d_product d = j_label f /\ d_description d = j_decription f /\
  d_manufacturer d = j_manufacturer_id f /\ d_type d = fst ref /\ d_id d = snd ref /\
  Forall2 class_matches (match j_endpoints f with [] => [] | e :: _ => e end) (d_classes d).

(** Files the generator can make a table of. *)
Definition usable (fs : list jfile) : Prop :=
  one_case fs /\
  (forall f r, In (f, r) (mentions fs) ->
     source_text (j_manufacturer_name f) /\ source_text (j_label f) /\ source_text (j_decription f) /\
     alnum (j_manufacturer_id f) /\ alnum (fst r) /\ alnum (snd r) /\
     forall e c, In e (j_endpoints f) -> In c e ->
       alnum (jc_version c) /\ exists b, id_denotes (jc_id c) b).

(** Asking the database for the device of one reference, as identification does:
    in lower case. *)
Definition lookup_ref (new : string -> string -> string -> option device) (f : jfile) (r : string * string)
  : option device :=
  new (to_lower (j_manufacturer_id f)) (to_lower (fst r)) (to_lower (snd r)).

(** No other file mentions this device. *)
Definition only_mention (fs : list jfile) (f : jfile) (r : string * string) : Prop :=
  In (f, r) (mentions fs) /\
  forall g q, In (g, q) (mentions fs) -> full_id g q = full_id f r -> (g, q) = (f, r).

(** The file lists a class, at some endpoint. *)
Definition lists_class (f : jfile) (c : jclass) : Prop := exists e, In e (j_endpoints f) /\ In c e.
