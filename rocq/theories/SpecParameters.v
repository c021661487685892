(** Vocabulary for the parameters in the device table. *)
From Verif Require Import ModelBase ModelNodes DataDevices DataFiles DataParameters SpecGenerator.
Local Open Scope string_scope.

Definition int64 (z : Z) : Prop := (- 2 ^ 63 <= z < 2 ^ 63)%Z.

(** A number or a range with its description. *)
Definition option_is (o : Z * string) (v : gvalue) : Prop :=
  gv_from v = fst o /\ gv_to v = fst o /\ gv_desc v = snd o /\ gv_unit v = "".
Definition range_is (p : jparam) (v : gvalue) : Prop :=
  gv_from v = jp_min p /\ gv_to v = jp_max p /\ gv_desc v = "" /\ gv_unit v = "".
Definition values_match (p : jparam) (vs : list gvalue) : Prop :=
  (jp_options p <> [] /\ Forall2 option_is (jp_options p) vs) \/
  (jp_options p = [] /\ exists v, vs = [v] /\ range_is p v).
(** The number of a parameter that has none is 0. *)
Definition parameter_matches (p : jparam) (q : gparam) : Prop :=
  gp_name q = jp_label p /\ gp_size q = jp_size p /\
  gp_id q = Z.max 0 (jp_id p) /\ values_match p (gp_values q).

(** What can be written as a Go constant; encoding/json decodes no other numbers. *)
Definition plain_parameter (p : jparam) : Prop :=
  source_text (jp_label p) /\ int64 (jp_id p) /\ int64 (jp_size p) /\ int64 (jp_min p) /\ int64 (jp_max p) /\
  (forall o, In o (jp_options p) -> int64 (fst o) /\ source_text (snd o)).

(** File [f] with parameters [ps] is the first one that mentions this device. *)
Definition full_mentions (fs : list (jfile * list jparam)) : list ((jfile * list jparam) * (string * string)) :=
  flat_map (fun f => map (fun s => (f, ref_of s)) (j_refs (fst f))) fs.
Definition first_full (fs : list (jfile * list jparam)) (f : jfile) (ps : list jparam) (ref : string * string) : Prop :=
  exists pre post, full_mentions fs = (pre ++ ((f, ps), ref) :: post)%list /\
    forall g q r, In ((g, q), r) pre -> full_id g r <> full_id f ref.

(** Values that the file allows, and values that the table allows. *)
Definition file_allows (p : jparam) (v : Z) : Prop :=
  (jp_min p <= v <= jp_max p)%Z \/ In v (map fst (jp_options p)).
Definition table_allows (q : gparam) (v : Z) : Prop :=
  exists x, In x (gp_values q) /\ (gv_from x <= v <= gv_to x)%Z.
