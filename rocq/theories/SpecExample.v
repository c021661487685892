(** Vocabulary for the statements about the example program. *)
From Verif Require Import ModelBase ModelReports ModelSerial ModelNodes ModelList ModelController.
From Coq Require Import Ascii String.
Local Open Scope string_scope.

Definition event_node (e : event) : Z := match e with EDiscovered a | EUpdated a => a end.

(** Decimal numerals and their value. *)
Inductive digit : string -> Z -> Prop :=
| digit_0 : digit "0" 0 | digit_1 : digit "1" 1 | digit_2 : digit "2" 2 | digit_3 : digit "3" 3
| digit_4 : digit "4" 4 | digit_5 : digit "5" 5 | digit_6 : digit "6" 6 | digit_7 : digit "7" 7
| digit_8 : digit "8" 8 | digit_9 : digit "9" 9.
Inductive decimal : string -> Z -> Prop :=
| decimal_one s d : digit s d -> decimal s d
| decimal_more s v t d : decimal s v -> digit t d -> decimal (s ++ t) (10 * v + d).
Inductive numeral : string -> Z -> Prop :=
| numeral_plain s v : decimal s v -> numeral s v
| numeral_plus s v : decimal s v -> numeral ("+" ++ s) v
| numeral_minus s v : decimal s v -> numeral ("-" ++ s) (- v).

(** The path segment [s] names [id]. *)
Definition names (s : string) (id : Z) : Prop := numeral s id /\ (- 2 ^ 63 <= id < 2 ^ 63)%Z.

(** What the server answers a request for node [s]: [r] if there is one. *)
Definition answers (st : cst) (s : string) (status r : Z) : Prop :=
  (forall id, names s id -> In id (map fst (c_nodes st)) -> status = r) /\
  (forall id, names s id -> ~ In id (map fst (c_nodes st)) -> status = 404%Z) /\
  ((forall id, ~ names s id) -> status = 500%Z).
