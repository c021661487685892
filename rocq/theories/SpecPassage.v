(** Vocabulary: the bytes received without a break. *)
From Verif Require Import ModelBase ModelReports ModelSerial ModelConnection SpecFrame.

(** The bytes of the port, cut where the reader starts anew: when the port is
    opened again, and when more than 40ms passed since the last read ([LRead
    true]).  [cur]: what arrived since the last cut. *)
Fixpoint passages (cur : list byte) (ls : list label) : list (list byte) :=
  match ls with
  | [] => [cur]
  | LConnect :: r => cur :: passages [] r
  | LRead true c _ :: r => cur :: passages c r
  | LRead false c _ :: r => passages (cur ++ c) r
  | _ :: r => passages cur r
  end.

(** [f] stands somewhere in [p]. *)
Definition part_of (f p : list byte) : Prop := exists a b, p = a ++ f ++ b.
(** [got] is [sent], with some bytes replaced by zero. *)
Definition wiped (got sent : list byte) : Prop := Forall2 (fun g s => g = s \/ g = x00) got sent.

(** Steps of the writing goroutines: take a command, give up waiting for its
    result, become ready for the next. *)
Definition writer_label (l : label) : bool :=
  match l with LTake _ | LAckTimeout _ | LFinish _ => true | _ => false end.
Definition writer_steps (ls : list label) : nat := List.length (filter writer_label ls).
