(** Vocabulary for the statements about recordings. *)
From Verif Require Import ModelBase ModelRecorder.
From Coq Require Import Permutation Sorted.

(** The operations of a run, in order. *)
Definition operations (o : list robs) : list (bool * list byte) :=
  map (fun x => match x with RODone d b => (d, b) end) o.
(** The rows of a log. *)
Definition logged (s : list gitem) : list row :=
  flat_map (fun x => match x with GRow r => [r] | GType => [] end) s.
Definition content (r : row) : bool * list byte := (r_dir r, r_data r).
(** Callers do not touch a buffer again: each operation has its own, and it is
    not changed afterwards. *)
Definition uses (l : rlabel) : list nat :=
  match l with RRead b _ | RReuse b _ => [b] | _ => [] end.
Definition used (l : rlabel) : list nat :=
  match l with RRead b _ | RWrite b _ => [b] | _ => [] end.
Definition undisturbed (ls : list rlabel) : Prop :=
  forall p l q l' b, ls = p ++ l :: q -> In l' q -> In b (used l) -> ~ In b (uses l').
(** How often the port was opened. *)
Definition opens (ls : list rlabel) : nat :=
  List.length (filter (fun l => match l with ROpen => true | _ => false end) ls).

(** All the bytes of one direction. *)
Definition bytes_of (dir : bool) (rows : list row) : list byte :=
  flat_map (fun r => if Bool.eqb (r_dir r) dir then r_data r else []) rows.
Definition printed_bytes (dir : bool) (out : list (bool * list byte)) : list byte :=
  flat_map (fun p => if Bool.eqb (fst p) dir then snd p else []) out.
(** The rows of one direction. *)
Definition of_dir (dir : bool) (rows : list row) : list row :=
  filter (fun r => Bool.eqb (r_dir r) dir) rows.
(** Timestamps of real recordings: after the zero time, not decreasing within
    each direction. *)
Definition clocked (rows : list row) : Prop :=
  (forall r, In r rows -> (0 < r_time r)%Z) /\
  forall dir, StronglySorted time_le (of_dir dir rows).
(** The rows of one direction since the last gap of a millisecond or more. *)
Definition no_gap (rows : list row) : Prop :=
  forall p a b q, rows = p ++ a :: b :: q -> (r_time b - r_time a < 1000000)%Z.
Definition last_burst (rows burst : list row) : Prop :=
  no_gap burst /\
  exists p, rows = p ++ burst /\
    (p = [] \/ exists p' a b q, p = p' ++ [a] /\ burst = b :: q /\ (1000000 <= r_time b - r_time a)%Z).
