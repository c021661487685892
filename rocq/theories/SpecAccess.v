(** Overlapping accesses. *)
From Verif Require Import ModelBase ModelAccess.

(** Two different goroutines are in map [m] at the same time, at these sites,
    and the first one is changing it.  (The Go runtime stops the process when
    it notices this: "fatal error: concurrent map iteration and map write".) *)
Definition overlap (ts : list thread) (m site1 site2 : nat) : Prop :=
  exists g1 g2 t1 t2 w, g1 <> g2 /\
    nth_error ts g1 = Some t1 /\ nth_error ts g2 = Some t2 /\
    t_in t1 = Some (true, m, site1) /\ t_in t2 = Some (w, m, site2).

(** Only reports are processed, nothing is saved. *)
Definition reports_only (l : list (list node_action)) : Prop :=
  Forall (Forall (fun a => match a with NMarshal _ _ => False | _ => True end)) l.
