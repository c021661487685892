(** Vocabulary for the port. *)
From Verif Require Import ModelBase ModelReports ModelSerial ModelConnection ModelPort.

(** The actions other than failing to open. *)
Definition actions (ls : list plabel) : list label :=
  flat_map (fun l => match l with PDo a => [a] | POpenFails => [] end) ls.
(** Opening fails only before it first succeeds. *)
Definition reopens (ls : list plabel) : Prop :=
  exists n r, ls = repeat POpenFails n ++ map PDo r.
(** The port never fails. *)
Definition port_lasts (ls : list plabel) : Prop := ~ In (PDo LReadFail) ls.
Definition lost (tr : list pevent) : list nat :=
  flat_map (fun e => match e with PLost i => [i] | _ => [] end) tr.
(** Commands written to the port, in order. *)
Definition sent (tr : list pevent) : list nat :=
  flat_map (fun e => match e with PE (EvWire i _) => [i] | _ => [] end) tr.
(** Commands taken from the queue by a writer: one for each [LTake]. *)
Definition takes (ls : list plabel) : nat :=
  List.length (filter (fun l => match l with PDo (LTake _) => true | _ => false end) ls).
(** The same events, except that a lost command counts as written. *)
Definition same_but_lost (tr : list pevent) (tr' : list event) : Prop :=
  Forall2 (fun pe e => match pe with
                       | PE e' => e = e'
                       | PLost i => exists bytes, e = EvWire i bytes
                       end) tr tr'.
