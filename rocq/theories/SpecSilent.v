(** Vocabulary of C120-C121: an application that looks at a node whenever it receives
    an event about it. *)
From Verif Require Import ModelBase ModelReports ModelSerial ModelNodes ModelList ModelDatabase ModelIdentify.
From Verif Require Import ModelController ModelConnection ModelSystem ModelWhole.
From Verif Require Import SpecController SpecIdentify SpecSystem SpecWhole.

(** What the application sees of a node, except its command classes: id, whether
    it is awake, type, product, brand and names, endpoints, states. *)
Definition shown (n : node) :=
  (n_id n, n_awake n, n_info n, n_ms n, names n,
   match n_endpoints n with Some l => l | None => [] end, n_bool n, n_float n).
(** A command class of the node. *)
Definition supports (n : node) (c : byte) : Prop :=
  exists cs k, n_classes n = Some cs /\ In k cs /\ cc_id k = c.

Definition waiting_events (w : whole) : list ModelController.event := c_queue (y_ctl (w_sys w)).
Definition no_news (b : byte) (es : list ModelController.event) : Prop := ~ In (EUpdated (address b)) es.
(** Of the events published in between none was dropped: as many were received
    or are waiting as there were waiting before and published since. *)
Definition nothing_lost (w : whole) (o : list cobs) (w' : whole) : Prop :=
  List.length (received o) + List.length (waiting_events w') = List.length (waiting_events w) + List.length (pushed o).

(** No save is due or under way: no goroutine waits for the debouncer, and it
    waits for the next one. *)
Definition nothing_due (w : whole) : Prop :=
  c_trig (y_ctl (w_sys w)) = 0 /\ c_deb (y_ctl (w_sys w)) = DWait.

(** What the file says about a node and what is known about it: a node of the
    file is known and is as in the file; a node that is not in the file is not
    known, or nothing but its id is. *)
Definition as_in_file (b : byte) (saved now : option node) : Prop :=
  match saved, now with
  | Some n, Some n' => shown n' = shown n
  | Some _, None => False
  | None, Some n' => shown n' = shown (new_node (address b))
  | None, None => True
  end.
