(** Property theorems C120-C121: an application that looks at a node whenever it
    receives an event about it, and the file that is saved after events. *)
From Verif Require Import ModelBase ModelReports ModelSerial ModelNodes ModelList ModelDatabase ModelIdentify.
From Verif Require Import ModelController ModelConnection ModelSystem ModelWhole.
From Verif Require Import SpecController SpecIdentify SpecSystem SpecWhole SpecSilent.
From Verif Require Import ProofWitness ProofDiscovery ProofWholeRuns ProofKnownRuns ProofSilent ProofSilentRuns.

(** ** C120 *)
(** The application received no event about node 5 and none is waiting, but the
    switch of the node is now known to be off: the event did not fit the queue. *)
Theorem C120_up_to_date_refuted : exists ns ls w tr o ls' w' tr' o' n n',
  wrun (wstart false ns) ls = Some (Ok (w, tr, o)) /\ wrun w ls' = Some (Ok (w', tr', o')) /\
  node_of (w_sys w) x05 = Some n /\ node_of (w_sys w') x05 = Some n' /\
  no_news x05 (received o') /\ waiting_events w' = [] /\
  mget "on" (n_bool n) = None /\ mget "on" (n_bool n') = Some false.
Proof. exact (ex_intro _ eleven event_lost). Qed.
Print Assumptions C120_up_to_date_refuted.
(** No event is published, but the node has lost the command class of its sensor. *)
Theorem C120_classes_refuted : exists ls w tr o w' tr' o' n n',
  wrun (wstart false []) ls = Some (Ok (w, tr, o)) /\ wstep w (WGo (address x05)) = Some (Ok (w', tr', o')) /\
  node_of (w_sys w) x05 = Some n /\ node_of (w_sys w') x05 = Some n' /\
  pushed o' = [] /\ supports n x31 /\ ~ supports n' x31.
Proof. exact classes_go. Qed.
Print Assumptions C120_classes_refuted.

(** What is missing: events that are lost, and the command classes. *)
Theorem C120_up_to_date_partial : forall file ns ls w tr o ls' w' tr' o' b n,
  wrun (wstart file ns) ls = Some (Ok (w, tr, o)) -> wrun w ls' = Some (Ok (w', tr', o')) ->
  node_of (w_sys w) b = Some n ->
  nothing_lost w o' w' -> no_news b (received o') -> no_news b (waiting_events w') ->
  exists n', node_of (w_sys w') b = Some n' /\ shown n' = shown n.
Proof. exact up_to_date. Qed.
Print Assumptions C120_up_to_date_partial.
(** Each change is published, whether or not there is room for the event. *)
Theorem C120_published_partial : forall file ns ls w tr o ls' w' tr' o' b n,
  wrun (wstart file ns) ls = Some (Ok (w, tr, o)) -> wrun w ls' = Some (Ok (w', tr', o')) ->
  node_of (w_sys w) b = Some n -> no_news b (pushed o') ->
  exists n', node_of (w_sys w') b = Some n' /\ shown n' = shown n.
Proof. exact published. Qed.
Print Assumptions C120_published_partial.

(** Nodes 5 and 6: the switch of node 5 goes off; there is no news about node 6. *)
Example C120_example : exists ls w tr o ls' w' tr' o' n5 n5' n6,
  wrun (wstart false []) ls = Some (Ok (w, tr, o)) /\ wrun w ls' = Some (Ok (w', tr', o')) /\
  nothing_lost w o' w' /\ no_news x06 (received o') /\ no_news x06 (waiting_events w') /\ node_of (w_sys w) x06 = Some n6 /\
  received o' = [EDiscovered 5; EDiscovered 6; EUpdated 5] /\
  node_of (w_sys w) x05 = Some n5 /\ node_of (w_sys w') x05 = Some n5' /\
  mget "on" (n_bool n5) = None /\ mget "on" (n_bool n5') = Some false.
Proof. exact other_told. Qed.

(** ** C121 *)
(** A file is given and nothing is due, but node 5 has never been saved. *)
Theorem C121_file_is_current_refuted : exists ls w tr o n,
  wrun (wstart true []) ls = Some (Ok (w, tr, o)) /\ nothing_due w /\ saves o = [] /\ node_of (w_sys w) x05 = Some n.
Proof. exact found_not_saved. Qed.
Print Assumptions C121_file_is_current_refuted.

(** What is missing: nodes of which nothing is known but that they were found, and
    the command classes. *)
Theorem C121_saved_nodes_partial : forall file ns ls w tr o l w1 ev o1 s ls' w' tr' o' b,
  wrun (wstart file ns) ls = Some (Ok (w, tr, o)) -> wstep w l = Some (Ok (w1, ev, o1)) -> In (COSave s) o1 ->
  wrun w1 ls' = Some (Ok (w', tr', o')) -> saves o' = [] -> nothing_due w' ->
  as_in_file b (zlookup (address b) s) (node_of (w_sys w') b).
Proof. exact saved_shown. Qed.
Print Assumptions C121_saved_nodes_partial.
(** A save is about all nodes that are known at the time. *)
Theorem C121_all_saved_partial : forall file ns ls w tr o l w1 ev o1 s b,
  wrun (wstart file ns) ls = Some (Ok (w, tr, o)) -> wstep w l = Some (Ok (w1, ev, o1)) -> In (COSave s) o1 ->
  zlookup (address b) s = node_of (w_sys w) b.
Proof. exact save_has_all. Qed.
Print Assumptions C121_all_saved_partial.
(** The same as long as there was no save: what was loaded is still right. *)
Theorem C121_loaded_nodes_partial : forall ns ls w tr o b,
  wrun (wstart true ns) ls = Some (Ok (w, tr, o)) -> saves o = [] -> nothing_due w ->
  as_in_file b (node_of (w_sys (wstart true ns)) b) (node_of (w_sys w) b).
Proof. exact loaded_shown. Qed.
Print Assumptions C121_loaded_nodes_partial.

(** The switch of node 5 goes off and this is saved. *)
Example C121_example : exists ls w tr o w1 ev o1 s n ls' w' tr' o',
  wrun (wstart true []) ls = Some (Ok (w, tr, o)) /\ wstep w (WSys (YCtl CTimeout)) = Some (Ok (w1, ev, o1)) /\ In (COSave s) o1 /\
  wrun w1 ls' = Some (Ok (w', tr', o')) /\ saves o' = [] /\ nothing_due w' /\
  zlookup (address x05) s = Some n /\ mget "on" (n_bool n) = Some false.
Proof. exact switch_saved. Qed.
(** The file names node 5, with its switch on; the node is asked for its type. *)
Example C121_example_loaded : exists ls w tr o n,
  wrun (wstart true [saved_node]) ls = Some (Ok (w, tr, o)) /\ saves o = [] /\ nothing_due w /\
  node_of (w_sys (wstart true [saved_node])) x05 = Some n /\ mget "on" (n_bool n) = Some true /\ tr <> [].
Proof. exact file_node_shown. Qed.
