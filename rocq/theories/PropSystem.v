(** Property theorems C92 - C95: the controller on top of its connection.  An
    execution is [yrun (ystart file ns) ls = Some (Ok (y, tr, o))]: [ns] are the
    nodes of the configuration file, [ls] chooses who moves next, [tr] is what
    the connection does and [o] what the controller does. *)
From Verif Require Import ModelBase ModelReports ModelSerial ModelNodes ModelList.
From Verif Require Import ModelController SpecController ModelConnection SpecFrame SpecDecode SpecMessage SpecReports.
From Verif Require Import SpecConnection SpecNodes ModelSystem SpecSystem ProofWitness ProofSystem ProofDiscovery ProofDelivery.
From Coq Require Import Permutation.

(** ** C92 *)
(** Full statement (false of the code): when all reports received from a node
    were processed, the node shows what the last of them said. *)
Theorem C92_last_report_wins_refuted : exists ls y tr o, yrun (ystart false [new_node 5]) ls = Some (Ok (y, tr, o)) /\
  (controls_alone (conn_labels ls) /\ Forall self_contained (frames_taken tr) /\ c_callbacks (y_conn y) = [] /\
   left_alone x05 ls /\
   reports_from x05 (frames_taken tr) = [RSwitchBinary1 true true; RSwitchBinary1 false true] /\
   exists n, node_of y x05 = Some n /\ n_bool n = Some [("on"%string, true)]).
Proof. exact reports_swapped. Qed.
Print Assumptions C92_last_report_wins_refuted.

(** Between two moments at which nothing is outstanding for node [b], its state
    changes by exactly the reports received from it, each once, in some order. *)
Theorem C92_reports_applied_partial : forall file ns l1 y1 t1 o1 l2 y2 t2 o2 b n1,
  yrun (ystart file ns) l1 = Some (Ok (y1, t1, o1)) -> yrun y1 l2 = Some (Ok (y2, t2, o2)) ->
  controls_alone (conn_labels (l1 ++ l2)) -> Forall self_contained (frames_taken (t1 ++ t2)) ->
  caught_up y1 b -> caught_up y2 b -> left_alone b l2 -> node_of y1 b = Some n1 ->
  exists rs m evs, Permutation rs (reports_from b (frames_taken t2)) /\
    nrun (mkNM n1 0 []) (map NReport rs) = Some (Ok (m, evs)) /\
    node_of y2 b = Some (m_node m) /\ updates_of b o2 = map EUpdated evs.
Proof. exact reports_processed. Qed.
Print Assumptions C92_reports_applied_partial.

(** If it was one report, the node shows what the report says, everything else
    in the node is as before, and the application is told once. *)
Theorem C92_one_report_partial : forall file ns l1 y1 t1 o1 l2 y2 t2 o2 b n1 r,
  yrun (ystart file ns) l1 = Some (Ok (y1, t1, o1)) -> yrun y1 l2 = Some (Ok (y2, t2, o2)) ->
  controls_alone (conn_labels (l1 ++ l2)) -> Forall self_contained (frames_taken (t1 ++ t2)) ->
  caught_up y1 b -> caught_up y2 b -> left_alone b l2 -> node_of y1 b = Some n1 -> has_maps n1 ->
  reports_from b (frames_taken t2) = [r] -> state_report r ->
  exists n2, node_of y2 b = Some n2 /\ report_effect n1 n2 r /\ same_but_state n1 n2 /\
    updates_of b o2 = [EUpdated (address b)].
Proof. exact one_report. Qed.
Print Assumptions C92_one_report_partial.

Example C92_example : exists ls y tr o, yrun (ystart false [new_node 5]) ls = Some (Ok (y, tr, o)) /\
  (controls_alone (conn_labels ls) /\ Forall self_contained (frames_taken tr) /\ c_callbacks (y_conn y) = [] /\
   left_alone x05 ls /\ reports_from x05 (frames_taken tr) = [RSwitchBinary1 true true] /\
   updates_of x05 o = [EUpdated 5] /\
   exists n, node_of y x05 = Some n /\ n_bool n = Some [("on"%string, true)]).
Proof. exact one_report_run. Qed.

(** ** C93 *)
Theorem C93_known_nodes_were_listed : forall file ns ls y tr o id,
  yrun (ystart file ns) ls = Some (Ok (y, tr, o)) -> c_crashed (y_conn y) = false ->
  Forall self_contained (frames_taken tr) -> knows (y_ctl y) id ->
  In id (map n_id ns) \/ (2 <= id)%Z /\ exists f, In f (frames_taken tr) /\ lists_node f id.
Proof. exact known_origin. Qed.
Print Assumptions C93_known_nodes_were_listed.

Example C93_example : lists_node list_frame 5 /\ lists_node list_frame 1 /\ ~ lists_node list_frame 4.
Proof. exact list_names. Qed.

Example C93_example_run : exists ls y tr o, yrun (ystart false []) ls = Some (Ok (y, tr, o)) /\
  (c_crashed (y_conn y) = false /\ frames_taken tr = [list_frame] /\ Forall self_contained (frames_taken tr) /\
   y_ask y = Some (0, true) /\ (exists m, In (EvDeliver 0 (Some m)) tr) /\
   c_disc (y_ctl y) = DcDone /\ map fst (c_nodes (y_ctl y)) = [5%Z] /\
   o = [COPush (EDiscovered 5); COIdentify 5]).
Proof. exact list_answers. Qed.

(** ** C94 *)
(** Full statement (false of the code): when discovery has ended, every node
    but the controller that a received node list names is known. *)
Theorem C94_listed_nodes_known_refuted : exists ls y tr o, yrun (ystart false []) ls = Some (Ok (y, tr, o)) /\
  (c_crashed (y_conn y) = false /\ Forall self_contained (frames_taken tr) /\ In list_frame (frames_taken tr) /\
   lists_node list_frame 5 /\ c_disc (y_ctl y) = DcDone /\ ~ knows (y_ctl y) 5).
Proof. exact list_too_late. Qed.
Print Assumptions C94_listed_nodes_known_refuted.

(** If the request for the list got a message at all, that message is a
    received node list, and every node but the controller in it is known in the
    end and was interrogated. *)
Theorem C94_listed_nodes_known_partial : forall file ns ls y tr o j h m,
  yrun (ystart file ns) ls = Some (Ok (y, tr, o)) -> c_crashed (y_conn y) = false ->
  Forall self_contained (frames_taken tr) ->
  y_ask y = Some (j, h) -> In (EvDeliver j (Some m)) tr -> c_disc (y_ctl y) = DcDone ->
  exists f, In f (frames_taken tr) /\ message_of f = Some m /\
    forall id, (2 <= id)%Z -> lists_node f id -> knows (y_ctl y) id /\ In id (identifies o).
Proof. exact listed_known. Qed.
Print Assumptions C94_listed_nodes_known_partial.

Example C94_example : exists ls y tr o, yrun (ystart false []) ls = Some (Ok (y, tr, o)) /\
  (c_crashed (y_conn y) = false /\ frames_taken tr = [list_frame] /\ Forall self_contained (frames_taken tr) /\
   y_ask y = Some (0, true) /\ (exists m, In (EvDeliver 0 (Some m)) tr) /\
   c_disc (y_ctl y) = DcDone /\ map fst (c_nodes (y_ctl y)) = [5%Z] /\
   o = [COPush (EDiscovered 5); COIdentify 5]).
Proof. exact list_answers. Qed.

(** ** C95 *)
(** A frame of at least ten bytes ends exactly the written, unanswered requests
    that it answers; those that wait on their channel get the message. *)
Theorem C95_frame_reaches_all_it_answers : forall ls s tr order accepts s' ev f m i data w t er,
  run init ls = Some (s, tr) -> step s (LIter order accepts) = Some (s', ev) -> c_crashed s' = false ->
  In (EvFrame f m) ev -> (10 <= List.length f)%nat ->
  In (EvCall i data w t er) tr -> w <> NoWait -> In i (written tr) -> replies i tr = [] ->
  (In (EvClose i) ev <-> answered_by data er f) /\
  (answered_by data er f -> In (EvGot i) tr -> In i accepts -> In (EvDeliver i m) ev).
Proof. exact frame_reaches. Qed.
Print Assumptions C95_frame_reaches_all_it_answers.

Example C95_example : exists ls s tr, run init ls = Some (s, tr) /\
  (In (EvCall 0 [x41; x02] WaitMessage true x00) tr /\ In (EvCall 1 [x41; x03] WaitMessage true x00) tr /\
   frames_taken tr = [info_frame] /\ replies 0 tr = [Message; Closed] /\ replies 1 tr = [Message; Closed]).
Proof. exact info_delivered_twice. Qed.
