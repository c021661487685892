(** Property theorems C100 - C103: the whole program.  An execution is
    [wrun (wstart file ns) ls = Some (Ok (w, tr, o))]: [ns] are the nodes of the
    configuration file, [ls] chooses who moves next, [tr] is what the connection
    does and [o] what the controller does. *)
From Verif Require Import ModelBase ModelReports ModelSerial ModelNodes DataDevices ModelDatabase ModelIdentify.
From Verif Require Import ModelController ModelConnection ModelSystem ModelWhole.
From Verif Require Import SpecFrame SpecConnection SpecSystem SpecWhole ProofWitness ProofDiscovery ProofWhole ProofWholeWait ProofWholeRuns.

(** ** C100 *)
Theorem C100_product_from_node : forall file ns ls w tr o b n p,
  wrun (wstart file ns) ls = Some (Ok (w, tr, o)) -> c_crashed (y_conn (w_sys w)) = false ->
  Forall self_contained (frames_taken tr) -> node_of (w_sys w) b = Some n -> n_ms n = Some p ->
  in_file ns (address b) (fun n0 => n_ms n0 = Some p /\ names n0 = names n) \/
  told_product tr b p /\
  match device_new (ms_manufacturer p) (ms_type p) (ms_id p) with
  | Some d => names n = device_names d
  | None => first_names ns (address b) (names n)
  end.
Proof. exact product_of_node. Qed.
Print Assumptions C100_product_from_node.

Theorem C100_no_product_no_names : forall file ns ls w tr o b n,
  wrun (wstart file ns) ls = Some (Ok (w, tr, o)) -> node_of (w_sys w) b = Some n -> n_ms n = None ->
  first_names ns (address b) (names n).
Proof. exact unknown_product. Qed.
Print Assumptions C100_no_product_no_names.

(** Node 5 is found, tells its product and gets the names of the database. *)
Example C100_case : exists ls w tr o, wrun (wstart false []) ls = Some (Ok (w, tr, o)) /\
  (c_crashed (y_conn (w_sys w)) = false /\ Forall self_contained (frames_taken tr) /\
   frames_taken tr = [list_frame; info_frame; ms_frame; ep_frame] /\
   exists n, node_of (w_sys w) x05 = Some n /\ n_identified n = true /\ n_ms n = Some (mkMS "0081" "00a0" "0001")%string /\
     names n = ("SIEGENIA-AUBI KG", "Sensoair", "Air quality sensor for indoor use")%string /\
     option_map (map e_id) (n_endpoints n) = Some [1%Z; 2%Z] /\ has_type n = true).
Proof. exact identified_run. Qed.

(** ** C101 *)
(** Full statement (false of the code): an answer that says the type of a device
    is used for one node, the one that was asked. *)
Theorem C101_type_of_one_node_refuted : exists ls w tr o, wrun (wstart false []) ls = Some (Ok (w, tr, o)) /\
  (c_crashed (y_conn (w_sys w)) = false /\ Forall self_contained (frames_taken tr) /\
   frames_taken tr = [list_frame2; info_frame] /\ info_of list_frame2 = None /\
   exists n5 n6 pi, node_of (w_sys w) x05 = Some n5 /\ node_of (w_sys w) x06 = Some n6 /\
     n_info n5 = Some pi /\ n_info n6 = Some pi).
Proof. exact one_answer_two_types. Qed.
Print Assumptions C101_type_of_one_node_refuted.

(** What holds: the type of a node was in the file, or was in an answer received
    after this node was asked. *)
Theorem C101_type_after_question_partial : forall file ns ls w tr o b n pi,
  wrun (wstart file ns) ls = Some (Ok (w, tr, o)) -> c_crashed (y_conn (w_sys w)) = false ->
  Forall self_contained (frames_taken tr) -> node_of (w_sys w) b = Some n -> n_info n = Some pi ->
  in_file ns (address b) (fun n0 => n_info n0 = Some pi) \/ told_type tr b pi.
Proof. exact type_of_node. Qed.
Print Assumptions C101_type_after_question_partial.

(** The hypotheses hold of nodes 5 and 6 in the run above and of node 5 in C100_case. *)

(** ** C102 *)
Theorem C102_endpoints_from_node : forall file ns ls w tr o b n eps,
  wrun (wstart file ns) ls = Some (Ok (w, tr, o)) -> c_crashed (y_conn (w_sys w)) = false ->
  Forall self_contained (frames_taken tr) -> node_of (w_sys w) b = Some n -> n_endpoints n = Some eps ->
  in_file ns (address b) (fun n0 => exists eps0, n_endpoints n0 = Some eps0 /\ map e_id eps0 = map e_id eps) \/
  (eps = [] /\ exists pi, n_info n = Some pi /\ get_mandatory definitions (pi_generic pi) (pi_specific pi) = None) \/
  exists count, told_endpoints tr b count /\ map e_id eps = map Z.of_nat (seq 1 (N.to_nat count - 1)).
Proof. exact endpoints_of_node. Qed.
Print Assumptions C102_endpoints_from_node.

(** A node that is not in the file and is called identified has told its type,
    its product and its endpoints, each after it was asked. *)
Theorem C102_identified_told_everything : forall file ns ls w tr o b n,
  wrun (wstart file ns) ls = Some (Ok (w, tr, o)) -> c_crashed (y_conn (w_sys w)) = false ->
  Forall self_contained (frames_taken tr) -> node_of (w_sys w) b = Some n -> n_identified n = true ->
  ~ in_file ns (address b) (fun _ => True) ->
  exists pi p eps, n_info n = Some pi /\ n_ms n = Some p /\ n_endpoints n = Some eps /\
    told_type tr b pi /\ told_product tr b p /\
    ((exists count, told_endpoints tr b count /\ map e_id eps = map Z.of_nat (seq 1 (N.to_nat count - 1))) \/
     eps = [] /\ get_mandatory definitions (pi_generic pi) (pi_specific pi) = None).
Proof. exact identified_told. Qed.
Print Assumptions C102_identified_told_everything.

(** C100_case is an execution that meets the hypotheses of both. *)

(** ** C103 *)
(** Full statement (false of the code): a question of Identify is answered or
    times out, so that Identify goes on.  Here the answer was received, and
    whatever happens from then on the node never gets a type. *)
Theorem C103_question_ends_refuted : exists ls w tr o pi, wrun (wstart false []) ls = Some (Ok (w, tr, o)) /\
  (c_crashed (y_conn (w_sys w)) = false /\ Forall self_contained (frames_taken tr) /\ told_type tr x05 pi /\
   forall ls' w' tr' o', wrun w ls' = Some (Ok (w', tr', o')) ->
     exists n, node_of (w_sys w') x05 = Some n /\ n_info n = None).
Proof. exact never_typed. Qed.
Print Assumptions C103_question_ends_refuted.

(** What holds: once Identify has its channel, the timeout of the request lets
    it go on. *)
Theorem C103_timeout_ends_wait_partial : forall file ns ls w tr o b,
  wrun (wstart file ns) ls = Some (Ok (w, tr, o)) -> c_crashed (y_conn (w_sys w)) = false -> awaiting w b ->
  exists k w' ev o', wrun w [WSys (YConn (LTimer k)); WAnswer (address b)] = Some (Ok (w', ev, o')) /\ moved_on w' b.
Proof. exact wait_over_node. Qed.
Print Assumptions C103_timeout_ends_wait_partial.

Example C103_case : exists ls w tr o, wrun (wstart false []) ls = Some (Ok (w, tr, o)) /\
  (c_crashed (y_conn (w_sys w)) = false /\ awaiting w x05).
Proof. exact waiting_run. Qed.
