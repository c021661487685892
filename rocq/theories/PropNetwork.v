(** Property theorems C116-C117: the identification of a whole network. *)
From Verif Require Import ModelBase ModelReports ModelSerial ModelNodes ModelList ModelDatabase ModelIdentify.
From Verif Require Import ModelController ModelConnection ModelSystem ModelWhole.
From Verif Require Import SpecFrame SpecMessage SpecConnection SpecSystem SpecWhole SpecComplete.
From Verif Require Import ProofWholeRuns ProofDiscovery ProofNetwork ProofStart ProofNetworkRuns.

(** ** C116 *)
Theorem C116_network_can_be_identified : forall file ns ls w tr o bs f,
  wrun (wstart file ns) ls = Some (Ok (w, tr, o)) -> c_crashed (y_conn (w_sys w)) = false -> c_mode (y_conn (w_sys w)) = RReading ->
  NoDup bs -> (forall b, In b bs -> not_begun w b /\ exists n, node_of (w_sys w) b = Some n /\ answers_all b n (f b)) ->
  exists ls' w' ev o', wrun w ls' = Some (Ok (w', ev, o')) /\ Forall (only (flat_map (frames_of (w_sys w) f) bs)) ev /\
    Forall (moves_of bs) ls' /\ c_crashed (y_conn (w_sys w')) = false /\
    forall b, In b bs -> returned w' b /\
      exists n0 n, node_of (w_sys w) b = Some n0 /\ node_of (w_sys w') b = Some n /\ told b n0 (f b) n.
Proof. exact network_completes. Qed.
Print Assumptions C116_network_can_be_identified.

(** Nodes 5 and 6 have been found; node 5 listens, node 6 sleeps. *)
Example C116_example : exists ls w tr o, wrun (wstart false []) ls = Some (Ok (w, tr, o)) /\
  (c_crashed (y_conn (w_sys w)) = false /\ c_mode (y_conn (w_sys w)) = RReading /\
   forall b, In b [x05; x06] -> not_begun w b /\ exists n, node_of (w_sys w) b = Some n /\ answers_all b n (two_replies b)).
Proof. exact two_nodes_answer. Qed.

(** ** C117 *)
Theorem C117_from_start_to_identified : forall file ns f bs r, node_list f -> NoDup bs ->
  (forall b, In b bs -> (2 <= address b)%Z /\ lists_node f (address b) /\ answers_all b (first_known file ns b) (r b)) ->
  exists ls w tr o, wrun (wstart file ns) ls = Some (Ok (w, tr, o)) /\
    Forall (only ([x06] :: f :: flat_map (fun b => frames_for (first_known file ns b) (r b)) bs)) tr /\
    c_crashed (y_conn (w_sys w)) = false /\
    forall b, In b bs -> returned w b /\ exists n, node_of (w_sys w) b = Some n /\ told b (first_known file ns b) (r b) n.
Proof. exact start_completes. Qed.
Print Assumptions C117_from_start_to_identified.

(** A controller that lists the nodes 1, 5 and 6, and a program that knows nothing. *)
Example C117_example : node_list list_frame2 /\
  forall b, In b [x05; x06] -> (2 <= address b)%Z /\ lists_node list_frame2 (address b) /\
    answers_all b (first_known false [] b) (two_replies b).
Proof. exact two_listed. Qed.
