(** Property theorems C118-C119: what is known about a node stays known, and is
    not asked for again. *)
From Verif Require Import ModelBase ModelReports ModelSerial ModelNodes ModelList ModelDatabase ModelIdentify.
From Verif Require Import ModelController ModelConnection ModelSystem ModelWhole.
From Verif Require Import SpecIdentify SpecSystem SpecWhole SpecComplete SpecKnown.
From Verif Require Import ProofWholeRuns ProofKnown ProofKnownRuns.

(** ** C118 *)
Theorem C118_knowledge_is_kept : forall file ns ls w tr o ls' w' tr' o' b n,
  wrun (wstart file ns) ls = Some (Ok (w, tr, o)) -> wrun w ls' = Some (Ok (w', tr', o')) ->
  node_of (w_sys w) b = Some n -> exists n', node_of (w_sys w') b = Some n' /\ grows n n'.
Proof. exact knowledge_grows. Qed.
Print Assumptions C118_knowledge_is_kept.

(** The type and the product of node 5 are known and its switch is on; later its
    endpoints are known too, and the switch is off. *)
Example C118_example : exists ls w tr o ls' w' tr' o' n n',
  wrun (wstart false [saved_node]) ls = Some (Ok (w, tr, o)) /\ wrun w ls' = Some (Ok (w', tr', o')) /\
  node_of (w_sys w) x05 = Some n /\ node_of (w_sys w') x05 = Some n' /\
  (has_type n = true /\ n_ms n <> None /\ n_endpoints n = None /\ mget "on" (n_bool n) = Some true) /\
  option_map (map e_id) (n_endpoints n') = Some [1%Z; 2%Z] /\ mget "on" (n_bool n') = Some false.
Proof. exact file_node_grows. Qed.

(** ** C119 *)
Theorem C119_known_is_not_asked : forall file ns ls w tr o ls' w1 tr1 o1 l w2 ev o2 b n i data wt t er,
  wrun (wstart file ns) ls = Some (Ok (w, tr, o)) -> node_of (w_sys w) b = Some n ->
  wrun w ls' = Some (Ok (w1, tr1, o1)) -> wstep w1 l = Some (Ok (w2, ev, o2)) -> identifies_node b l ->
  In (EvCall i data wt t er) ev ->
  exists k, request_stage data = Some k /\ request_node data = Some b /\ unknown k n.
Proof. exact asked_is_unknown. Qed.
Print Assumptions C119_known_is_not_asked.
Theorem C119_nothing_after_the_end : forall file ns ls w tr o ls' w1 tr1 o1 b,
  wrun (wstart file ns) ls = Some (Ok (w, tr, o)) -> returned w b -> wrun w ls' = Some (Ok (w1, tr1, o1)) ->
  returned w1 b /\ forall l, identifies_node b l -> wstep w1 l = None.
Proof. exact returned_for_good. Qed.
Print Assumptions C119_nothing_after_the_end.

(** The file tells the product of node 5: after the type the endpoints are asked for. *)
Example C119_example : exists ls' w1 tr1 o1 w2 ev o2,
  wrun (wstart false [saved_node]) ls' = Some (Ok (w1, tr1, o1)) /\ wstep w1 (WGo (address x05)) = Some (Ok (w2, ev, o2)) /\
  (exists n, node_of (w_sys (wstart false [saved_node])) x05 = Some n /\ n_ms n = Some (mkMS "0081" "00a0" "0001")%string /\ unknown 2 n) /\
  stages tr1 = [None; Some 0] /\ stages ev = [Some 2].
Proof. exact file_node_asked. Qed.
(** Node 5 is identified after five requests; then its switch is reported off. *)
Example C119_example_end : exists ls w tr o ls' w1 tr1 o1 n1,
  wrun (wstart false []) ls = Some (Ok (w, tr, o)) /\ returned w x05 /\ wrun w ls' = Some (Ok (w1, tr1, o1)) /\
  stages tr = [None; Some 0; Some 1; Some 2; Some 3] /\ stages tr1 = [] /\
  node_of (w_sys w1) x05 = Some n1 /\ mget "on" (n_bool n1) = Some false.
Proof. exact through_and_reported. Qed.
