(** Property theorems C108: in the whole program an answer is used by the node
    that waits for it.  [w] is any state the program can reach, [wstep w (WSys
    (YConn (LIter order accepts)))] is one pass of the reader over its buffer,
    and [EvFrame f m] says that it took frame [f] out. *)
From Verif Require Import ModelBase ModelReports ModelSerial ModelNodes ModelList DataDevices ModelDatabase ModelIdentify.
From Verif Require Import ModelController ModelConnection ModelSystem ModelWhole.
From Verif Require Import SpecFrame SpecMessage SpecConnection SpecSystem SpecWhole ProofWitness ProofDiscovery ProofWholeRuns ProofAnswer ProofAnswerRuns.

(** ** C108 *)
Theorem C108_type_is_used : forall file ns ls w tr o order accepts w1 ev o1 f m b,
  wrun (wstart file ns) ls = Some (Ok (w, tr, o)) ->
  wstep w (WSys (YConn (LIter order accepts))) = Some (Ok (w1, ev, o1)) -> c_crashed (y_conn (w_sys w1)) = false ->
  In (EvFrame f m) ev -> self_contained f -> all_listen tr accepts ->
  forall pi, at_stage w b 0 -> info_of f = Some pi ->
  exists w2 ev2 o2 n, wstep w1 (WAnswer (address b)) = Some (Ok (w2, ev2, o2)) /\
    node_of (w_sys w2) b = Some n /\ n_info n = Some pi.
Proof. exact type_used. Qed.
Print Assumptions C108_type_is_used.

Example C108_type_case : answer_case 0 info_frame /\ info_of info_frame <> None.
Proof. exact type_case. Qed.

Theorem C108_product_is_used : forall file ns ls w tr o order accepts w1 ev o1 f m b,
  wrun (wstart file ns) ls = Some (Ok (w, tr, o)) ->
  wstep w (WSys (YConn (LIter order accepts))) = Some (Ok (w1, ev, o1)) -> c_crashed (y_conn (w_sys w1)) = false ->
  In (EvFrame f m) ev -> self_contained f -> all_listen tr accepts ->
  forall man typ prod, at_stage w b 1 -> report_of f = [(b, RManufacturer man typ prod)] ->
  exists w2 ev2 o2 n, wstep w1 (WAnswer (address b)) = Some (Ok (w2, ev2, o2)) /\
    node_of (w_sys w2) b = Some n /\ n_ms n = Some (mkMS man typ prod).
Proof. exact product_used. Qed.
Print Assumptions C108_product_is_used.

Example C108_product_case : answer_case 1 ms_frame /\
  report_of ms_frame = [(x05, RManufacturer "0081" "00a0" "0001")]%string.
Proof. exact product_case. Qed.

Theorem C108_endpoints_are_used : forall file ns ls w tr o order accepts w1 ev o1 f m b,
  wrun (wstart file ns) ls = Some (Ok (w, tr, o)) ->
  wstep w (WSys (YConn (LIter order accepts))) = Some (Ok (w1, ev, o1)) -> c_crashed (y_conn (w_sys w1)) = false ->
  In (EvFrame f m) ev -> self_contained f -> all_listen tr accepts ->
  forall x y count, at_stage w b 2 -> report_of f = [(b, REndpoints x y count)] ->
  exists w2 ev2 o2 n eps, wstep w1 (WAnswer (address b)) = Some (Ok (w2, ev2, o2)) /\
    node_of (w_sys w2) b = Some n /\ n_endpoints n = Some eps /\
    map e_id eps = map Z.of_nat (seq 1 (N.to_nat count - 1)).
Proof. exact endpoints_used. Qed.
Print Assumptions C108_endpoints_are_used.

Example C108_endpoints_case : answer_case 2 ep_frame /\ exists x y, report_of ep_frame = [(x05, REndpoints x y 3)].
Proof. exact endpoints_case. Qed.
