(** Executions in which a node of the configuration file is identified. *)
From Verif Require Import ModelBase ModelReports ModelSerial ModelNodes ModelList DataDevices ModelDatabase ModelIdentify.
From Verif Require Import ModelController ModelConnection ModelSystem ModelWhole.
From Verif Require Import SpecIdentify SpecSystem SpecWhole SpecComplete SpecKnown.
From Verif Require Import ProofWitness ProofDiscovery ProofWholeRuns.

(** Node 5, of which the file tells the product and that its switch is on. *)
Definition saved_node : node :=
  with_states (set_manufacturer (new_node 5) (mkMS "0081" "00a0" "0001")%string) (Some [("on"%string, true)]) (Some []).
(** The type of node 5 becomes known; Identify is about to ask the next question. *)
Definition typed_run : list wlabel :=
  discover list_frame 0 ++ [WGo 5] ++ map WSys (sent 1 [] ++ frame_in info_frame [1]) ++ [WAnswer 5; WGo 5].
Definition stages (ev : list event) : list (option nat) :=
  flat_map (fun e => match e with EvCall _ d _ _ _ => [request_stage d] | _ => [] end) ev.

(** It asks for the endpoints next. *)
Lemma file_node_asked : exists ls' w1 tr1 o1 w2 ev o2,
  wrun (wstart false [saved_node]) ls' = Some (Ok (w1, tr1, o1)) /\ wstep w1 (WGo (address x05)) = Some (Ok (w2, ev, o2)) /\
  (exists n, node_of (w_sys (wstart false [saved_node])) x05 = Some n /\ n_ms n = Some (mkMS "0081" "00a0" "0001")%string /\ unknown 2 n) /\
  stages tr1 = [None; Some 0] /\ stages ev = [Some 2].
Proof.
  destruct (wrun (wstart false [saved_node]) typed_run) as [[[[w1 tr1] o1]| |]|] eqn:E; try (vm_compute in E; discriminate E).
  destruct (wstep w1 (WGo (address x05))) as [[[[w2 ev] o2]| |]|] eqn:S.
  2-4: exfalso; vm_compute in E; injection E as <- <- <-; vm_compute in S; discriminate S.
  exists typed_run, w1, tr1, o1, w2, ev, o2. split; [exact E|]. split; [exact S|].
  split; [eexists; split; [vm_compute; reflexivity|]; vm_compute; split; reflexivity|].
  vm_compute in E. injection E as <- <- <-. vm_compute in S. injection S as <- <- <-. split; vm_compute; reflexivity.
Qed.

(** The switch goes off while the endpoints are learnt. *)
Definition off_frame : list byte := [x01; x09; x00; x04; x00; x05; x03; x25; x03; x00; xd2].
Definition later_run : list wlabel :=
  [WGo 5] ++ map WSys (sent 2 [] ++ frame_in off_frame [] ++ [YConn (LCallback 0)] ++ frame_in ep_frame [2]) ++ [WAnswer 5].
Lemma file_node_grows : exists ls w tr o ls' w' tr' o' n n',
  wrun (wstart false [saved_node]) ls = Some (Ok (w, tr, o)) /\ wrun w ls' = Some (Ok (w', tr', o')) /\
  node_of (w_sys w) x05 = Some n /\ node_of (w_sys w') x05 = Some n' /\
  (has_type n = true /\ n_ms n <> None /\ n_endpoints n = None /\ mget "on" (n_bool n) = Some true) /\
  option_map (map e_id) (n_endpoints n') = Some [1%Z; 2%Z] /\ mget "on" (n_bool n') = Some false.
Proof.
  destruct (wrun (wstart false [saved_node]) typed_run) as [[[[w tr] o]| |]|] eqn:E; try (vm_compute in E; discriminate E).
  destruct (wrun w later_run) as [[[[w' tr'] o']| |]|] eqn:S.
  2-4: exfalso; vm_compute in E; injection E as <- <- <-; vm_compute in S; discriminate S.
  exists typed_run, w, tr, o, later_run, w', tr', o'. vm_compute in E. injection E as <- <- <-. vm_compute in S. injection S as <- <- <-.
  do 2 eexists. split; [vm_compute; reflexivity|]. split; [vm_compute; reflexivity|]. split; [vm_compute; reflexivity|].
  split; [vm_compute; reflexivity|]. vm_compute. repeat split; try reflexivity; discriminate.
Qed.

(** Node 5 is identified; after that its switch is reported off, and it has still returned. *)
Lemma through_and_reported : exists ls w tr o ls' w1 tr1 o1 n1,
  wrun (wstart false []) ls = Some (Ok (w, tr, o)) /\ returned w x05 /\ wrun w ls' = Some (Ok (w1, tr1, o1)) /\
  stages tr = [None; Some 0; Some 1; Some 2; Some 3] /\ stages tr1 = [] /\
  node_of (w_sys w1) x05 = Some n1 /\ mget "on" (n_bool n1) = Some false.
Proof.
  destruct (wrun (wstart false []) identify) as [[[[w tr] o]| |]|] eqn:E; try (vm_compute in E; discriminate E).
  set (ls' := map WSys (frame_in off_frame [] ++ [YConn (LCallback 2)])).
  destruct (wrun w ls') as [[[[w1 tr1] o1]| |]|] eqn:S.
  2-4: exfalso; vm_compute in E; injection E as <- <- <-; vm_compute in S; discriminate S.
  exists identify, w, tr, o, ls', w1, tr1, o1. vm_compute in E. injection E as <- <- <-. vm_compute in S. injection S as <- <- <-.
  eexists. split; [vm_compute; reflexivity|]. split; [eexists; split; vm_compute; reflexivity|]. split; [vm_compute; reflexivity|].
  vm_compute. repeat split; reflexivity.
Qed.
