(** Executions in which an application is, or is not, told of a change. *)
From Verif Require Import ModelBase ModelReports ModelSerial ModelNodes ModelList DataDevices ModelDatabase ModelIdentify.
From Verif Require Import ModelController ModelConnection ModelSystem ModelWhole.
From Verif Require Import SpecController SpecIdentify SpecSystem SpecWhole SpecSilent.
From Verif Require Import ProofWitness ProofDiscovery ProofWholeRuns ProofKnownRuns.

(** Eleven nodes in the file, node 5 last: the queue is full before the switch of node 5 goes off. *)
Definition eleven : list node := map new_node [2; 3; 4; 6; 7; 8; 9; 10; 11; 12; 5]%Z.
Definition switched_off : list wlabel := map WSys (frame_in off_frame [] ++ [YConn (LCallback 0)]).
Definition reads (k : nat) : list wlabel := map WSys (repeat (YCtl CRead) k).
Lemma event_lost : exists ls w tr o ls' w' tr' o' n n',
  wrun (wstart false eleven) ls = Some (Ok (w, tr, o)) /\ wrun w ls' = Some (Ok (w', tr', o')) /\
  node_of (w_sys w) x05 = Some n /\ node_of (w_sys w') x05 = Some n' /\
  no_news x05 (received o') /\ waiting_events w' = [] /\
  mget "on" (n_bool n) = None /\ mget "on" (n_bool n') = Some false.
Proof.
  destruct (wrun (wstart false eleven) (discover list_frame 0)) as [[[[w tr] o]| |]|] eqn:E; try (vm_compute in E; discriminate E).
  destruct (wrun w (switched_off ++ reads 10)) as [[[[w' tr'] o']| |]|] eqn:S.
  2-4: exfalso; vm_compute in E; injection E as <- <- <-; vm_compute in S; discriminate S.
  exists (discover list_frame 0), w, tr, o, (switched_off ++ reads 10), w', tr', o'. do 2 eexists. split; [exact E|]. split; [exact S|].
  clear - E S. vm_compute in E. injection E as <- <- <-. vm_compute in S. injection S as <- <- <-.
  split; [vm_compute; reflexivity|]. split; [vm_compute; reflexivity|]. split; [|vm_compute; auto].
  unfold no_news. cbn. intuition discriminate.
Qed.

(** The endpoints of node 5 have just become known; Identify starts its next round. *)
Definition round_run : list wlabel :=
  discover list_frame 1 ++ [WGo 5] ++ map WSys (sent 1 [] ++ frame_in info_frame [1]) ++ [WAnswer 5; WGo 5; WGo 5] ++
  map WSys (sent 2 [] ++ frame_in ms_frame [2]) ++ [WAnswer 5; WGo 5; WGo 5] ++
  map WSys (sent 3 [] ++ frame_in ep_frame [3]) ++ [WAnswer 5].
Lemma classes_go : exists ls w tr o w' tr' o' n n',
  wrun (wstart false []) ls = Some (Ok (w, tr, o)) /\ wstep w (WGo (address x05)) = Some (Ok (w', tr', o')) /\
  node_of (w_sys w) x05 = Some n /\ node_of (w_sys w') x05 = Some n' /\
  pushed o' = [] /\ supports n x31 /\ ~ supports n' x31.
Proof.
  destruct (wrun (wstart false []) round_run) as [[[[w tr] o]| |]|] eqn:E; try (vm_compute in E; discriminate E).
  destruct (wstep w (WGo (address x05))) as [[[[w' tr'] o']| |]|] eqn:S.
  2-4: exfalso; vm_compute in E; injection E as <- <- <-; vm_compute in S; discriminate S.
  exists round_run, w, tr, o, w', tr', o'. do 2 eexists. split; [exact E|]. split; [exact S|].
  clear - E S. vm_compute in E. injection E as <- <- <-. vm_compute in S. injection S as <- <- <-.
  split; [vm_compute; reflexivity|]. split; [vm_compute; reflexivity|]. split; [reflexivity|]. split.
  - do 2 eexists. split; [reflexivity|]. split; [do 11 right; left; reflexivity|reflexivity].
  - intros (cs & k & H & I & C). cbn [n_classes] in H. injection H as <-.
    repeat (destruct I as [<-|I]; [discriminate C|]). destruct I.
Qed.

(** Nodes 5 and 6; the switch of node 5 goes off, and all events are read. *)
Lemma other_told : exists ls w tr o ls' w' tr' o' n5 n5' n6,
  wrun (wstart false []) ls = Some (Ok (w, tr, o)) /\ wrun w ls' = Some (Ok (w', tr', o')) /\
  nothing_lost w o' w' /\ no_news x06 (received o') /\ no_news x06 (waiting_events w') /\ node_of (w_sys w) x06 = Some n6 /\
  received o' = [EDiscovered 5; EDiscovered 6; EUpdated 5] /\
  node_of (w_sys w) x05 = Some n5 /\ node_of (w_sys w') x05 = Some n5' /\
  mget "on" (n_bool n5) = None /\ mget "on" (n_bool n5') = Some false.
Proof.
  destruct (wrun (wstart false []) (discover list_frame2 2)) as [[[[w tr] o]| |]|] eqn:E; try (vm_compute in E; discriminate E).
  destruct (wrun w (switched_off ++ reads 3)) as [[[[w' tr'] o']| |]|] eqn:S.
  2-4: exfalso; vm_compute in E; injection E as <- <- <-; vm_compute in S; discriminate S.
  exists (discover list_frame2 2), w, tr, o, (switched_off ++ reads 3), w', tr', o'. do 3 eexists. split; [exact E|]. split; [exact S|].
  clear - E S. vm_compute in E. injection E as <- <- <-. vm_compute in S. injection S as <- <- <-.
  split; [reflexivity|]. split; [unfold no_news; cbn; intuition discriminate|]. split; [intros []|].
  split; [vm_compute; reflexivity|]. split; [reflexivity|]. split; [vm_compute; reflexivity|]. split; [vm_compute; reflexivity|].
  split; reflexivity.
Qed.

(** Node 5 is found; it has not answered anything, and no save is due. *)
Lemma found_not_saved : exists ls w tr o n,
  wrun (wstart true []) ls = Some (Ok (w, tr, o)) /\ nothing_due w /\ saves o = [] /\ node_of (w_sys w) x05 = Some n.
Proof.
  destruct (wrun (wstart true []) (discover list_frame 1)) as [[[[w tr] o]| |]|] eqn:E; try (vm_compute in E; discriminate E).
  exists (discover list_frame 1), w, tr, o. eexists. split; [exact E|].
  clear - E. vm_compute in E. injection E as <- <- <-. split; [split; reflexivity|]. split; vm_compute; reflexivity.
Qed.
(** The switch of node 5 goes off; ten seconds later this is saved. *)
Definition to_save : list wlabel :=
  discover list_frame 1 ++ switched_off ++ map WSys [YCtl CTrigger; YCtl (CTick 10000)].
Lemma switch_saved : exists ls w tr o w1 ev o1 s n ls' w' tr' o',
  wrun (wstart true []) ls = Some (Ok (w, tr, o)) /\ wstep w (WSys (YCtl CTimeout)) = Some (Ok (w1, ev, o1)) /\ In (COSave s) o1 /\
  wrun w1 ls' = Some (Ok (w', tr', o')) /\ saves o' = [] /\ nothing_due w' /\
  zlookup (address x05) s = Some n /\ mget "on" (n_bool n) = Some false.
Proof.
  destruct (wrun (wstart true []) to_save) as [[[[w tr] o]| |]|] eqn:E; try (vm_compute in E; discriminate E).
  destruct (wstep w (WSys (YCtl CTimeout))) as [[[[w1 ev] o1]| |]|] eqn:S.
  2-4: exfalso; vm_compute in E; injection E as <- <- <-; vm_compute in S; discriminate S.
  destruct (wrun w1 (map WSys [YCtl CSaved; YCtl CRead])) as [[[[w' tr'] o']| |]|] eqn:R.
  2-4: exfalso; vm_compute in E; injection E as <- <- <-; vm_compute in S; injection S as <- <- <-; vm_compute in R; discriminate R.
  exists to_save, w, tr, o, w1, ev, o1. do 2 eexists. exists (map WSys [YCtl CSaved; YCtl CRead]), w', tr', o'.
  split; [exact E|]. split; [exact S|].
  vm_compute in E. injection E as <- <- <-. vm_compute in S. injection S as <- <- <-.
  split; [left; reflexivity|]. split; [exact R|]. vm_compute in R. injection R as <- <- <-.
  split; [reflexivity|]. split; [split; reflexivity|]. split; vm_compute; reflexivity.
Qed.
(** The file names node 5, with its switch on; nothing is said about it later. *)
Lemma file_node_shown : exists ls w tr o n, wrun (wstart true [saved_node]) ls = Some (Ok (w, tr, o)) /\ saves o = [] /\ nothing_due w /\
  node_of (w_sys (wstart true [saved_node])) x05 = Some n /\ mget "on" (n_bool n) = Some true /\ tr <> [].
Proof.
  destruct (wrun (wstart true [saved_node]) (discover list_frame 0 ++ [WGo 5%Z])) as [[[[w tr] o]| |]|] eqn:E; try (vm_compute in E; discriminate E).
  exists (discover list_frame 0 ++ [WGo 5%Z]), w, tr, o. eexists. split; [exact E|].
  clear - E. vm_compute in E. injection E as <- <- <-. split; [reflexivity|]. split; [split; reflexivity|].
  split; [vm_compute; reflexivity|]. split; [vm_compute; reflexivity|discriminate].
Qed.
