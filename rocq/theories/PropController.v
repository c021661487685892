(** Properties of the controller: events, loading, saving, discovery, start-up. *)
From Verif Require Import ModelBase ModelReports ModelSerial ModelNodes ModelList ModelController.
From Verif Require Import SpecNodes SpecController ProofController.

Definition cend (st : cst) (ls : list clabel) : cst * list cobs :=
  match crun st ls with Some (Ok p) => p | _ => (st, []) end.
Lemma cend_ok st ls : (match crun st ls with Some (Ok _) => true | _ => false end) = true ->
  crun st ls = Some (Ok (cend st ls)).
Proof. unfold cend. destruct (crun st ls) as [[p|?|]|]; try discriminate. reflexivity. Qed.

(** ** C39: the event queue *)
Theorem C39_queue_is_fifo : forall file ns ls st o,
  crun (loaded file ns) ls = Some (Ok (st, o)) ->
  List.length (c_queue st) <= 10 /\
  exists keep, List.length keep = List.length (pushed (announced ns ++ o)) /\
    received (announced ns ++ o) ++ c_queue st = chosen keep (pushed (announced ns ++ o)) /\
    forall p e s, announced ns ++ o = p ++ COPush e :: s ->
      (nth (List.length (pushed p)) keep true = false <->
       List.length (chosen keep (pushed p)) = List.length (received p) + 10).
Proof. exact queue_history. Qed.
Print Assumptions C39_queue_is_fifo.
(** Nothing that publishes can be stopped by a full queue or by pending saves. *)
Theorem C39_publishing_never_blocks : forall st l q t, l <> CRead -> l <> CTrigger ->
  (cstep st l = None <-> cstep (congested st q t) l = None).
Proof. exact never_blocks. Qed.
Print Assumptions C39_publishing_never_blocks.

(** Twelve reports and one read: two events are lost, the rest arrives in order. *)
Definition node_on_report : clabel := CReport x05 (RSwitchBinary1 true true).
Example C39_example : exists st o,
  crun (loaded true [new_node 5]) (repeat node_on_report 10 ++ [CRead; node_on_report; CRead]) =
    Some (Ok (st, o)) /\
  received o = [EDiscovered 5; EUpdated 5] /\ List.length (c_queue st) = 9 /\
  List.length (pushed o) = 11.
Proof.
  set (ls := _ ++ _).
  exists (fst (cend (loaded true [new_node 5]) ls)), (snd (cend (loaded true [new_node 5]) ls)).
  split; [rewrite <- surjective_pairing; apply cend_ok; vm_compute; reflexivity|].
  repeat split; vm_compute; reflexivity.
Qed.
Example C39_blocks_example :
  cstep (congested (loaded true [new_node 5]) (repeat (EUpdated 5) 10) 7) node_on_report <> None.
Proof. vm_compute. discriminate. Qed.

(** ** C40: loaded nodes are announced *)

(** Eleven nodes: the queue holds ten. *)
Theorem C40_all_announced_refuted : exists ns id, NoDup (map n_id ns) /\
  In id (map n_id ns) /\ ~ In (EDiscovered id) (c_queue (loaded true ns)).
Proof.
  exists (map (fun i => new_node (Z.of_nat i)) (seq 2 11)), 12%Z.
  split; [vm_compute; repeat constructor; cbn; intuition discriminate|].
  split; [vm_compute; auto 20|]. vm_compute. intuition discriminate.
Qed.
Print Assumptions C40_all_announced_refuted.
(** Up to ten nodes are announced, in the order of loading; all are known. *)
Theorem C40_announced_partial : forall file ns, List.length ns <= 10 ->
  c_queue (loaded file ns) = map (fun n => EDiscovered (n_id n)) ns.
Proof. intros file ns L. exact (load_queue ns (new_controller file) L). Qed.
Print Assumptions C40_announced_partial.
Theorem C40_all_known : forall file ns id,
  knows (loaded file ns) id <-> In id (map n_id ns).
Proof.
  intros file ns id. unfold loaded. rewrite load_known. unfold knows. cbn. tauto.
Qed.
Print Assumptions C40_all_known.
Example C40_example : c_queue (loaded true [new_node 7; new_node 3]) = [EDiscovered 7; EDiscovered 3].
Proof. reflexivity. Qed.

(** ** C41: saving *)

(** An update that arrives just before a save also causes a second save: nothing
    was updated between the two. *)
Definition two_saves : list clabel :=
  [CConnected; node_on_report; CTrigger; CTick 10000; node_on_report; CTimeout; CSaved;
   CTrigger; CTick 10000; CTimeout].
Theorem C41_save_needs_new_update_refuted : exists st o a b c s1 s2,
  crun (loaded true [new_node 5]) two_saves = Some (Ok (st, o)) /\
  o = a ++ COSave s1 :: b ++ COSave s2 :: c /\ updates b = 0.
Proof.
  exists (fst (cend (loaded true [new_node 5]) two_saves)), (snd (cend (loaded true [new_node 5]) two_saves)).
  exists [COPush (EUpdated 5); COPush (EUpdated 5)], [], []. do 2 eexists.
  split; [rewrite <- surjective_pairing; apply cend_ok; vm_compute; reflexivity|].
  split; [vm_compute; reflexivity|reflexivity].
Qed.
Print Assumptions C41_save_needs_new_update_refuted.
(** Every run, so also every beginning of a run, has at most as many saves as
    updates. *)
Theorem C41_saves_bounded_partial : forall file ns ls st o,
  crun (loaded file ns) ls = Some (Ok (st, o)) -> List.length (saves o) <= updates o.
Proof. exact saves_le_updates. Qed.
Print Assumptions C41_saves_bounded_partial.
(** Two saves are at least ten seconds apart. *)
Theorem C41_saves_apart : forall st ls st1 o ns st2, c_deb st = DSaving ->
  crun st ls = Some (Ok (st1, o)) -> cstep st1 CTimeout = Some (Ok (st2, [COSave ns])) ->
  (10000 <= elapsed ls)%N.
Proof. exact saves_apart. Qed.
Print Assumptions C41_saves_apart.
Theorem C41_no_file_no_save : forall ns ls st o,
  crun (loaded false ns) ls = Some (Ok (st, o)) -> saves o = [].
Proof.
  intros ns ls st o. apply no_file_no_save. apply (load_trig false ns).
Qed.
Print Assumptions C41_no_file_no_save.
(** An update followed by more than ten quiet seconds is saved, with every node
    as it then is. *)
Theorem C41_quiet_is_saved : forall ns l1 st1 o1 l st ou l2 st2 o2 t,
  crun (loaded true ns) l1 = Some (Ok (st1, o1)) -> In CConnected l1 ->
  cstep st1 l = Some (Ok (st, ou)) -> updates ou > 0 ->
  crun st l2 = Some (Ok (st2, o2)) -> prompt st l2 -> idle_time st l2 t -> (10000 < t)%N ->
  updates o2 = 0 ->
  exists s, In (COSave s) o2 /\
    forall id, knows st id -> (forall x, In x l2 -> ~ touches id x) ->
      zlookup id s = zlookup id (c_nodes st).
Proof. exact quiet_is_saved. Qed.
Print Assumptions C41_quiet_is_saved.

(** An update during a save, then quiet. *)
Lemma prompt_run st l st1 o r :
  match l with CTick d => calm st d | _ => True end ->
  cstep st l = Some (Ok (st1, o)) -> prompt st1 r -> prompt st (l :: r).
Proof. apply prompt_cons. Qed.
Definition before_update : list clabel := [CConnected; node_on_report; CTrigger; CTick 10000; CTimeout].
Definition after_update : list clabel :=
  [CTick 700; CSaved; CTrigger; CTick 4000; CRead; CTick 6000; CTimeout; CSaved; CTick 50].
Definition at_update : cst :=
  fst (cend (loaded true [new_node 5]) (before_update ++ [node_on_report])).
Lemma idle_run st l st1 o r t d :
  cstep st l = Some (Ok (st1, o)) -> idle_time st1 r t ->
  d = match l with CTick d => match c_deb st with DSaving => 0%N | _ => d end | _ => 0%N end ->
  idle_time st (l :: r) (d + t).
Proof. apply idle_cons. Qed.
Example C41_example :
  let st1 := fst (cend (loaded true [new_node 5]) before_update) in
  (exists o1, crun (loaded true [new_node 5]) before_update = Some (Ok (st1, o1))) /\
  In CConnected before_update /\
  cstep st1 node_on_report = Some (Ok (at_update, [COPush (EUpdated 5)])) /\
  (exists st2 o2, crun at_update after_update = Some (Ok (st2, o2)) /\ updates o2 = 0) /\
  prompt at_update after_update /\ idle_time at_update after_update 10050.
Proof.
  split; [eexists; vm_compute; reflexivity|]. split; [now left|]. split; [vm_compute; reflexivity|].
  split; [do 2 eexists; split; vm_compute; reflexivity|]. split.
  - unfold after_update.
    repeat (eapply prompt_run; [vm_compute; repeat split; discriminate|vm_compute; reflexivity|]).
    constructor.
  - unfold after_update. change 10050%N with (0 + (0 + (0 + (4000 + (0 + (6000 + (0 + (0 + (50 + 0)))))))))%N.
    repeat (eapply idle_run; [vm_compute; reflexivity| |vm_compute; reflexivity]). constructor.
Qed.

(** ** C42: discovery *)
Theorem C42_discovery : forall file ns l1 st1 o1 m bm st2 o2 l2 st3 o3,
  crun (loaded file ns) l1 = Some (Ok (st1, o1)) ->
  m_data m = Some (PNodes bm) -> cstep st1 (CAnswer (Some m)) = Some (Ok (st2, o2)) ->
  crun st2 l2 = Some (Ok (st3, o3)) -> c_disc st3 = DcDone ->
  (forall id, knows st3 id <-> knows st1 id \/ (2 <= id)%Z /\ active_in bm id) /\
  increasing (identifies o3) /\
  (forall id, In id (identifies o3) <-> (2 <= id)%Z /\ active_in bm id) /\
  increasing (discovered o3) /\
  (forall id, In id (discovered o3) <-> (2 <= id)%Z /\ active_in bm id /\ ~ knows st1 id) /\
  (forall id, knows st1 id -> (forall l, In l l2 -> ~ touches id l) ->
     zlookup id (c_nodes st3) = zlookup id (c_nodes st1)).
Proof. exact discovery_result. Qed.
Print Assumptions C42_discovery.
(** It needs nothing else to come to its end. *)
Theorem C42_discovery_ends : forall rest st i, c_disc st = DcLoop i rest ->
  exists k st' o, k <= 3 * List.length rest + 1 /\
    crun st (repeat CDisc k) = Some (Ok (st', o)) /\ c_disc st' = DcDone.
Proof. exact discovery_ends. Qed.
Print Assumptions C42_discovery_ends.
(** Controller, one known and one new node, with a report in between. *)
Definition answer (bm : list bool) : clabel :=
  CAnswer (Some (mkMessage x25 x01 x02 x00 x01 (Some (PNodes bm)))).
Definition discovery_run : list clabel :=
  repeat CDisc 3 ++ [CReport x05 (RSwitchBinary1 true true)] ++ repeat CDisc 5.
Example C42_example :
  let st1 := with_deb (with_disc (loaded true [new_node 3]) DcAsked) 0 DWait in
  let st2 := with_disc st1 (DcLoop 0 [true; false; true; false; true]) in
  crun (loaded true [new_node 3]) [CConnected] = Some (Ok (st1, [])) /\
  cstep st1 (answer [true; false; true; false; true]) = Some (Ok (st2, [])) /\
  exists st3 o3, crun st2 discovery_run = Some (Ok (st3, o3)) /\ c_disc st3 = DcDone /\
    identifies o3 = [3; 5]%Z /\ discovered o3 = [5]%Z /\ map fst (c_nodes st3) = [3; 5]%Z.
Proof.
  cbv zeta. split; [reflexivity|]. split; [reflexivity|].
  do 2 eexists. split; [vm_compute; reflexivity|]. repeat split; vm_compute; reflexivity.
Qed.

(** ** C72: an unanswered discovery is repeated *)
Theorem C72_discovery_retried_refuted : exists st o,
  crun (loaded true []) [CConnected; CAnswer None] = Some (Ok (st, o)) /\
  forall ls st' o', crun st ls = Some (Ok (st', o')) -> (forall id, ~ knows st' id) /\ identifies o' = [].
Proof.
  set (st := fst (cend (loaded true []) [CConnected; CAnswer None])).
  assert (E : crun (loaded true []) [CConnected; CAnswer None] = Some (Ok (st, []))) by reflexivity.
  exists st, []. split; [exact E|]. intros ls st' o' R.
  destruct (discovery_over ls st st' o') as (_ & K & I); auto.
  - eapply cinv_run. exact E.
  - split; [|exact I]. intros id X. apply K in X. cbn in X. exact X.
Qed.
Print Assumptions C72_discovery_retried_refuted.
(** In general: after the one attempt no node is ever added. *)
Theorem C72_discovery_once : forall file ns l1 st o, crun (loaded file ns) l1 = Some (Ok (st, o)) ->
  c_disc st = DcDone -> forall l2 st' o', crun st l2 = Some (Ok (st', o')) ->
  c_disc st' = DcDone /\ (forall id, knows st' id <-> knows st id) /\ identifies o' = [].
Proof.
  intros file ns l1 st o R D l2 st' o' R'. eapply discovery_over; eauto. eapply cinv_run. exact R.
Qed.
Print Assumptions C72_discovery_once.
Example C72_example : exists st o st' o',
  crun (loaded true [new_node 5]) [CConnected; CAnswer None] = Some (Ok (st, o)) /\ c_disc st = DcDone /\
  crun st [CReconnect; node_on_report; CTick 60000; CReconnect] = Some (Ok (st', o')).
Proof. do 4 eexists. split; [vm_compute; reflexivity|]. split; vm_compute; reflexivity. Qed.

(** ** C73: a report for a node never crashes the process *)

(** The report arrives between Nodes.Add and node.Setup. *)
Theorem C73_report_during_discovery_refuted : exists ls st o b r,
  crun (loaded true []) ls = Some (Ok (st, o)) /\ cstep st (CReport b r) = Some Panic /\
  forall id n, zlookup id (c_nodes st) = Some n -> has_maps n.
Proof.
  exists [CConnected; answer [true; true]; CDisc; CDisc; CDisc].
  do 2 eexists. exists x02, (RSwitchBinary1 true true).
  split; [vm_compute; reflexivity|]. split; [vm_compute; reflexivity|].
  intros id n. cbn. destruct (Z.eqb_spec id 2); [|discriminate]. intros E. injection E as <-.
  split; discriminate.
Qed.
Print Assumptions C73_report_during_discovery_refuted.
(** That is the only window, given state maps. *)
Theorem C73_no_crash_partial : forall file ns ls st o l r,
  crun (loaded file ns) ls = Some (Ok (st, o)) -> cstep st l = Some r ->
  (forall id, touches id l -> ~ half_discovered st id /\
     forall n, zlookup id (c_nodes st) = Some n -> has_maps n) ->
  exists x, r = Ok x.
Proof. exact no_crash. Qed.
Print Assumptions C73_no_crash_partial.
Example C73_example : exists st o,
  crun (loaded true []) [CConnected; answer [true; true; true]; CDisc; CDisc; CDisc; CDisc; CDisc] = Some (Ok (st, o)) /\
  half_discovered st 3 /\ (~ half_discovered st 2) /\
  (forall n, zlookup 2 (c_nodes st) = Some n -> has_maps n) /\
  exists x, cstep st (CReport x02 (RSwitchBinary1 true true)) = Some (Ok x).
Proof.
  do 2 eexists. split; [vm_compute; reflexivity|].
  split; [exists 2, []; split; [left; reflexivity|reflexivity]|].
  split; [intros (i & r & [D|D] & E); cbn in D; [injection D as <- <-; discriminate E|discriminate]|].
  split; [intros n E; injection E as <-; split; discriminate|].
  eexists. vm_compute. reflexivity.
Qed.

(** ** C74: a failed Connect leaves the port alone *)
Theorem C74_port_opened_after_failure_refuted : exists ls st a b,
  srun sinit ls = Some (st, a ++ SOReturned false :: b) /\ In SOOpened b.
Proof.
  exists [SMainWaits; SOpenFails; SOpens], (mkS SOpen 1 MErr), [], [SOOpened].
  split; [reflexivity|now left].
Qed.
Print Assumptions C74_port_opened_after_failure_refuted.
(** The call returns at most once, with an error only if an Open failed. *)
Theorem C74_result_partial : forall ls st o a b r, srun sinit ls = Some (st, o) ->
  o = a ++ SOReturned r :: b ->
  (forall x, ~ In (SOReturned x) (a ++ b)) /\
  (r = true -> In SOOpened a) /\ (r = false -> In SOpenFails ls).
Proof. exact start_result. Qed.
Print Assumptions C74_result_partial.
Example C74_example : exists st,
  srun sinit [SOpenFails; SMainWaits; SOpens; SReadFails; SOpens; SNotice; SNotice] =
    Some (st, [SOOpened; SOClosed; SOOpened; SOReturned true]).
Proof. eexists. reflexivity. Qed.

(** ** C75: Connect succeeds only with an open port *)
Theorem C75_success_means_open_refuted : exists ls st o,
  srun sinit ls = Some (st, o ++ [SOReturned true]) /\ s_port st = SClosed.
Proof.
  exists [SMainWaits; SOpens; SReadFails; SNotice], (mkS SClosed 0 MOk), [SOOpened; SOClosed].
  split; reflexivity.
Qed.
Print Assumptions C75_success_means_open_refuted.
Theorem C75_opened_before_partial : forall ls st o a b, srun sinit ls = Some (st, o) ->
  o = a ++ SOReturned true :: b -> In SOOpened a.
Proof. intros ls st o a b E F. now apply (start_result _ _ _ _ _ _ E F). Qed.
Print Assumptions C75_opened_before_partial.
Example C75_example : exists st,
  srun sinit [SMainWaits; SOpens; SNotice] = Some (st, [SOOpened] ++ SOReturned true :: []).
Proof. eexists. reflexivity. Qed.
