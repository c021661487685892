(** Property theorems C122: nodes are announced once, and first. *)
From Verif Require Import ModelBase ModelReports ModelSerial ModelNodes ModelList ModelController.
From Verif Require Import SpecController SpecAnnounce ProofController ProofAnnounce.
Local Open Scope list_scope.

(** A node is announced at most once, it is then in the list, and it was not in
    the file. *)
Theorem C122_announced_once : forall file ns ls st o, crun (loaded file ns) ls = Some (Ok (st, o)) ->
  NoDup (discovered o) /\ forall id, In id (discovered o) -> knows st id /\ ~ In id (map n_id ns).
Proof. exact (fun file ns ls st o R => conj (an_once _ _ _ (ann_run file ns ls st o R)) (an_new _ _ _ (ann_run file ns ls st o R))). Qed.
Print Assumptions C122_announced_once.
(** Every node of the list was in the file, or has been announced, or is about to be. *)
Theorem C122_known_is_announced : forall file ns ls st o id, crun (loaded file ns) ls = Some (Ok (st, o)) ->
  knows st id -> In id (map n_id ns) \/ In id (discovered o) \/ just_added st id.
Proof. exact (fun file ns ls st o id R => an_known _ _ _ (ann_run file ns ls st o R) id). Qed.
Print Assumptions C122_known_is_announced.
(** The announcement is the first event about the node. *)
Theorem C122_announced_first : forall file ns ls st o a id b, crun (loaded file ns) ls = Some (Ok (st, o)) ->
  pushed o = a ++ EUpdated id :: b -> In id (map n_id ns) \/ In (EDiscovered id) a.
Proof. exact (fun file ns ls st o a id b R => an_first _ _ _ (ann_run file ns ls st o R) a id b). Qed.
Print Assumptions C122_announced_first.

(** Node 3 is in the file, node 5 is found; both report. *)
Definition announcing : list clabel :=
  [CConnected; CAnswer (Some (mkMessage x25 x01 x02 x00 x01 (Some (PNodes [true; false; true; false; true]))))] ++
  repeat CDisc 4 ++ [CReport x03 (RSwitchBinary1 true true)] ++ repeat CDisc 4 ++ [CReport x05 (RSwitchBinary1 true true)].
Example C122_example : exists st o, crun (loaded true [new_node 3]) announcing = Some (Ok (st, o)) /\
  pushed o = [EUpdated 3; EDiscovered 5; EUpdated 5] /\ knows st 3 /\ knows st 5.
Proof.
  destruct (crun (loaded true [new_node 3]) announcing) as [[[st o]| |]|] eqn:E; vm_compute in E; try discriminate E.
  injection E as <- <-. eexists. eexists. split; [reflexivity|]. vm_compute. auto.
Qed.
(** Node 5 is in the list and has not been announced yet. *)
Example C122_example_just_added : exists st o,
  crun (loaded true [new_node 3]) (firstn 8 announcing) = Some (Ok (st, o)) /\ knows st 5 /\ ~ In 5%Z (discovered o) /\ just_added st 5.
Proof.
  destruct (crun (loaded true [new_node 3]) (firstn 8 announcing)) as [[[st o]| |]|] eqn:E; vm_compute in E; try discriminate E.
  injection E as <- <-. eexists. eexists. split; [reflexivity|]. split; [vm_compute; auto|]. split; [vm_compute; intuition discriminate|].
  do 2 eexists. split; reflexivity.
Qed.
