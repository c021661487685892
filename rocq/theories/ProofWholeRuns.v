(** Executions of the whole program. *)
From Verif Require Import ModelBase ModelReports ModelSerial ModelCommands ModelNodes ModelList DataDevices ModelDatabase.
From Verif Require Import ModelIdentify ModelController ModelConnection ModelSystem ModelWhole.
From Verif Require Import SpecFrame SpecDecode SpecMessage SpecConnection SpecIdentify SpecController SpecNodes SpecSystem SpecWhole.
From Verif Require Import ProofBase ProofSerial ProofConnection ProofController ProofSystem ProofWitness ProofDiscovery ProofDelivery ProofWhole ProofWholeWait.
From Coq Require Import Lia.

(** Nodes 1, 5 and 6. *)
Definition list_frame2 : list byte := [x01; x25; x01; x02; x05; x00; x1d; x31] ++ repeat x00 28 ++ [x03; x01; xf2].
(** Manufacturer 129, product type 160, product 1; endpoints 1 and 2. *)
Definition ms_frame : list byte := [x01; x0e; x00; x04; x00; x05; x08; x72; x05; x00; x81; x00; xa0; x00; x01; xaf].
Definition ep_frame : list byte := [x01; x0a; x00; x04; x00; x05; x04; x60; x08; x40; x03; xdb].

(** The controller acknowledges command [i] while [others] await answers. *)
Definition acked (i : nat) (others : list nat) : list ylabel :=
  [YConn (LRead false [x06] 64); YConn (LIter [] [])] ++ map (fun j => YConn (LVisit j None)) others ++
  [YConn (LVisit i (Some 0)); YConn LControlEnd; YConn (LIter [] []); YConn (LFinish 0)].
Definition sent (i : nat) (others : list nat) : list ylabel := [YConn (LTake 0); YConn (LFetch i)] ++ acked i others.
Definition frame_in (f : list byte) (accepts : list nat) : list ylabel :=
  [YConn (LRead false f 64); YConn (LIter [] accepts); YConn (LIter [] [])].
Definition discover (f : list byte) (news : nat) : list wlabel :=
  map WSys (ask_labels ++ ack_labels ++ receive f ++ [YConn (LIter [] [])] ++ repeat (YCtl CDisc) (233 + 2 * news)).
(** One answer while the types of nodes 5 and 6 are awaited. *)
Definition two_types : list wlabel :=
  discover list_frame2 2 ++ [WGo 5; WGo 6] ++ map WSys (sent 1 [] ++ sent 2 [1] ++ frame_in info_frame [1; 2]) ++
  [WAnswer 5; WAnswer 6].
(** Node 5 is found and identified. *)
Definition identify : list wlabel :=
  discover list_frame 1 ++ [WGo 5] ++ map WSys (sent 1 [] ++ frame_in info_frame [1]) ++ [WAnswer 5; WGo 5; WGo 5] ++
  map WSys (sent 2 [] ++ frame_in ms_frame [2]) ++ [WAnswer 5; WGo 5; WGo 5] ++
  map WSys (sent 3 [] ++ frame_in ep_frame [3]) ++ [WAnswer 5; WGo 5; WGo 5; WGo 5] ++ repeat (WGo 5) 5 ++
  map WSys ([YConn (LTake 0)] ++ acked 4 []) ++ repeat (WGo 5) 7.
(** The answer is processed before Identify of node 5 has read its channel. *)
Definition too_early : list wlabel :=
  discover list_frame 1 ++ [WGo 5] ++
  map WSys ([YConn (LTake 0)] ++ acked 1 [] ++ frame_in info_frame [] ++ [YConn (LFetch 1)]).
(** The type of node 5 is awaited. *)
Definition waiting : list wlabel := discover list_frame 1 ++ [WGo 5] ++ map WSys (sent 1 []).

Lemma contained : Forall self_contained [list_frame2; info_frame; ms_frame; ep_frame].
Proof.
  assert (L : forall f, frame f -> (10 <= List.length f)%nat -> byte_at f 3 = 4%N ->
    (2 <= byte_at f 6 <= 248)%N -> (7 + byte_at f 6 <= N.of_nat (List.length f))%N -> self_contained f).
  { intros f F H1 H2 H3 H4. split; [exact F|]. rewrite H2. repeat split; try lia; try discriminate. }
  assert (L2 : forall f, frame f -> (10 <= List.length f)%nat -> byte_at f 3 = 2%N ->
    (byte_at f 6 <= 29)%N -> (7 + byte_at f 6 <= N.of_nat (List.length f))%N -> self_contained f).
  { intros f F H1 H2 H3 H4. split; [exact F|]. rewrite H2. repeat split; try lia; try discriminate. }
  assert (L3 : forall f, frame f -> (10 <= List.length f)%nat -> byte_at f 3 = 65%N -> self_contained f).
  { intros f F H1 H2. split; [exact F|]. rewrite H2. repeat split; try lia; try discriminate. }
  repeat apply Forall_cons; [apply L2|apply L3|apply L|apply L|apply Forall_nil]; try (eapply frame_compute; reflexivity);
    vm_compute; try lia; try reflexivity; try (split; discriminate); discriminate.
Qed.

Lemma wrun_witness w0 ls (P : whole -> list event -> list cobs -> Prop) :
  match wrun w0 ls with Some (Ok (w, tr, o)) => P w tr o | _ => False end ->
  exists ls w tr o, wrun w0 ls = Some (Ok (w, tr, o)) /\ P w tr o.
Proof.
  destruct (wrun w0 ls) as [[[[w tr] o]| |]|] eqn:E; try (intros []). intros H. exists ls, w, tr, o. auto.
Qed.

Definition has_type (n : node) : bool := match n_info n with Some _ => true | None => false end.

Lemma one_answer_two_types : exists ls w tr o, wrun (wstart false []) ls = Some (Ok (w, tr, o)) /\
  (c_crashed (y_conn (w_sys w)) = false /\ Forall self_contained (frames_taken tr) /\
   frames_taken tr = [list_frame2; info_frame] /\ info_of list_frame2 = None /\
   exists n5 n6 pi, node_of (w_sys w) x05 = Some n5 /\ node_of (w_sys w) x06 = Some n6 /\
     n_info n5 = Some pi /\ n_info n6 = Some pi).
Proof.
  apply (wrun_witness _ two_types (fun w tr o => c_crashed (y_conn (w_sys w)) = false /\ Forall self_contained (frames_taken tr) /\
   frames_taken tr = [list_frame2; info_frame] /\ info_of list_frame2 = None /\
   exists n5 n6 pi, node_of (w_sys w) x05 = Some n5 /\ node_of (w_sys w) x06 = Some n6 /\
     n_info n5 = Some pi /\ n_info n6 = Some pi)).
  destruct (wrun (wstart false []) two_types) as [[[[w tr] o]| |]|] eqn:E; try (vm_compute in E; discriminate).
  assert (FT : frames_taken tr = [list_frame2; info_frame]) by (vm_compute in E; injection E as <- <- <-; reflexivity).
  split; [vm_compute in E; injection E as <- <- <-; reflexivity|]. rewrite FT. pose proof contained as C.
  rewrite Forall_forall in C. split; [apply Forall_forall; intros f I; apply C; destruct I as [<-|[<-|[]]]; [left; reflexivity|right; left; reflexivity]|].
  split; [reflexivity|]. split; [vm_compute; reflexivity|].
  vm_compute in E. injection E as <- <- <-. do 3 eexists. vm_compute. repeat split; reflexivity.
Qed.

Lemma identified_run : exists ls w tr o, wrun (wstart false []) ls = Some (Ok (w, tr, o)) /\
  (c_crashed (y_conn (w_sys w)) = false /\ Forall self_contained (frames_taken tr) /\
   frames_taken tr = [list_frame; info_frame; ms_frame; ep_frame] /\
   exists n, node_of (w_sys w) x05 = Some n /\ n_identified n = true /\ n_ms n = Some (mkMS "0081" "00a0" "0001")%string /\
     names n = ("SIEGENIA-AUBI KG", "Sensoair", "Air quality sensor for indoor use")%string /\
     option_map (map e_id) (n_endpoints n) = Some [1%Z; 2%Z] /\ has_type n = true).
Proof.
  apply (wrun_witness _ identify (fun w tr o => c_crashed (y_conn (w_sys w)) = false /\ Forall self_contained (frames_taken tr) /\
   frames_taken tr = [list_frame; info_frame; ms_frame; ep_frame] /\
   exists n, node_of (w_sys w) x05 = Some n /\ n_identified n = true /\ n_ms n = Some (mkMS "0081" "00a0" "0001")%string /\
     names n = ("SIEGENIA-AUBI KG", "Sensoair", "Air quality sensor for indoor use")%string /\
     option_map (map e_id) (n_endpoints n) = Some [1%Z; 2%Z] /\ has_type n = true)).
  destruct (wrun (wstart false []) identify) as [[[[w tr] o]| |]|] eqn:E; try (vm_compute in E; discriminate).
  assert (FT : frames_taken tr = [list_frame; info_frame; ms_frame; ep_frame]) by (vm_compute in E; injection E as <- <- <-; reflexivity).
  split; [vm_compute in E; injection E as <- <- <-; reflexivity|]. rewrite FT. pose proof contained as C.
  split; [apply Forall_cons; [apply self_contained_more|inversion C; assumption]|].
  split; [reflexivity|].
  vm_compute in E. injection E as <- <- <-. eexists. vm_compute. repeat split; reflexivity.
Qed.

Lemma waiting_run : exists ls w tr o, wrun (wstart false []) ls = Some (Ok (w, tr, o)) /\
  (c_crashed (y_conn (w_sys w)) = false /\ exists j, zlookup (address x05) (w_jobs w) = Some j /\ j_holds j = true /\ j_ans j = None).
Proof.
  apply (wrun_witness _ waiting (fun w tr o => c_crashed (y_conn (w_sys w)) = false /\
    exists j, zlookup (address x05) (w_jobs w) = Some j /\ j_holds j = true /\ j_ans j = None)).
  destruct (wrun (wstart false []) waiting) as [[[[w tr] o]| |]|] eqn:E; try (vm_compute in E; discriminate).
  vm_compute in E. injection E as <- <- <-. split; [reflexivity|]. eexists. vm_compute. repeat split; reflexivity.
Qed.

Lemma never_typed : exists ls w tr o pi, wrun (wstart false []) ls = Some (Ok (w, tr, o)) /\
  (c_crashed (y_conn (w_sys w)) = false /\ Forall self_contained (frames_taken tr) /\ told_type tr x05 pi /\
   forall ls' w' tr' o', wrun w ls' = Some (Ok (w', tr', o')) ->
     exists n, node_of (w_sys w') x05 = Some n /\ n_info n = None).
Proof.
  destruct (wrun (wstart false []) too_early) as [[[[w tr] o]| |]|] eqn:E; try (vm_compute in E; discriminate).
  exists too_early, w, tr, o, (mkPI true true true x04 false false 40000 x04 x10 x01). split; [exact E|].
  assert (FT : frames_taken tr = [list_frame; info_frame]) by (vm_compute in E; injection E as <- <- <-; reflexivity).
  assert (ST : stuck w (address x05) 1).
  { destruct (wrun_yrun _ _ _ _ _ E) as [yl Y]. destruct (yrun_spec _ _ _ _ _ Y) as [_ (cls & CC & _)].
    pose proof (cinv_runs _ _ (cinv_load _ _) _ _ CC) as CI. clear Y CC. split; try exact CI.
    - vm_compute in E. injection E as <- <- <-. eexists. split; [vm_compute; reflexivity|]. repeat split; reflexivity.
    - vm_compute in E. injection E as <- <- <-. eexists. split; [vm_compute; reflexivity|]. reflexivity.
    - vm_compute in E. injection E as <- <- <-. reflexivity.
    - vm_compute in E. injection E as <- <- <-. vm_compute. lia.
    - vm_compute in E. injection E as <- <- <-. vm_compute. intros []. }
  split; [vm_compute in E; injection E as <- <- <-; reflexivity|]. split.
  { rewrite FT. pose proof contained as C. inversion C as [|a l C1 C2]. inversion C2. apply Forall_cons; [apply self_contained_more|].
    apply Forall_cons; [assumption|apply Forall_nil]. }
  split; [|intros ls' w' tr' o' R; apply (sk_node _ _ _ (stuck_run _ _ _ _ _ _ _ ST R))].
  exists info_frame. split; [|vm_compute; reflexivity]. clear ST FT.
  exists (firstn 14 tr), (skipn 14 tr), 1, (info_request (new_node 5)), WaitMessage, true, x00.
  split; [symmetry; apply firstn_skipn|]. vm_compute in E. injection E as <- <- <-.
  split; [vm_compute; tauto|]. split; [reflexivity|]. split; [reflexivity|]. vm_compute. tauto.
Qed.
