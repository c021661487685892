(** A network of two nodes that answer. *)
From Verif Require Import ModelBase ModelReports ModelSerial ModelNodes ModelList DataDevices ModelDatabase ModelIdentify.
From Verif Require Import ModelController ModelConnection ModelSystem ModelWhole.
From Verif Require Import SpecFrame SpecMessage SpecConnection SpecSystem SpecWhole SpecComplete.
From Verif Require Import ProofSerial ProofWitness ProofDiscovery ProofWholeRuns ProofAnswerRuns ProofComplete ProofResume ProofCompleteRuns.
From Coq Require Import Lia.

(** The product and the endpoints of node 6, and that it is awake. *)
Definition ms_frame6 : list byte := [x01; x0e; x00; x04; x00; x06; x08; x72; x05; x00; x81; x00; xa0; x00; x01; xac].
Definition ep_frame6 : list byte := [x01; x0a; x00; x04; x00; x06; x04; x60; x08; x40; x03; xd8].
Definition awake_frame6 : list byte := [x01; x08; x00; x04; x00; x06; x02; x84; x07; x74].
(** Node 5 listens, node 6 sleeps. *)
Definition two_replies (b : byte) : reply_set :=
  match b with
  | x05 => mkReplies info_frame ms_frame ep_frame []
  | _ => mkReplies sleeper_frame ms_frame6 ep_frame6 awake_frame6
  end.
Lemma contained6 : Forall self_contained [ms_frame6; ep_frame6; awake_frame6].
Proof.
  repeat apply Forall_cons; [| | |apply Forall_nil]; (split; [eapply frame_compute; reflexivity|]); vm_compute;
    repeat split; try discriminate; try lia.
Qed.
Lemma two_answer b : In b [x05; x06] -> answers_all b (new_node (address b)) (two_replies b).
Proof.
  pose proof contained6 as C6. rewrite Forall_forall in C6.
  assert (SC : forall f, In f [info_frame; ms_frame; ep_frame; sleeper_frame; awake_frame] -> self_contained f) by exact all_contained.
  intros [<-|[<-|[]]].
  - split; [split; [apply SC; cbn; tauto|eexists; vm_compute; reflexivity]|].
    split; [split; [apply SC; cbn; tauto|do 3 eexists; vm_compute; reflexivity]|].
    split; [split; [apply SC; cbn; tauto|do 3 eexists; vm_compute; reflexivity]|left; vm_compute; reflexivity].
  - split; [split; [apply SC; cbn; tauto|eexists; vm_compute; reflexivity]|].
    split; [split; [apply C6; cbn; tauto|do 3 eexists; vm_compute; reflexivity]|].
    split; [split; [apply C6; cbn; tauto|do 3 eexists; vm_compute; reflexivity]|right; split; [apply C6; cbn; tauto|vm_compute; reflexivity]].
Qed.
Lemma two_nodes_answer : exists ls w tr o, wrun (wstart false []) ls = Some (Ok (w, tr, o)) /\
  (c_crashed (y_conn (w_sys w)) = false /\ c_mode (y_conn (w_sys w)) = RReading /\
   forall b, In b [x05; x06] -> not_begun w b /\ exists n, node_of (w_sys w) b = Some n /\ answers_all b n (two_replies b)).
Proof.
  apply (wrun_witness _ (discover list_frame2 2) (fun w tr o => c_crashed (y_conn (w_sys w)) = false /\ c_mode (y_conn (w_sys w)) = RReading /\
   forall b, In b [x05; x06] -> not_begun w b /\ exists n, node_of (w_sys w) b = Some n /\ answers_all b n (two_replies b))).
  assert (U : match wrun (wstart false []) (discover list_frame2 2) with
    | Some (Ok (w, tr, o)) => c_crashed (y_conn (w_sys w)) = false /\ c_mode (y_conn (w_sys w)) = RReading /\
        not_begun w x05 /\ not_begun w x06 /\ node_of (w_sys w) x05 = Some (new_node 5) /\ node_of (w_sys w) x06 = Some (new_node 6)
    | _ => False end) by (vm_compute; repeat split; reflexivity).
  destruct (wrun (wstart false []) (discover list_frame2 2)) as [[[[w tr] o]| |]|]; [|destruct U|destruct U|destruct U].
  destruct U as (C & M & B5 & B6 & N5 & N6). split; [exact C|]. split; [exact M|].
  intros b I. pose proof (two_answer b I) as TA.
  destruct I as [<-|[<-|[]]]; (split; [assumption|]); eexists; (split; [eassumption|exact TA]).
Qed.
Lemma two_listed : node_list list_frame2 /\
  forall b, In b [x05; x06] -> (2 <= address b)%Z /\ lists_node list_frame2 (address b) /\
    answers_all b (first_known false [] b) (two_replies b).
Proof.
  split.
  - split; [pose proof contained as C; rewrite Forall_forall in C; apply C; left; reflexivity|]. do 2 eexists. split; vm_compute; reflexivity.
  - intros b I. pose proof (two_answer b I) as TA. destruct I as [<-|[<-|[]]];
      (split; [vm_compute; discriminate|]); (split; [|exact TA]); (split; [reflexivity|]); (split; [split; vm_compute; discriminate|reflexivity]).
Qed.
