(** Property theorems C84, C85 (losing the port). *)
From Verif Require Import ModelBase ModelReports ModelSerial ModelConnection ModelPort SpecConnection SpecPort
  ProofBase ProofPort.

(** ** C84 *)
(** The full statement: from every state reached, whatever the port did, a
    writer that takes a command does not crash the process:
    [prun pinit ls = Some ((s, p), tr) -> pstep (s, p) (PDo (LTake w)) = Some ((s', p'), ev) ->
     c_crashed s' = false].
    It is false: the port fails, opening it again fails, a command is issued. *)
Theorem C84_port_away_refuted : exists ls s p tr,
  prun pinit ls = Some ((s, p), tr) /\ no_reads (actions ls) /\ c_crashed s = true.
Proof. exact port_crash. Qed.
Print Assumptions C84_port_away_refuted.

(** What is missing: an Open that fails after the first one that succeeded. *)
Theorem C84_port_away_partial : forall ls s p tr w s' p' ev,
  reopens ls -> prun pinit ls = Some ((s, p), tr) ->
  pstep (s, p) (PDo (LTake w)) = Some ((s', p'), ev) -> c_crashed s' = false.
Proof. exact take_safe. Qed.
Print Assumptions C84_port_away_partial.

(** Then the port changes nothing but which commands are written: what was
    proved of the connection holds. *)
Theorem C84_connection_partial : forall ls s p tr, reopens ls -> prun pinit ls = Some ((s, p), tr) ->
  exists tr', run init (actions ls) = Some (s, tr') /\ same_but_lost tr tr'.
Proof. exact reopening_simulates. Qed.
Print Assumptions C84_connection_partial.

(** Two failed Opens, then a port that fails and comes back. *)
Example C84_example : exists s tr,
  let ls := [POpenFails; POpenFails; PDo LConnect; PDo LReadFail; PDo LConnect;
             PDo (LCall [x02] WaitMessage true x00); PDo (LTake 0)] in
  reopens ls /\ prun pinit ls = Some ((s, POpen), tr) /\ sent tr = [0%nat] /\ c_crashed s = false.
Proof.
  do 2 eexists. cbv zeta. split; [exists 2%nat; eexists (_ :: _ :: _ :: _ :: [_]); reflexivity|].
  split; [vm_compute; reflexivity|]. split; reflexivity.
Qed.

(** ** C85 *)
(** The full statement: [prun pinit ls = Some ((s, p), tr) -> lost tr = []].
    It is false: a command taken while the port is closed is gone; the port is
    open again, both writers wait, nothing is left to be sent. *)
Theorem C85_no_command_lost_refuted : exists ls s p tr i,
  prun pinit ls = Some ((s, p), tr) /\ reopens ls /\
  In (PE (EvCall i [x02] NoWait false x00)) tr /\ lost tr = [i] /\ sent tr = [] /\
  p = POpen /\ c_crashed s = false /\ c_sendq s = [] /\ c_resend s = [] /\ c_timers s = [] /\ c_writers s = [WIdle; WIdle].
Proof. exact port_lost. Qed.
Print Assumptions C85_no_command_lost_refuted.

(** What is missing: ports that fail.  Otherwise the events are exactly those of
    the connection, and no command is lost. *)
Theorem C85_no_command_lost_partial : forall ls s p tr,
  reopens ls -> port_lasts ls -> prun pinit ls = Some ((s, p), tr) ->
  lost tr = [] /\ exists tr', run init (actions ls) = Some (s, tr') /\ tr = map PE tr'.
Proof. exact lasting_lost. Qed.
Print Assumptions C85_no_command_lost_partial.

Example C85_example : exists s tr,
  let ls := [POpenFails; PDo LConnect; PDo (LCall [x02] WaitMessage true x00); PDo (LTake 0)] in
  reopens ls /\ port_lasts ls /\ prun pinit ls = Some ((s, POpen), tr) /\ sent tr = [0%nat].
Proof.
  do 2 eexists. cbv zeta. split; [exists 1%nat; eexists (_ :: _ :: [_]); reflexivity|].
  split; [intros I; cbn in I; intuition discriminate|]. split; [vm_compute; reflexivity|reflexivity].
Qed.
