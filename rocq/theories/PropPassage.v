(** Property theorems C96 and C97: commands get written, and frames are made of
    bytes that were received.  An execution is [run init ls = Some (s, tr)]. *)
From Verif Require Import ModelBase ModelReports ModelSerial ModelConnection SpecFrame SpecMessage SpecConnection SpecPassage.
From Verif Require Import ProofWitness ProofLink ProofDelivery ProofPassage ProofProgress.

(** ** C96 *)
(** [waiting] are the commands issued but not yet written.  The writers need at
    most two steps for each time the port was opened, and three for each command
    ahead, before they write the next. *)
Theorem C96_command_is_written : forall ls s tr l2 s' tr2 waiting k i,
  run init ls = Some (s, tr) -> run s l2 = Some (s', tr2) ->
  queued tr = written tr ++ waiting -> nth_error waiting k = Some i ->
  (2 * connects ls + 3 * k < writer_steps l2)%nat -> nth_error (written tr2) k = Some i.
Proof. exact command_is_written. Qed.
Print Assumptions C96_command_is_written.

(** While commands are waiting some writer can move, whatever the rest of the
    program does. *)
Theorem C96_writers_not_stuck : forall ls s tr, run init ls = Some (s, tr) -> c_crashed s = false ->
  (1 <= connects ls)%nat -> queued tr <> written tr ->
  exists l s' ev, writer_label l = true /\ step s l = Some (s', ev).
Proof. exact writers_not_stuck. Qed.
Print Assumptions C96_writers_not_stuck.

Example C96_example : exists s tr s' tr2, run init three_calls = Some (s, tr) /\ run s six_steps = Some (s', tr2) /\
  (queued tr = written tr ++ [1; 2] /\ connects three_calls = 1 /\ writer_steps six_steps = 6 /\
   written tr = [0] /\ written tr2 = [1; 2])%nat.
Proof. exact three_written. Qed.

(** ** C97 *)
(** Full statement (false of the code): every frame accepted was received, in
    one piece, between two places where the reader starts anew.  A frame with a
    wrong byte, behind two bytes of noise, is accepted and its report delivered:
    the noise announces a frame that ends inside it, whose checksum place is set
    to zero when it is rejected. *)
Theorem C97_frames_received_refuted : exists ls s tr, run init ls = Some (s, tr) /\
  (arrived tr = disturbed /\ passages [] ls = [[]; disturbed] /\ never_stale tr /\ connects ls = 1%nat /\
   frames_taken tr = [switch_frame] /\ ~ part_of switch_frame disturbed /\
   called_back tr = report_of switch_frame /\ report_of switch_frame <> []).
Proof. exact phantom_frame. Qed.
Print Assumptions C97_frames_received_refuted.

(** What is missing: bytes may have been set to zero. *)
Theorem C97_frames_wiped_partial : forall ls s tr f, run init ls = Some (s, tr) -> In f (frames_taken tr) ->
  exists p g, In p (passages [] ls) /\ part_of g p /\ wiped f g.
Proof. exact frames_received_wiped. Qed.
Print Assumptions C97_frames_wiped_partial.

(** What is missing: executions in which a byte 0x01 was dropped. *)
Theorem C97_frames_received_partial : forall ls s tr f, run init ls = Some (s, tr) -> ~ In (EvSkip SOF) tr ->
  In f (frames_taken tr) -> exists p, In p (passages [] ls) /\ part_of f p.
Proof. exact frames_received. Qed.
Print Assumptions C97_frames_received_partial.

(** In the same executions the bytes are consumed in order, and of each passage
    a beginning is consumed. *)
Theorem C97_bytes_in_order_partial : forall ls s tr, run init ls = Some (s, tr) -> ~ In (EvSkip SOF) tr ->
  exists cs, consumed tr = List.concat cs /\ Forall2 (fun c p => exists rest, p = c ++ rest) cs (passages [] ls).
Proof. exact bytes_in_order. Qed.
Print Assumptions C97_bytes_in_order_partial.

Example C97_example : exists ls s tr, run init ls = Some (s, tr) /\
  (passages [] ls = [[]; [SOF; x09]; wakeup_frame ++ [SOF]; switch_frame] /\ ~ In (EvSkip SOF) tr /\
   frames_taken tr = [wakeup_frame; switch_frame]).
Proof. exact cut_twice. Qed.
