(** Property theorems C07 - C11, C66 (the reader). *)
From Verif Require Import ModelBase ModelReports ModelSerial ModelConnection SpecFrame SpecDecode SpecMessage
  SpecConnection ProofBase ProofSerial ProofMessage ProofConnection ProofLink ProofWitness ProofReader.
From Coq Require Import Permutation.

(** ** C07 *)
(** However the bytes of the frames [fs] are cut into reads, and whatever the
    other goroutines do meanwhile: when the reader waits for more, it has taken
    exactly these frames. *)
Theorem C07_chunking : forall fs ls s tr,
  Forall self_contained fs -> run init ls = Some (s, tr) -> (connects ls <= 1)%nat ->
  never_stale tr -> arrived tr = List.concat fs -> c_mode s = RReading ->
  frames_taken tr = fs /\ messages_taken tr = map message_of fs /\ els (c_buf s) = [].
Proof. exact chunking. Qed.
Print Assumptions C07_chunking.

(** Every chunking is possible, and gets there. *)
Theorem C07_every_chunking : forall fs chunks,
  Forall self_contained fs -> List.concat chunks = List.concat fs ->
  exists ls s tr, run init ls = Some (s, tr) /\ chunks_read ls = chunks /\ connects ls = 1%nat /\ never_stale tr /\
    frames_taken tr = fs /\ messages_taken tr = map message_of fs /\ acks tr = List.length fs /\ els (c_buf s) = [] /\
    c_mode s = RReading.
Proof. exact every_chunking. Qed.
Print Assumptions C07_every_chunking.

Example C07_example : Forall self_contained [switch_frame; wakeup_frame; switch_frame2].
Proof. exact self_contained_frames. Qed.

(** ** C08 *)
(** Full statement (false of the code): a frame behind any noise is taken. *)
Theorem C08_resynchronises_refuted : exists ls s tr, run init ls = Some (s, tr) /\
  (arrived tr = [SOF] ++ wakeup_frame /\ frame wakeup_frame /\ connects ls = 1%nat /\ never_stale tr /\
   c_mode s = RReading /\ els (c_buf s) = [] /\ frames_taken tr = []).
Proof. exact noise_loses_frame. Qed.
Print Assumptions C08_resynchronises_refuted.

(** Behind bytes that start nothing, and behind damaged frames of the announced
    length, it is: after as many passes as there are noise bytes, plus one. *)
Theorem C08_resynchronises_partial : forall ls s s' tr l f tail,
  run s ls = Some (s', tr) -> c_mode s = RParsing ->
  noise l -> frame f -> els (c_buf s) = l ++ f ++ tail -> passes ls = S (List.length l) -> c_crashed s' = false ->
  frames_taken tr = [f] /\ els (c_buf s') = tail /\ c_mode s' = RParsing.
Proof. exact resynchronises. Qed.
Print Assumptions C08_resynchronises_partial.

Example C08_example : exists ls s tr, run init ls = Some (s, tr) /\
  (arrived tr = [x42; x00] ++ [SOF; x03; x04; x13; x15] ++ wakeup_frame /\
   noise ([x42; x00] ++ [SOF; x03; x04; x13; x15]) /\ frames_taken tr = [wakeup_frame] /\ c_crashed s = false).
Proof. exact noise_passed. Qed.

(** ** C09 *)
Theorem C09_terminates : forall s ls s' tr,
  c_mode s = RParsing -> run s ls = Some (s', tr) -> no_reads ls -> connects ls = O ->
  (passes ls <= S (List.length (els (c_buf s))))%nat.
Proof. exact reader_terminates. Qed.
Print Assumptions C09_terminates.

Theorem C09_accounts : forall s ls s' tr,
  c_mode s = RParsing -> run s ls = Some (s', tr) -> no_reads ls -> connects ls = O -> c_crashed s' = false ->
  (List.length (consumed tr) + List.length (els (c_buf s')))%nat = List.length (els (c_buf s)).
Proof. exact reader_accounts. Qed.
Print Assumptions C09_accounts.

(** A pass is always possible. *)
Theorem C09_never_stuck : forall s o a,
  c_mode s = RParsing -> c_crashed s = false -> exists s' ev, step s (LIter o a) = Some (s', ev).
Proof. exact iter_enabled. Qed.
Print Assumptions C09_never_stuck.

(** When the reader waits for more bytes there is nothing, or an incomplete
    frame, in the buffer. *)
Theorem C09_left_over : forall ls s tr,
  run init ls = Some (s, tr) -> c_mode s = RReading ->
  els (c_buf s) = [] \/ exists k, shape_of (els (c_buf s)) (SMore k).
Proof. exact (fun ls s tr R M => waits_for_more ls s tr R (or_introl M)). Qed.
Print Assumptions C09_left_over.

Example C09_example : exists ls s tr, run init ls = Some (s, tr) /\
  (c_mode s = RReading /\ consumed tr = [x42] ++ switch_frame ++ [ACK] /\ els (c_buf s) = [SOF; x09; x00]).
Proof. exact three_kinds. Qed.

(** ** C10 *)
Theorem C10_one_ack_per_frame : forall ls s tr,
  run init ls = Some (s, tr) -> acks tr = List.length (frames_taken tr) /\ Forall frame (frames_taken tr).
Proof. exact acks_frames. Qed.
Print Assumptions C10_one_ack_per_frame.

(** An ACK is written only right after taking an intact frame from the front
    of the buffer. *)
Theorem C10_ack_only_after_frame : forall s l s' ev,
  step s l = Some (s', ev) -> In EvAck ev ->
  exists pre f m tail, ev = pre ++ [EvFrame f m; EvAck] /\ ~ In EvAck pre /\ frame f /\
    els (c_buf s) = f ++ tail /\ els (c_buf s') = tail.
Proof. exact ack_follows_frame. Qed.
Print Assumptions C10_ack_only_after_frame.

(** An intact frame at the front is taken and acknowledged by the next pass. *)
Theorem C10_frame_is_acked : forall s o a s' ev f tail,
  c_mode s = RParsing -> els (c_buf s) = f ++ tail -> frame f ->
  step s (LIter o a) = Some (s', ev) -> c_crashed s' = false ->
  frames_taken ev = [f] /\ acks ev = 1%nat /\ els (c_buf s') = tail /\ c_mode s' = RParsing /\ consumed ev = f.
Proof. exact frame_is_acked. Qed.
Print Assumptions C10_frame_is_acked.

Example C10_example : exists ls s tr, run init ls = Some (s, tr) /\
  (frames_taken tr = [wakeup_frame] /\ acks tr = 1%nat /\
   arrived tr = [x42; x00] ++ [SOF; x03; x04; x13; x15] ++ wakeup_frame).
Proof. exact noise_acked. Qed.

(** ** C11 *)
(** Full statement (false of the code): [called_back tr] is a prefix of
    [flat_map report_of (frames_taken tr)]. *)
Theorem C11_reports_in_order_refuted : exists ls s tr, run init ls = Some (s, tr) /\
  (frames_taken tr = [switch_frame; switch_frame2] /\ controls_alone ls /\ c_callbacks s = [] /\
   called_back tr = report_of switch_frame2 ++ report_of switch_frame /\
   report_of switch_frame <> report_of switch_frame2 /\ report_of switch_frame <> [] /\ report_of switch_frame2 <> []).
Proof. exact callbacks_swapped. Qed.
Print Assumptions C11_reports_in_order_refuted.

(** Up to order: each frame that carries a report, in order of arrival, starts
    one callback with the node id at offset 5 of the frame ... *)
Theorem C11_one_callback_per_report_partial : forall ls s tr,
  run init ls = Some (s, tr) -> controls_alone ls -> Forall self_contained (frames_taken tr) ->
  spawned tr = flat_map report_of (frames_taken tr).
Proof. exact reports_spawned. Qed.
Print Assumptions C11_one_callback_per_report_partial.

(** ... and the callbacks started are those that ran and those still to run. *)
Theorem C11_callbacks_run_once_partial : forall ls s tr,
  run init ls = Some (s, tr) -> Permutation (called_back tr ++ c_callbacks s) (spawned tr).
Proof. exact callbacks_of_spawned. Qed.
Print Assumptions C11_callbacks_run_once_partial.

(** ** C66 *)
(** Full statement (false of the code): a report is only handed on if an intact
    frame with that report was received. *)
Theorem C66_reports_only_from_frames_refuted : exists ls s tr, run init ls = Some (s, tr) /\
  (arrived tr = [ACK; x00; x00; x04; x00; x05; x03; x25; x03; xff] /\ frames_taken tr = [] /\
   called_back tr = report_of switch_frame).
Proof. exact report_without_frame. Qed.
Print Assumptions C66_reports_only_from_frames_refuted.

Theorem C66_reports_only_from_frames_partial : forall ls s tr n r,
  run init ls = Some (s, tr) -> controls_alone ls -> Forall self_contained (frames_taken tr) ->
  In (n, r) (called_back tr) -> exists f, In f (frames_taken tr) /\ frame f /\ report_of f = [(n, r)].
Proof. exact callback_has_frame. Qed.
Print Assumptions C66_reports_only_from_frames_partial.
