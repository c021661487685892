(** Property theorems C27 - C38, C63 - C65 (requests, responses, writers).
    An execution is [run init ls = Some (s, tr)]: the labels [ls] choose which
    goroutine moves next and what the environment does, [s] is the state
    reached and [tr] the observable events, in order. *)
From Verif Require Import ModelBase ModelReports ModelSerial ModelConnection SpecFrame SpecDecode SpecMessage
  SpecConnection ProofBase ProofSerial ProofMessage ProofConnection ProofLink ProofWitness.
From Coq Require Import Permutation.

(** ** C27 *)
(** Full statement (false of the code): [pkg_match] never panics and decides
    [answered_by]. *)
Theorem C27_match_never_panics_refuted :
  (exists data er f, frame f /\ pkg_match (new_send_package 0 data WaitReport true er) f = Panic) /\
  (exists ls s tr, run init ls = Some (s, tr) /\
     (arrived tr = short_frame /\ frame short_frame /\ In EvCrash tr)).
Proof. exact (conj match_crash match_crash_run). Qed.
Print Assumptions C27_match_never_panics_refuted.

(** Whenever a decision is made it is the documented one; it is always made if
    the buffer holds at least nine bytes. *)
Theorem C27_match_decision_partial : forall i data w t er buf r,
  pkg_match (new_send_package i data w t er) buf = Ok r ->
  (r = true <-> answered_by data er buf).
Proof. exact match_decision. Qed.
Print Assumptions C27_match_decision_partial.

Theorem C27_match_total_partial : forall p buf,
  (9 <= List.length buf)%nat -> exists r, pkg_match p buf = Ok r.
Proof. exact match_total. Qed.
Print Assumptions C27_match_total_partial.

Example C27_example :
  pkg_match (new_send_package 0 (get_switch x05) WaitReport true x03) switch_frame = Ok true /\
  pkg_match (new_send_package 0 (get_switch x06) WaitReport true x03) switch_frame = Ok false.
Proof. split; reflexivity. Qed.

(** ** C28 *)
(** Full statement (false of the code): of two pending protocol-info requests
    one response frame is delivered to at most one. *)
Theorem C28_info_response_to_one_request_refuted :
  exists ls s tr, run init ls = Some (s, tr) /\
  (In (EvCall 0 [x41; x02] WaitMessage true x00) tr /\ In (EvCall 1 [x41; x03] WaitMessage true x00) tr /\
   frames_taken tr = [info_frame] /\ replies 0 tr = [Message; Closed] /\ replies 1 tr = [Message; Closed]).
Proof. exact info_delivered_twice. Qed.
Print Assumptions C28_info_response_to_one_request_refuted.

(** What does hold of every delivery: the request was issued, it is open, the
    message is the one decoded from the complete frame at the front of the
    buffer, and that buffer answers the request. *)
Theorem C28_delivery_answers_request_partial : forall ls s tr l s' ev i m,
  run init ls = Some (s, tr) -> step s l = Some (s', ev) -> In (EvDeliver i m) ev ->
  exists data w t er r d, In (EvCall i data w t er) tr /\ decode (c_buf s) = Ok (r, d) /\
    m = d_msg r /\ answered_by data er (els d) /\
    exists k, shape_of (els (c_buf s)) (SFrame k) /\ d_len r = Z.of_nat k.
Proof. exact delivery_answers. Qed.
Print Assumptions C28_delivery_answers_request_partial.

(** ** C29 *)
Theorem C29_one_message_then_one_close : forall ls s tr i,
  run init ls = Some (s, tr) ->
  In (replies i tr) [[]; [Message]; [Closed]; [Message; Closed]] /\
  (replies i tr = [Message] -> c_crashed s = true).
Proof. exact one_reply. Qed.
Print Assumptions C29_one_message_then_one_close.

(** Events on the channel happen only while it is open: after the call, and
    never again once it was closed. *)
Theorem C29_only_open_channels : forall ls s tr i,
  run init ls = Some (s, tr) -> replies i tr <> [] ->
  In i (called tr) /\ ~ In i (c_open s).
Proof. exact replied_once. Qed.
Print Assumptions C29_only_open_channels.

Example C29_example : exists ls s tr, run init ls = Some (s, tr) /\
  (In (EvCall 0 [x41; x02] WaitMessage true x00) tr /\ In (EvCall 1 [x41; x03] WaitMessage true x00) tr /\
   frames_taken tr = [info_frame] /\ replies 0 tr = [Message; Closed] /\ replies 1 tr = [Message; Closed]).
Proof. exact info_delivered_twice. Qed.

(** ** C30 *)
(** A request with a timeout that was written and not yet closed can always be
    closed by a timer that is running. *)
Theorem C30_timer_closes_open_requests : forall ls s tr i data w er,
  run init ls = Some (s, tr) -> c_crashed s = false ->
  In (EvCall i data w true er) tr -> w <> NoWait -> In i (written tr) ->
  ~ In Closed (replies i tr) ->
  exists k s' ev, step s (LTimer k) = Some (s', ev) /\ In (EvClose i) ev.
Proof. exact timer_closes. Qed.
Print Assumptions C30_timer_closes_open_requests.

Example C30_example : exists ls s tr, run init ls = Some (s, tr) /\
  (c_crashed s = false /\ In (EvCall 0 (get_switch x05) WaitReport true x03) tr /\ In 0%nat (written tr) /\
   replies 0 tr = []).
Proof. exact open_request. Qed.

(** ** C31 *)
(** Full statement (false of the code once it has reconnected): [stop_and_wait]
    for every execution. *)
Theorem C31_stop_and_wait_refuted : exists ls s tr, run init ls = Some (s, tr) /\
  (turns tr = [Sent 0; Sent 1] /\ connects ls = 2%nat).
Proof. exact two_writers. Qed.
Print Assumptions C31_stop_and_wait_refuted.

Theorem C31_stop_and_wait_partial : forall ls s tr,
  run init ls = Some (s, tr) -> (connects ls <= 1)%nat -> exists o, stop_and_wait (turns tr) o.
Proof. exact alternates. Qed.
Print Assumptions C31_stop_and_wait_partial.

Example C31_example : exists ls s tr, run init ls = Some (s, tr) /\
  (connects ls = 1%nat /\ turns tr = [Sent 0; Answered 0; Sent 1; GaveUp 1; Sent 2]).
Proof. exact three_commands. Qed.

(** ** C32 *)
Theorem C32_wire_order : forall ls s tr,
  run init ls = Some (s, tr) -> exists rest, queued tr = written tr ++ rest.
Proof. exact (fun ls s tr H => ex_intro _ _ (wire_order ls s tr H)). Qed.
Print Assumptions C32_wire_order.

(** Each command is queued once by its issuer; everything else in the queue is
    a re-send. *)
Theorem C32_queued_once : forall ls s tr,
  run init ls = Some (s, tr) ->
  flat_map (fun e => match e with EvQueue i false => [i] | _ => [] end) tr = called tr /\
  NoDup (called tr).
Proof. exact queued_once. Qed.
Print Assumptions C32_queued_once.

Theorem C32_wire_bytes : forall ls s tr i bytes,
  run init ls = Some (s, tr) -> In (EvWire i bytes) tr ->
  exists data w timeout er, In (EvCall i data w timeout er) tr /\ bytes = compile_message data.
Proof. exact wire_bytes. Qed.
Print Assumptions C32_wire_bytes.

Example C32_example : exists ls s tr, run init ls = Some (s, tr) /\
  (queued tr = [0; 1; 2]%nat /\ written tr = [0; 1]%nat).
Proof. exact queue_of_three. Qed.

(** ** C33 *)
(** Full statement (false of the code): [resent] commands are [cancelled] ones. *)
Theorem C33_cancelled_is_resent_refuted : exists ls s tr, run init ls = Some (s, tr) /\
  (cancelled tr = [1%nat] /\ resent tr = [0%nat] /\ connects ls = 1%nat).
Proof. exact wrong_resend. Qed.
Print Assumptions C33_cancelled_is_resent_refuted.

(** If only one command is pending while a control byte is handled, the re-sent
    commands are the cancelled ones, each once, except those still waiting. *)
Theorem C33_cancelled_is_resent_partial : forall ls s tr,
  run init ls = Some (s, tr) -> single_visits ls ->
  exists waiting, Permutation (cancelled tr) (resent tr ++ waiting).
Proof. exact (fun ls s tr H SV => ex_intro _ _ (proj2 (resend_invariant ls s tr H SV))). Qed.
Print Assumptions C33_cancelled_is_resent_partial.

(** ... and when no back-off is running any more, all of them were re-sent. *)
Theorem C33_all_resent_partial : forall ls s tr,
  run init ls = Some (s, tr) -> single_visits ls -> c_resend s = [] ->
  Permutation (cancelled tr) (resent tr).
Proof. exact all_resent. Qed.
Print Assumptions C33_all_resent_partial.

Example C33_example : exists ls s tr, run init ls = Some (s, tr) /\
  (cancelled tr = [0%nat] /\ resent tr = [0%nat] /\ c_resend s = [] /\ single_visits ls).
Proof. exact right_resend. Qed.

(** ** C34 *)
(** The whole handling of a NAK that arrives by itself: if the last written
    command is still pending it alone is removed and its channel closed;
    otherwise nothing changes. *)
Theorem C34_nak_fails_only_its_command : forall ls s tr order accepts vs s' tr',
  run init ls = Some (s, tr) -> els (c_buf s) = [NAK] ->
  run s (LIter order accepts :: visits vs ++ [LControlEnd]) = Some (s', tr') ->
  c_crashed s' = false ->
  match c_last s with
  | Some i =>
      if mem i (map p_id (c_inflight s))
      then (exists l, written tr = l ++ [i]) /\
           c_inflight s' = del_pkg i (c_inflight s) /\ c_open s' = remove_id i (c_open s) /\
           forall k, replies k tr' = if (mem i (c_open s) && (i =? k)%nat)%bool then [Closed] else []
      else c_inflight s' = c_inflight s /\ c_open s' = c_open s /\ forall k, replies k tr' = []
  | None => c_inflight s' = c_inflight s /\ c_open s' = c_open s /\ forall k, replies k tr' = []
  end.
Proof. exact nak_handling. Qed.
Print Assumptions C34_nak_fails_only_its_command.

(** The same one pending command at a time, for every interleaving and every
    control byte. *)
Theorem C34_visit_effect : forall ls s tr j rcv s' ev b m present visited loop,
  run init ls = Some (s, tr) -> c_mode s = RControl b m present visited loop ->
  step s (LVisit j rcv) = Some (s', ev) ->
  (b = NAK -> c_last s = Some j -> c_crashed s' = false ->
     c_inflight s' = del_pkg j (c_inflight s) /\ c_open s' = remove_id j (c_open s) /\
     (exists l, written tr = l ++ [j]) /\
     forall k, replies k ev = if (mem j (c_open s) && (j =? k)%nat)%bool then [Closed] else []) /\
  (~ (b = NAK /\ c_last s = Some j) ->
     c_inflight s' = c_inflight s /\ c_open s' = c_open s /\ forall k, replies k ev = []).
Proof. exact visit_effect. Qed.
Print Assumptions C34_visit_effect.

(** No other step of the handling of a control byte touches the pending table
    or a reply channel. *)
Theorem C34_start_end_effect : forall s l s' ev, step s l = Some (s', ev) ->
  match l with
  | LControlEnd => True
  | LIter _ _ => shape_of (els (c_buf s)) SControl
  | _ => False
  end ->
  c_crashed s' = false ->
  c_inflight s' = c_inflight s /\ c_open s' = c_open s /\ c_last s' = c_last s /\ c_sendq s' = c_sendq s /\
  forall k, replies k ev = [].
Proof. exact control_start_end_effect. Qed.
Print Assumptions C34_start_end_effect.

Example C34_example : exists ls s tr, run init ls = Some (s, tr) /\
  (written tr = [0; 1]%nat /\ replies 0 tr = [] /\ replies 1 tr = [Closed] /\ map p_id (c_inflight s) = [0%nat]).
Proof. exact nak_of_second. Qed.

(** ** C35 *)
(** Full statement (false of the code): no execution crashes because of a frame
    that answers a request. *)
Theorem C35_report_wait_crash_refuted : exists ls s tr, run init ls = Some (s, tr) /\
  (In (EvCall 0 [x13; x05; x02; x20; x02; x25] WaitReport true x03) tr /\ arrived tr = [ACK] ++ basic_frame /\
   frame basic_frame /\ In EvCrash tr).
Proof. exact report_crash. Qed.
Print Assumptions C35_report_wait_crash_refuted.

(** A frame is delivered without a crash if it decodes, or if nobody waits for
    a report. *)
Theorem C35_decoded_frames_do_not_crash_partial : forall s order accepts s' ev,
  step s (LIter order accepts) = Some (s', ev) -> (9 <= List.length (els (c_buf s)))%nat ->
  (exists r d, decode (c_buf s) = Ok (r, d) /\ (d_msg r <> None \/
     forall p, In p (c_inflight s) -> p_want p <> WaitReport)) -> c_crashed s' = false.
Proof. exact decoded_frames_do_not_crash. Qed.
Print Assumptions C35_decoded_frames_do_not_crash_partial.

Example C35_example : exists ls s tr, run init ls = Some (s, tr) /\
  (In (EvCall 0 (get_switch x05) WaitReport true x03) tr /\ replies 0 tr = [Message; Closed] /\
   frames_taken tr = [switch_frame] /\ c_crashed s = false).
Proof. exact report_delivered. Qed.

(** ** C36 *)
(** Full statement (false of the code): the pending table never holds more
    entries than there are commands waiting for something. *)
Theorem C36_pending_table_bounded_refuted : forall n, exists ls s tr, run init ls = Some (s, tr) /\
  List.length (c_inflight s) = n /\ (forall p, In p (c_inflight s) -> p_want p = NoWait) /\
  c_sendq s = [] /\ c_timers s = [] /\ c_open s = [] /\ c_resend s = [] /\ c_last s = None.
Proof. exact leak. Qed.
Print Assumptions C36_pending_table_bounded_refuted.

(** Entries with a timeout do have a running timer. *)
Theorem C36_timed_entries_expire_partial : forall ls s tr p,
  run init ls = Some (s, tr) -> In p (c_inflight s) -> p_timeout p = true -> c_crashed s = false ->
  exists k s' ev, step s (LTimer k) = Some (s', ev) /\
    ~ In (p_id p) (map p_id (c_inflight s')).
Proof. exact timed_entries_expire. Qed.
Print Assumptions C36_timed_entries_expire_partial.

(** ** C37 *)
(** Full statement (false of the code): as C31 without the hypothesis on
    [connects]. *)
Theorem C37_one_writer_refuted : exists ls s tr, run init ls = Some (s, tr) /\
  (turns tr = [Sent 0; Sent 1] /\ connects ls = 2%nat).
Proof. exact two_writers. Qed.
Print Assumptions C37_one_writer_refuted.

(** There are never more unanswered commands than there were connects. *)
Theorem C37_outstanding_bound_partial : forall ls s tr,
  run init ls = Some (s, tr) ->
  (ended_count tr <= sent_count tr <= ended_count tr + connects ls)%nat.
Proof. exact outstanding_bound. Qed.
Print Assumptions C37_outstanding_bound_partial.

(** ** C38 *)
(** Full statement (false of the code): [c_connected s = true -> c_mode s <> RStopped]. *)
Theorem C38_connected_means_open_refuted : exists ls s tr, run init ls = Some (s, tr) /\
  (c_connected s = true /\ c_mode s = RStopped).
Proof. exact connected_lies. Qed.
Print Assumptions C38_connected_means_open_refuted.

Theorem C38_connected_means_open_partial : forall ls s tr,
  run init ls = Some (s, tr) -> timers_in_time ls -> c_connected s = true -> c_mode s <> RStopped.
Proof. exact connected_open. Qed.
Print Assumptions C38_connected_means_open_partial.

Example C38_example : exists ls s tr, run init ls = Some (s, tr) /\ (c_connected s = true /\ c_mode s = RReading).
Proof. exact connected_true. Qed.

(** ** C63 *)
(** Full statement (false of the code): whether a frame answers a request does
    not depend on the bytes behind it. *)
Theorem C63_match_on_own_bytes_refuted :
  exists f t1 t2 data er, frame f /\
    pkg_match (new_send_package 0 data WaitReport true er) (clear_at (List.length f - 1) f ++ t1) = Ok true /\
    pkg_match (new_send_package 0 data WaitReport true er) (clear_at (List.length f - 1) f ++ t2) = Ok false.
Proof. exact match_needs_next_frame. Qed.
Print Assumptions C63_match_on_own_bytes_refuted.

(** For frames of ten or more bytes it does not, and the decision is always
    made. *)
Theorem C63_match_on_own_bytes_partial : forall i data w t er f tail, (10 <= List.length f)%nat ->
  exists r, pkg_match (new_send_package i data w t er) (clear_at (List.length f - 1) f ++ tail) = Ok r /\
            (r = true <-> answered_by data er f).
Proof. exact match_own_bytes. Qed.
Print Assumptions C63_match_on_own_bytes_partial.

(** ** C64 *)
(** Full statement (false of the code): an issuer never gets a nil channel. *)
Theorem C64_issuer_gets_its_channel_refuted : exists ls s tr, run init ls = Some (s, tr) /\
  (In (EvCall 0 [x41; x02] WaitMessage true x00) tr /\ In (EvNil 0) tr /\ ~ In (EvGot 0) tr).
Proof. exact nil_channel. Qed.
Print Assumptions C64_issuer_gets_its_channel_refuted.

(** It gets a nil channel only if its request was closed before it looked. *)
Theorem C64_issuer_gets_its_channel_partial : forall ls s tr i s' ev,
  run init ls = Some (s, tr) -> step s (LFetch i) = Some (s', ev) ->
  (ev = [EvGot i] /\ replies i tr = []) \/ (ev = [EvNil i] /\ In Closed (replies i tr)).
Proof. exact fetch_result. Qed.
Print Assumptions C64_issuer_gets_its_channel_partial.

(** ** C65 *)
(** Full statement (false of the code): reading a control byte and the bytes of
    the next frame in one chunk never crashes. *)
Theorem C65_coalesced_control_byte_refuted : exists ls s tr, run init ls = Some (s, tr) /\
  (arrived tr = [ACK] ++ sent_frame /\ frame sent_frame /\ In EvCrash tr).
Proof. exact coalesced_crash. Qed.
Print Assumptions C65_coalesced_control_byte_refuted.

(** A control byte that arrives alone never crashes. *)
Theorem C65_lone_control_byte_safe_partial : forall ls s tr b order accepts vs s' tr',
  run init ls = Some (s, tr) -> In b [ACK; NAK; CAN] -> els (c_buf s) = [b] ->
  run s (LIter order accepts :: visits vs) = Some (s', tr') -> c_crashed s' = false.
Proof. exact lone_control_safe. Qed.
Print Assumptions C65_lone_control_byte_safe_partial.
