(** Vocabulary for properties of connection traces: plain functions and
    predicates on the list of observable events. *)
From Coq Require Import List NArith ZArith Bool Init.Byte.
From Coq Require Strings.Byte.
From Verif Require Import ModelBase ModelReports ModelSerial ModelConnection SpecFrame.
Import ListNotations.

(** What happened to the reply channel of request [i]: messages and closings. *)
Inductive reply : Set := Message | Closed.
Definition replies (i : nat) (tr : list event) : list reply :=
  flat_map (fun e => match e with
                     | EvDeliver j _ => if Nat.eqb j i then [Message] else []
                     | EvClose j => if Nat.eqb j i then [Closed] else []
                     | _ => []
                     end) tr.

(** The command writes and what ended the wait after each. *)
Inductive turn : Set := Sent (i : nat) | Answered (i : nat) | GaveUp (i : nat).
Definition turns (tr : list event) : list turn :=
  flat_map (fun e => match e with
                     | EvWire i _ => [Sent i]
                     | EvResult i _ => [Answered i]
                     | EvSendTimeout i => [GaveUp i]
                     | _ => []
                     end) tr.

(** Strict alternation; the second index says which command is outstanding. *)
Inductive stop_and_wait : list turn -> option nat -> Prop :=
| sw_nil : stop_and_wait [] None
| sw_sent l i : stop_and_wait l None -> stop_and_wait (l ++ [Sent i]) (Some i)
| sw_answered l i : stop_and_wait l (Some i) -> stop_and_wait (l ++ [Answered i]) None
| sw_gave_up l i : stop_and_wait l (Some i) -> stop_and_wait (l ++ [GaveUp i]) None.

(** Commands handed to the send channel, and commands written, in order. *)
Definition queued (tr : list event) : list nat :=
  flat_map (fun e => match e with EvQueue i _ => [i] | _ => [] end) tr.
Definition written (tr : list event) : list nat :=
  flat_map (fun e => match e with EvWire i _ => [i] | _ => [] end) tr.

(** Frames taken from the line, ACK bytes written. *)
Definition frames_taken (tr : list event) : list (list byte) :=
  flat_map (fun e => match e with EvFrame f _ => [f] | _ => [] end) tr.
Definition messages_taken (tr : list event) : list (option message) :=
  flat_map (fun e => match e with EvFrame _ m => [m] | _ => [] end) tr.
Definition acks (tr : list event) : nat :=
  List.length (filter (fun e => match e with EvAck => true | _ => false end) tr).
Definition arrived (tr : list event) : list byte :=
  flat_map (fun e => match e with EvArrive _ c => c | _ => [] end) tr.
Definition never_stale (tr : list event) : Prop :=
  forall st c, In (EvArrive st c) tr -> st = false.

(** Report callbacks: goroutines started, callbacks run. *)
Definition spawned (tr : list event) : list (byte * report) :=
  flat_map (fun e => match e with EvSpawn n r => [(n, r)] | _ => [] end) tr.
Definition called_back (tr : list event) : list (byte * report) :=
  flat_map (fun e => match e with EvCallback n r => [(n, r)] | _ => [] end) tr.

Definition connects (ls : list label) : nat :=
  List.length (filter (fun l => match l with LConnect => true | _ => false end) ls).
Definition passes (ls : list label) : nat :=
  List.length (filter (fun l => match l with LIter _ _ => true | _ => false end) ls).
Definition no_reads (ls : list label) : Prop :=
  forall st c r, ~ In (LRead st c r) ls.

(** The request of [data] with expected report [er] (0: any) is answered by the
    frame [f]: same function, or an incoming report to a send-data command;
    and, except for protocol info, the non-zero ones of node, class (sent at
    offset 3 of commands of more than 4 bytes) and report byte are at offsets
    5, 7 and 8. *)
Definition at_or_any (f : list byte) (b : byte) (k : nat) : Prop :=
  b = x00 \/ nth_error f k = Some b.
Definition answered_by (data : list byte) (er : byte) (f : list byte) : Prop :=
  let fn := nth 0 data x00 in
  (at_or_any f fn 3 \/ (fn = x13 /\ nth_error f 3 = Some x04)) /\
  (fn = x41 \/
   (at_or_any f (nth 1 data x00) 5 /\
    at_or_any f (if Nat.ltb 4 (List.length data) then nth 3 data x00 else x00) 7 /\
    at_or_any f er 8)).

(** Commands a CAN was attributed to; commands queued again. *)
Definition cancelled (tr : list event) : list nat :=
  flat_map (fun e => match e with EvCancel i => [i] | _ => [] end) tr.
Definition resent (tr : list event) : list nat :=
  flat_map (fun e => match e with EvQueue i true => [i] | _ => [] end) tr.

(** While one control byte is handled only one pending command is looked at. *)
Definition single_visits (ls : list label) : Prop :=
  forall l1 i r l2 j r' l3, ls = l1 ++ LVisit i r :: l2 ++ LVisit j r' :: l3 -> In LControlEnd l2.

(** Number of commands written, and of waits that ended. *)
Definition sent_count (tr : list event) : nat :=
  List.length (filter (fun t => match t with Sent _ => true | _ => false end) (turns tr)).
Definition ended_count (tr : list event) : nat :=
  List.length (filter (fun t => match t with Sent _ => false | _ => true end) (turns tr)).

(** The delayed "connected" message of a Connect never fires after that port
    has failed. *)
Definition timers_in_time (ls : list label) : Prop :=
  forall l1 l2 s tr, ls = l1 ++ LConnectTimer :: l2 -> run init l1 = Some (s, tr) -> c_mode s <> RStopped.

(** Visits of pending commands while a control byte is handled. *)
Definition visits (vs : list (nat * option nat)) : list label :=
  map (fun x => LVisit (fst x) (snd x)) vs.

(** Bytes taken from the buffer, one list per rejected byte, control byte and
    frame. *)
Definition consumed (tr : list event) : list byte :=
  flat_map (fun e => match e with
                     | EvSkip b => [b]
                     | EvControl b => [b]
                     | EvFrame f _ => f
                     | _ => []
                     end) tr.

(** The chunks read from the port, in order. *)
Definition chunks_read (ls : list label) : list (list byte) :=
  flat_map (fun l => match l with LRead _ c _ => [c] | _ => [] end) ls.

(** Line noise the reader gets over: bytes that start nothing, and damaged
    frames (right length, wrong checksum) whose other bytes, except for the
    last, start nothing. *)
Definition junk (b : byte) : Prop := ~ In b [SOF; ACK; NAK; CAN].
Inductive noise : list byte -> Prop :=
| noise_nil : noise []
| noise_junk b l : junk b -> noise l -> noise (b :: l)
| noise_damaged n rest l :
    Byte.to_N n = N.of_nat (List.length rest) -> xor_sum (n :: rest) <> 255%N ->
    Forall junk (removelast (n :: rest)) -> noise l -> noise (SOF :: n :: rest ++ l).

(** Control bytes are handled before any byte behind them has arrived. *)
Definition controls_alone (ls : list label) : Prop :=
  forall l1 o a l2 s tr b tl, ls = l1 ++ LIter o a :: l2 -> run init l1 = Some (s, tr) ->
    els (c_buf s) = b :: tl -> In b [ACK; NAK; CAN] -> tl = [].
