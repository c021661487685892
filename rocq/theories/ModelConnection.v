(** Model of connection.go: the connection as a state machine.  Callers, the
    writer goroutines, the reader, timers, delayed re-sends and callback
    goroutines interleave in any order, chosen by labels. *)
From Verif Require Import ModelBase ModelReports ModelSerial.

(** What the issuer of a command waits for: Write (connection.go:78-82),
    WriteWithTimeout (83-91), WriteAndWaitForReport (92-114). *)
Inductive want : Set := NoWait | WaitMessage | WaitReport.

(** connection.go:31-45 [sendPackage].  [p_id] stands for the uuid (uuid.New is
    trusted to be fresh), [p_timeout] says whether timeout is non-zero.  The
    fields result (never read) and the lock are left out; whether returnChan is
    non-nil is kept in the connection state ([c_open]). *)
Record pkg : Type := mkPkg {
  p_id : nat; p_message : list byte;
  p_function : byte; p_node : byte; p_class : byte; p_report : byte;
  p_timeout : bool; p_want : want }.

(** connection.go:293-310 [newSendPackage], and lines 85-86 / 95-97 which fill
    in the rest. *)
Definition new_send_package (id : nat) (data : list byte) (w : want) (timeout : bool)
    (er : byte) : pkg :=
  {| p_id := id; p_message := compile_message data;
     p_function := if (0 <? List.length data)%nat then nth 0 data x00 else x00;
     p_node := if (1 <? List.length data)%nat then nth 1 data x00 else x00;
     p_class := if (4 <? List.length data)%nat then nth 3 data x00 else x00;
     p_report := er; p_timeout := timeout; p_want := w |}.

(** connection.go:356-366 [MatchByteAt] *)
Definition match_byte_at (message : list byte) (b : byte) (position : nat) : res bool :=
  if beq b x00 then Ok true
  else if (List.length message <? position)%nat then Ok false
  else do m <- idx message position; Ok (beq m b).

(** connection.go:312-340 [Match].  The arguments of the log calls are
    evaluated too: they index the buffer. *)
Definition pkg_match (c : pkg) (incomming : list byte) : res bool :=
  do f <- match_byte_at incomming (p_function c) 3;
  do ok <- (if f then Ok true
            else if beq (p_function c) x13 then match_byte_at incomming x04 3
            else Ok false);
  if negb ok then
    do _x <- idx incomming 3; Ok false
  else if beq (p_function c) x41 then Ok true
  else
  do n <- match_byte_at incomming (p_node c) 5;
  if negb n then do _x <- idx incomming 5; Ok false else
  do k <- match_byte_at incomming (p_class c) 7;
  if negb k then do _x <- idx incomming 7; Ok false else
  do r <- match_byte_at incomming (p_report c) 8;
  if negb r then do _x <- idx incomming 8; Ok false else
  Ok true.

(** A goroutine running Writer (146-181): at the select; waiting for the result
    of a written command (162-171, 177); woken but lastCommand not yet cleared
    (178). *)
Inductive writer : Set := WIdle | WWaiting (id : nat) | WFinishing (id : nat).

(** The reader (183-291): not running; in Read; at the head of the inner loop;
    in the loop over the pending table for a control byte (214-236): the byte,
    the decoded message, the ids present when the loop started, the ids
    visited, and the identity of this loop's variable [c]. *)
Inductive mode : Type :=
| RStopped | RReading | RParsing
| RControl (b : byte) (m : option message) (present visited : list nat) (loop : nat).

(** connection.go:15-29 and the goroutines around it.
    c_next: next fresh uuid; c_sendq: packages blocked on [conn.send <- pkg] in
    arrival order (true: a re-send); c_inflight: the map inFlight; c_open: ids
    whose returnChan is not nil; c_fetch: ids whose issuer has handed over the
    package but not yet read pkg.returnChan (line 90, 103); c_last:
    lastCommand; c_timers: running timeoutWorkers; c_loopvars: the variable [c]
    of each control-byte loop (shared by the closures made in it: the code
    predates per-iteration loop variables); c_resend: goroutines of line
    229-232, by loop; c_buf: incomming; c_callbacks: goroutines of line 277 not
    yet run; c_contimers: goroutines of line 132-140 not yet run. *)
Record conn : Type := mkConn {
  c_next : nat;
  c_sendq : list (pkg * bool);
  c_inflight : list pkg;
  c_open : list nat;
  c_fetch : list nat;
  c_last : option nat;
  c_writers : list writer;
  c_timers : list nat;
  c_loopvars : list (nat * pkg);
  c_resend : list nat;
  c_buf : slice;
  c_mode : mode;
  c_callbacks : list (byte * report);
  c_connected : bool;
  c_contimers : nat;
  c_crashed : bool }.

Definition set_c_next (v : nat) (s : conn) : conn :=
  mkConn v (c_sendq s) (c_inflight s) (c_open s) (c_fetch s) (c_last s) (c_writers s) (c_timers s) (c_loopvars s) (c_resend s) (c_buf s) (c_mode s) (c_callbacks s) (c_connected s) (c_contimers s) (c_crashed s).
Definition set_c_sendq (v : list (pkg * bool)) (s : conn) : conn :=
  mkConn (c_next s) v (c_inflight s) (c_open s) (c_fetch s) (c_last s) (c_writers s) (c_timers s) (c_loopvars s) (c_resend s) (c_buf s) (c_mode s) (c_callbacks s) (c_connected s) (c_contimers s) (c_crashed s).
Definition set_c_inflight (v : list pkg) (s : conn) : conn :=
  mkConn (c_next s) (c_sendq s) v (c_open s) (c_fetch s) (c_last s) (c_writers s) (c_timers s) (c_loopvars s) (c_resend s) (c_buf s) (c_mode s) (c_callbacks s) (c_connected s) (c_contimers s) (c_crashed s).
Definition set_c_open (v : list nat) (s : conn) : conn :=
  mkConn (c_next s) (c_sendq s) (c_inflight s) v (c_fetch s) (c_last s) (c_writers s) (c_timers s) (c_loopvars s) (c_resend s) (c_buf s) (c_mode s) (c_callbacks s) (c_connected s) (c_contimers s) (c_crashed s).
Definition set_c_fetch (v : list nat) (s : conn) : conn :=
  mkConn (c_next s) (c_sendq s) (c_inflight s) (c_open s) v (c_last s) (c_writers s) (c_timers s) (c_loopvars s) (c_resend s) (c_buf s) (c_mode s) (c_callbacks s) (c_connected s) (c_contimers s) (c_crashed s).
Definition set_c_last (v : option nat) (s : conn) : conn :=
  mkConn (c_next s) (c_sendq s) (c_inflight s) (c_open s) (c_fetch s) v (c_writers s) (c_timers s) (c_loopvars s) (c_resend s) (c_buf s) (c_mode s) (c_callbacks s) (c_connected s) (c_contimers s) (c_crashed s).
Definition set_c_writers (v : list writer) (s : conn) : conn :=
  mkConn (c_next s) (c_sendq s) (c_inflight s) (c_open s) (c_fetch s) (c_last s) v (c_timers s) (c_loopvars s) (c_resend s) (c_buf s) (c_mode s) (c_callbacks s) (c_connected s) (c_contimers s) (c_crashed s).
Definition set_c_timers (v : list nat) (s : conn) : conn :=
  mkConn (c_next s) (c_sendq s) (c_inflight s) (c_open s) (c_fetch s) (c_last s) (c_writers s) v (c_loopvars s) (c_resend s) (c_buf s) (c_mode s) (c_callbacks s) (c_connected s) (c_contimers s) (c_crashed s).
Definition set_c_loopvars (v : list (nat * pkg)) (s : conn) : conn :=
  mkConn (c_next s) (c_sendq s) (c_inflight s) (c_open s) (c_fetch s) (c_last s) (c_writers s) (c_timers s) v (c_resend s) (c_buf s) (c_mode s) (c_callbacks s) (c_connected s) (c_contimers s) (c_crashed s).
Definition set_c_resend (v : list nat) (s : conn) : conn :=
  mkConn (c_next s) (c_sendq s) (c_inflight s) (c_open s) (c_fetch s) (c_last s) (c_writers s) (c_timers s) (c_loopvars s) v (c_buf s) (c_mode s) (c_callbacks s) (c_connected s) (c_contimers s) (c_crashed s).
Definition set_c_buf (v : slice) (s : conn) : conn :=
  mkConn (c_next s) (c_sendq s) (c_inflight s) (c_open s) (c_fetch s) (c_last s) (c_writers s) (c_timers s) (c_loopvars s) (c_resend s) v (c_mode s) (c_callbacks s) (c_connected s) (c_contimers s) (c_crashed s).
Definition set_c_mode (v : mode) (s : conn) : conn :=
  mkConn (c_next s) (c_sendq s) (c_inflight s) (c_open s) (c_fetch s) (c_last s) (c_writers s) (c_timers s) (c_loopvars s) (c_resend s) (c_buf s) v (c_callbacks s) (c_connected s) (c_contimers s) (c_crashed s).
Definition set_c_callbacks (v : list (byte * report)) (s : conn) : conn :=
  mkConn (c_next s) (c_sendq s) (c_inflight s) (c_open s) (c_fetch s) (c_last s) (c_writers s) (c_timers s) (c_loopvars s) (c_resend s) (c_buf s) (c_mode s) v (c_connected s) (c_contimers s) (c_crashed s).
Definition set_c_connected (v : bool) (s : conn) : conn :=
  mkConn (c_next s) (c_sendq s) (c_inflight s) (c_open s) (c_fetch s) (c_last s) (c_writers s) (c_timers s) (c_loopvars s) (c_resend s) (c_buf s) (c_mode s) (c_callbacks s) v (c_contimers s) (c_crashed s).
Definition set_c_contimers (v : nat) (s : conn) : conn :=
  mkConn (c_next s) (c_sendq s) (c_inflight s) (c_open s) (c_fetch s) (c_last s) (c_writers s) (c_timers s) (c_loopvars s) (c_resend s) (c_buf s) (c_mode s) (c_callbacks s) (c_connected s) v (c_crashed s).
Definition set_c_crashed (v : bool) (s : conn) : conn :=
  mkConn (c_next s) (c_sendq s) (c_inflight s) (c_open s) (c_fetch s) (c_last s) (c_writers s) (c_timers s) (c_loopvars s) (c_resend s) (c_buf s) (c_mode s) (c_callbacks s) (c_connected s) (c_contimers s) v.
Ltac conn_simpl := cbn [c_next c_sendq c_inflight c_open c_fetch c_last c_writers c_timers c_loopvars c_resend c_buf c_mode c_callbacks c_connected c_contimers c_crashed set_c_next set_c_sendq set_c_inflight set_c_open set_c_fetch set_c_last set_c_writers set_c_timers set_c_loopvars set_c_resend set_c_buf set_c_mode set_c_callbacks set_c_connected set_c_contimers set_c_crashed].
Ltac conn_simpl_in H := cbn [c_next c_sendq c_inflight c_open c_fetch c_last c_writers c_timers c_loopvars c_resend c_buf c_mode c_callbacks c_connected c_contimers c_crashed set_c_next set_c_sendq set_c_inflight set_c_open set_c_fetch set_c_last set_c_writers set_c_timers set_c_loopvars set_c_resend set_c_buf set_c_mode set_c_callbacks set_c_connected set_c_contimers set_c_crashed] in H.

(** Observable events. *)
Inductive event : Type :=
| EvCall (id : nat) (data : list byte) (w : want) (timeout : bool) (er : byte) (* command issued *)
| EvQueue (id : nat) (again : bool)      (* handed to the send channel; true: a re-send *)
| EvWire (id : nat) (bytes : list byte)  (* written to the port *)
| EvResult (id : nat) (b : byte)         (* its ACK/NAK/CAN was received *)
| EvSendTimeout (id : nat)               (* no result within a second *)
| EvGot (id : nat)                       (* the issuer holds its reply channel *)
| EvNil (id : nat)                       (* the issuer got a nil channel *)
| EvDeliver (id : nat) (m : option message)
| EvClose (id : nat)
| EvArrive (stale : bool) (chunk : list byte)
| EvFrame (f : list byte) (m : option message) (* a frame was taken from the buffer *)
| EvSkip (b : byte)                      (* a byte was thrown away *)
| EvControl (b : byte)                   (* a control byte was consumed *)
| EvCancel (id : nat)                    (* a CAN was attributed to this command *)
| EvAck                                  (* ACK byte written to the port *)
| EvSpawn (node : byte) (r : report)     (* goroutine for the callback started *)
| EvCallback (node : byte) (r : report)  (* report callback invoked *)
| EvCrash.

Inductive label : Type :=
| LConnect                               (* Connect: port opened *)
| LConnectTimer                          (* 200ms later: lines 132-140 *)
| LCall (data : list byte) (w : want) (timeout : bool) (er : byte)
| LFetch (id : nat)
| LTake (w : nat)
| LAckTimeout (w : nat)
| LFinish (w : nat)
| LTimer (k : nat)
| LResend (k : nat)
| LCallback (k : nat)
| LRead (stale : bool) (chunk : list byte) (room : nat)
| LReadFail
| LIter (order : list nat) (accepts : list nat)
| LVisit (id : nat) (receiver : option nat)
| LControlEnd.

Definition init : conn :=
  {| c_next := 0; c_sendq := []; c_inflight := []; c_open := []; c_fetch := [];
     c_last := None; c_writers := []; c_timers := []; c_loopvars := [];
     c_resend := []; c_buf := mkSlice [] []; c_mode := RStopped; c_callbacks := [];
     c_connected := false; c_contimers := 0; c_crashed := false |}.

Definition mem (i : nat) (l : list nat) : bool := existsb (Nat.eqb i) l.
Definition remove_id (i : nat) (l : list nat) : list nat := filter (fun j => negb (j =? i)%nat) l.
Definition del_pkg (i : nat) (l : list pkg) : list pkg := filter (fun p => negb (p_id p =? i)%nat) l.
Definition find_pkg (i : nat) (l : list pkg) : option pkg := find (fun p => (p_id p =? i)%nat) l.
Definition put_pkg (p : pkg) (l : list pkg) : list pkg := del_pkg (p_id p) l ++ [p].
Definition remove_nth {A} (k : nat) (l : list A) : list A := firstn k l ++ skipn (S k) l.
Fixpoint assoc {A} (i : nat) (l : list (nat * A)) : option A :=
  match l with
  | [] => None
  | (j, x) :: r => if (i =? j)%nat then Some x else assoc i r
  end.

(** An iteration order of the pending table: the ids of [order] first, in that
    order, then the rest.  Every permutation of [l] is obtained this way. *)
Fixpoint pick (order : list nat) (l : list pkg) : list pkg :=
  match order with
  | [] => l
  | i :: r => match find_pkg i l with
              | Some p => p :: pick r (del_pkg i l)
              | None => pick r l
              end
  end.

Definition crash (s : conn) : conn * list event := (set_c_crashed true s, [EvCrash]).

(** connection.go:47-59 [sendPackage.Close] *)
Definition close_pkg (i : nat) (s : conn) : conn * list event :=
  if mem i (c_open s) then (set_c_open (remove_id i (c_open s)) s, [EvClose i]) else (s, []).

(** connection.go:254-270: the loop over the pending table for a received
    frame, under the connection lock.  [accepts]: the issuers that take the
    message within a second (only those that hold the channel can).  A nil
    message received by the goroutine of lines 101-111 is dereferenced there. *)
Fixpoint deliver (buf : list byte) (m : option message) (accepts : list nat)
    (ps : list pkg) (s : conn) : conn * list event :=
  match ps with
  | [] => (s, [])
  | p :: r =>
      match pkg_match p buf with
      | Ok true =>
          let i := p_id p in
          let taken := mem i (c_open s) && mem i accepts && negb (mem i (c_fetch s)) in
          let '(s1, ev1) := close_pkg i s in
          let s2 := set_c_inflight (del_pkg i (c_inflight s1)) s1 in
          if taken then
            match p_want p, m with
            | WaitReport, None => (set_c_crashed true s2, [EvDeliver i m; EvCrash])
            | _, _ => let '(s3, ev3) := deliver buf m accepts r s2 in
                      (s3, EvDeliver i m :: ev1 ++ ev3)
            end
          else let '(s3, ev3) := deliver buf m accepts r s2 in (s3, ev1 ++ ev3)
      | Ok false => deliver buf m accepts r s
      | _ => crash s
      end
  end.

(** connection.go:274-279 *)
Definition spawn_callback (m : option message) (s : conn) : conn * list event :=
  match m with
  | Some msg => match m_data msg with
                | Some (PCommand _ _ r) =>
                    (set_c_callbacks (c_callbacks s ++ [(m_node msg, r)]) s,
                     [EvSpawn (m_node msg) r])
                | _ => (s, [])
                end
  | None => (s, [])
  end.

(** [incomming[l:]] for l <= len *)
Definition drop (l : nat) (d : slice) : slice := mkSlice (skipn l (els d)) (spare d).

(** connection.go:204 [append(incomming, buf[:n]...)]: in place if there is
    capacity, otherwise into a new array with [room] zero bytes of spare
    capacity. *)
Definition append_chunk (d : slice) (chunk : list byte) (room : nat) : slice :=
  if (List.length chunk <=? List.length (spare d))%nat
  then mkSlice (els d ++ chunk) (skipn (List.length chunk) (spare d))
  else mkSlice (els d ++ chunk) (repeat x00 room).

(** connection.go:207-288: one pass of the inner loop up to the control-byte
    loop, which is left to [LVisit] and [LControlEnd]. *)
Definition iteration (order accepts : list nat) (s : conn) : conn * list event :=
  match els (c_buf s) with
  | [] => (set_c_mode RReading s, [])
  | b0 :: _ =>
      match decode (c_buf s) with
      | Ok (r, d) =>
          let s1 := set_c_buf d s in
          if (d_len r =? 1)%Z then
            (set_c_mode (RControl b0 (d_msg r) (map p_id (c_inflight s)) []
                           (List.length (c_loopvars s))) s1, [])
          else if (Z.of_nat (List.length (els d)) <? d_len r)%Z then
            (set_c_mode RReading s1, [])
          else if (d_len r =? -1)%Z then
            (set_c_buf (drop 1 d) s1, [EvSkip b0])
          else
            let '(s2, ev2) := deliver (els d) (d_msg r) accepts (pick order (c_inflight s)) s1 in
            if c_crashed s2 then (s2, ev2) else
            let '(s3, ev3) := spawn_callback (d_msg r) s2 in
            (set_c_buf (drop (Z.to_nat (d_len r)) d) s3,
             ev2 ++ ev3 ++ [EvFrame (firstn (Z.to_nat (d_len r)) (els (c_buf s))) (d_msg r); EvAck])
      | _ => crash s
      end
  end.

(** connection.go:215-235: the body of the control-byte loop for package [p].
    [receiver]: the writer whose goroutine takes the byte from lastResult, or
    none within 50ms. *)
Definition visit (b : byte) (m : option message) (loop : nat) (p : pkg)
    (receiver : option nat) (s : conn) : option (conn * list event) :=
  match c_last s with
  | Some i =>
      if (p_id p =? i)%nat then
        let received :=
          match receiver with
          | None => Some (s, [])
          | Some w => match nth_error (c_writers s) w with
                      | Some (WWaiting j) =>
                          Some (set_c_writers (set_nth w (WFinishing j) (c_writers s)) s,
                                [EvResult j b])
                      | _ => None
                      end
          end in
        match received with
        | None => None
        | Some (s1, ev1) =>
            match m with
            | None => Some (set_c_crashed true s1, ev1 ++ [EvCrash])
            | Some msg =>
                let '(s2, ev2) :=
                  if is_nak msg
                  then close_pkg (p_id p) (set_c_inflight (del_pkg (p_id p) (c_inflight s1)) s1)
                  else (s1, []) in
                let '(s3, ev3) :=
                  if is_can msg
                  then (set_c_resend (c_resend s2 ++ [loop]) s2, [EvCancel (p_id p)])
                  else (s2, []) in
                Some (s3, ev1 ++ ev2 ++ ev3)
            end
        end
      else match receiver with None => Some (s, []) | Some _ => None end
  | None => match receiver with None => Some (s, []) | Some _ => None end
  end.

Definition set_loopvar (loop : nat) (p : pkg) (l : list (nat * pkg)) : list (nat * pkg) :=
  (loop, p) :: filter (fun x => negb (fst x =? loop)%nat) l.

(** connection.go:342-354 [timeoutWorker] after the sleep. *)
Definition expire (i : nat) (s : conn) : conn * list event :=
  match find_pkg i (c_inflight s) with
  | Some _ => close_pkg i (set_c_inflight (del_pkg i (c_inflight s)) s)
  | None => (s, [])
  end.

Definition step (s : conn) (l : label) : option (conn * list event) :=
  if c_crashed s then None else
  match l with
  | LConnect =>                                   (* connection.go:116-144 *)
      match c_mode s with
      | RStopped =>
          Some (set_c_contimers (S (c_contimers s))
                 (set_c_writers (c_writers s ++ [WIdle])
                   (set_c_buf (mkSlice [] []) (set_c_mode RReading s))), [])
      | _ => None
      end
  | LConnectTimer =>                              (* connection.go:132-140 *)
      match c_contimers s with
      | O => None
      | S k => Some (set_c_contimers k (set_c_connected true s), [])
      end
  | LCall data w timeout er =>                    (* connection.go:78-114 *)
      let i := c_next s in
      let p := new_send_package i data w timeout er in
      let open := match w with NoWait => c_open s | _ => i :: c_open s end in
      Some (set_c_open open (set_c_sendq (c_sendq s ++ [(p, false)]) (set_c_next (S i) s)),
            [EvCall i data w timeout er; EvQueue i false])
  | LFetch i =>                                   (* connection.go:90, 103 *)
      if mem i (c_fetch s)
      then Some (set_c_fetch (remove_id i (c_fetch s)) s,
                 [if mem i (c_open s) then EvGot i else EvNil i])
      else None
  | LTake w =>                                    (* connection.go:150-175 *)
      match nth_error (c_writers s) w, c_sendq s with
      | Some WIdle, (p, again) :: q =>
          let i := p_id p in
          let timers := if p_timeout p then c_timers s ++ [i] else c_timers s in
          let fetch := match p_want p with
                       | NoWait => c_fetch s
                       | _ => if again then c_fetch s else i :: c_fetch s
                       end in
          Some (set_c_fetch fetch (set_c_timers timers (set_c_last (Some i)
                 (set_c_inflight (put_pkg p (c_inflight s)) (set_c_sendq q
                   (set_c_writers (set_nth w (WWaiting i) (c_writers s)) s))))),
                [EvWire i (p_message p)])
      | _, _ => None
      end
  | LAckTimeout w =>                              (* connection.go:166-168 *)
      match nth_error (c_writers s) w with
      | Some (WWaiting i) =>
          Some (set_c_writers (set_nth w (WFinishing i) (c_writers s)) s, [EvSendTimeout i])
      | _ => None
      end
  | LFinish w =>                                  (* connection.go:177-178, 148 *)
      match nth_error (c_writers s) w with
      | Some (WFinishing i) =>
          Some (set_c_last None (set_c_writers (set_nth w WIdle (c_writers s)) s), [])
      | _ => None
      end
  | LTimer k =>
      match nth_error (c_timers s) k with
      | Some i => Some (expire i (set_c_timers (remove_nth k (c_timers s)) s))
      | None => None
      end
  | LResend k =>                                  (* connection.go:229-232 *)
      match nth_error (c_resend s) k with
      | Some loop =>
          match assoc loop (c_loopvars s) with
          | Some p => Some (set_c_sendq (c_sendq s ++ [(p, true)])
                             (set_c_resend (remove_nth k (c_resend s)) s), [EvQueue (p_id p) true])
          | None => None
          end
      | None => None
      end
  | LCallback k =>                                (* connection.go:277 *)
      match nth_error (c_callbacks s) k with
      | Some (n, r) => Some (set_c_callbacks (remove_nth k (c_callbacks s)) s, [EvCallback n r])
      | None => None
      end
  | LRead stale chunk room =>                     (* connection.go:188-205 *)
      match c_mode s with
      | RReading =>
          let d := if stale then mkSlice [] [] else c_buf s in
          Some (set_c_mode RParsing (set_c_buf (append_chunk d chunk room) s),
                [EvArrive stale chunk])
      | _ => None
      end
  | LReadFail =>                                  (* connection.go:191-195, 117-120 *)
      match c_mode s with
      | RReading => Some (set_c_connected false (set_c_mode RStopped s), [])
      | _ => None
      end
  | LIter order accepts =>
      match c_mode s with
      | RParsing => Some (iteration order accepts s)
      | _ => None
      end
  | LVisit i receiver =>                          (* connection.go:214 *)
      match c_mode s with
      | RControl b m present visited loop =>
          match find_pkg i (c_inflight s) with
          | Some p =>
              if mem i visited then None else
              visit b m loop p receiver
                (set_c_loopvars (set_loopvar loop p (c_loopvars s))
                  (set_c_mode (RControl b m present (i :: visited) loop) s))
          | None => None
          end
      | _ => None
      end
  | LControlEnd =>                                (* connection.go:236, 274-283 *)
      match c_mode s with
      | RControl b m present visited loop =>
          if forallb (fun i => mem i visited || negb (mem i (map p_id (c_inflight s)))) present
          then let '(s1, ev1) := spawn_callback m s in
               Some (set_c_mode RParsing (set_c_buf (drop 1 (c_buf s1)) s1), ev1 ++ [EvControl b])
          else None
      | _ => None
      end
  end.

Fixpoint run (s : conn) (ls : list label) : option (conn * list event) :=
  match ls with
  | [] => Some (s, [])
  | l :: r =>
      match step s l with
      | None => None
      | Some (s1, ev1) =>
          match run s1 r with
          | None => None
          | Some (s2, ev2) => Some (s2, ev1 ++ ev2)
          end
      end
  end.
