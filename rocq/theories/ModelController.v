(** Model of controller.go (without the configuration file) and gozwave.go: the
    event queue, discovery of nodes, delivery of reports, the save debouncer and
    the start-up. *)
From Verif Require Import ModelBase ModelReports ModelSerial ModelNodes ModelList.

(** events/node_discovered.go, events/node_updated.go *)
Inductive event : Type := EDiscovered (address : Z) | EUpdated (address : Z).

(** Where the goroutine of saveDebouncer is (controller.go:105-117). *)
Inductive deb : Type :=
| DOff                  (* not started *)
| DWait                 (* receiving at line 106 or 114 *)
| DTimer (age : N)      (* in the select; milliseconds since time.After was called *)
| DSaving.              (* in SaveConfigurationToFile *)

(** Where the goroutine of getNodes is (controller.go:40-89).  [i] is the index
    in the bitmap, [rest] the bitmap from there on. *)
Inductive disc : Type :=
| DcIdle                              (* not started *)
| DcAsked                             (* line 47: waiting for the answer *)
| DcLoop (i : nat) (rest : list bool) (* line 55 *)
| DcAdded (i : nat) (rest : list bool)   (* between lines 82 and 83 *)
| DcPushed (i : nat) (rest : list bool)  (* between lines 85 and 87 *)
| DcDone.                             (* returned *)

(** [c_file]: a file name was given.  [c_setup]: the nodes on which Setup was
    called.  [c_trig]: goroutines of pushEvent blocked sending on triggerFileSave
    (line 100).  [c_ident]: nodes on which Identify was started.  [c_windows]:
    alarm windows that are open, by node. *)
Record cst : Type := mkC {
  c_file : bool; c_nodes : list (Z * node); c_setup : list Z;
  c_queue : list event; c_trig : nat; c_deb : deb; c_disc : disc;
  c_ident : list Z; c_windows : list Z }.

(** What can be seen from outside. *)
Inductive cobs : Type :=
| COPush (e : event)                 (* pushEvent is called *)
| CORead (e : event)                 (* the application receives an event *)
| COSave (ns : list (Z * node))      (* SaveConfigurationToFile begins *)
| COIdentify (id : Z).               (* go node.Identify() *)

(** controller.go:34: the capacity of the queue. *)
Definition queue_cap : nat := 10.

(** controller.go:91-103 [pushEvent]: the goroutine of lines 96-102 is counted
    in [c_trig] from here on. *)
Definition push (st : cst) (e : event) : cst :=
  {| c_file := c_file st; c_nodes := c_nodes st; c_setup := c_setup st;
     c_queue := if (List.length (c_queue st) <? queue_cap)%nat
                then c_queue st ++ [e] else c_queue st;
     c_trig := match e with EUpdated _ => S (c_trig st) | EDiscovered _ => c_trig st end;
     c_deb := c_deb st; c_disc := c_disc st; c_ident := c_ident st;
     c_windows := c_windows st |}.
Fixpoint pushes (st : cst) (es : list event) : cst :=
  match es with [] => st | e :: r => pushes (push st e) r end.

Definition with_nodes (st : cst) (ns : list (Z * node)) : cst :=
  {| c_file := c_file st; c_nodes := ns; c_setup := c_setup st; c_queue := c_queue st;
     c_trig := c_trig st; c_deb := c_deb st; c_disc := c_disc st; c_ident := c_ident st;
     c_windows := c_windows st |}.
Definition with_setup (st : cst) (id : Z) : cst :=
  {| c_file := c_file st; c_nodes := c_nodes st; c_setup := id :: c_setup st;
     c_queue := c_queue st;
     c_trig := c_trig st; c_deb := c_deb st; c_disc := c_disc st; c_ident := c_ident st;
     c_windows := c_windows st |}.
Definition with_queue (st : cst) (q : list event) : cst :=
  {| c_file := c_file st; c_nodes := c_nodes st; c_setup := c_setup st; c_queue := q;
     c_trig := c_trig st; c_deb := c_deb st; c_disc := c_disc st; c_ident := c_ident st;
     c_windows := c_windows st |}.
Definition with_deb (st : cst) (t : nat) (d : deb) : cst :=
  {| c_file := c_file st; c_nodes := c_nodes st; c_setup := c_setup st; c_queue := c_queue st;
     c_trig := t; c_deb := d; c_disc := c_disc st; c_ident := c_ident st;
     c_windows := c_windows st |}.
Definition with_disc (st : cst) (d : disc) : cst :=
  {| c_file := c_file st; c_nodes := c_nodes st; c_setup := c_setup st; c_queue := c_queue st;
     c_trig := c_trig st; c_deb := c_deb st; c_disc := d; c_ident := c_ident st;
     c_windows := c_windows st |}.
Definition with_ident (st : cst) (id : Z) : cst :=
  {| c_file := c_file st; c_nodes := c_nodes st; c_setup := c_setup st; c_queue := c_queue st;
     c_trig := c_trig st; c_deb := c_deb st; c_disc := c_disc st; c_ident := c_ident st ++ [id];
     c_windows := c_windows st |}.
Definition with_windows (st : cst) (w : list Z) : cst :=
  {| c_file := c_file st; c_nodes := c_nodes st; c_setup := c_setup st; c_queue := c_queue st;
     c_trig := c_trig st; c_deb := c_deb st; c_disc := c_disc st; c_ident := c_ident st;
     c_windows := w |}.

(** controller.go:30-38 [NewController], gozwave.go:24-25 *)
Definition new_controller (file : bool) : cst :=
  {| c_file := file; c_nodes := []; c_setup := []; c_queue := []; c_trig := 0;
     c_deb := DOff; c_disc := DcIdle; c_ident := []; c_windows := [] |}.

(** [c.Nodes.Add(n)]: list.go:23-38 on the list of the controller, which is
    never nil. *)
Definition add_node (st : cst) (n : node) : cst :=
  with_nodes st (list_all (list_add (Some (c_nodes st)) n)).

(** controller.go:165-171: the loop of LoadConfigurationFromFile over the nodes
    of the file, in the order in which the map is visited. *)
Fixpoint load_nodes (st : cst) (ns : list node) : cst :=
  match ns with
  | [] => st
  | n :: r => load_nodes (push (add_node (with_setup st (n_id n)) n) (EDiscovered (n_id n))) r
  end.

Inductive clabel : Type :=
| CConnected                      (* gozwave.go:48-54: connected, goroutines started *)
| CReconnect                      (* gozwave.go:40-46: a later connection is made *)
| CAnswer (m : option message)    (* the channel of getNodes delivers *)
| CDisc                           (* getNodes runs to its next pause *)
| CReport (id : byte) (r : report) (* DeliverReportToNode *)
| CWindow (id : Z)                (* an alarm window ends *)
| CIdent (id : Z) (n : node) (announce : bool)
    (* Identify changes its node to [n], of the same id, and may publish that;
       what it does in detail is in ModelIdentify *)
| CRead                           (* the application receives from GetNextEvent *)
| CTrigger                        (* the debouncer receives from a blocked goroutine *)
| CTimeout                        (* its time.After fires *)
| CSaved                          (* SaveConfigurationToFile returns *)
| CTick (d : N).                  (* [d] milliseconds pass *)

(** controller.go:109-110: ten seconds *)
Definition save_delay : N := 10000.

Fixpoint remove_one (x : Z) (l : list Z) : list Z :=
  match l with
  | [] => []
  | y :: r => if (x =? y)%Z then r else y :: remove_one x r
  end.

(** Events of a node: the callback is nil before Setup (node.go:304-306). *)
Definition node_events (st : cst) (id : Z) (addresses : list Z) : res (cst * list cobs) :=
  match addresses with
  | [] => Ok (st, [])
  | _ =>
      if existsb (Z.eqb id) (c_setup st)
      then Ok (pushes st (map EUpdated addresses), map (fun a => COPush (EUpdated a)) addresses)
      else Panic
  end.

Definition cstep (st : cst) (l : clabel) : option (res (cst * list cobs)) :=
  match l with
  | CConnected =>
      match c_disc st with
      | DcIdle => Some (Ok (with_deb (with_disc st DcAsked) (c_trig st) DWait, []))
      | _ => None
      end
  | CReconnect =>
      match c_disc st with DcIdle => None | _ => Some (Ok (st, [])) end
  | CAnswer m =>                                          (* 47-54, 67-71 *)
      match c_disc st with
      | DcAsked =>
          match m with
          | Some msg =>
              match m_data msg with
              | Some (PNodes active) => Some (Ok (with_disc st (DcLoop 0 active), []))
              | _ => Some (Ok (with_disc st DcDone, []))
              end
          | None => Some (Ok (with_disc st DcDone, []))
          end
      | _ => None
      end
  | CDisc =>
      match c_disc st with
      | DcLoop i [] => Some (Ok (with_disc st DcDone, []))
      | DcLoop i (active :: rest) =>
          if negb active then Some (Ok (with_disc st (DcLoop (S i) rest), []))  (* 56-58 *)
          else if Nat.eqb i 0 then Some (Ok (with_disc st (DcLoop (S i) rest), []))  (* 60-63 *)
          else
            let id := (Z.of_nat i + 1)%Z in
            match zlookup id (c_nodes st) with            (* 65, 77-79 *)
            | Some _ => Some (Ok (with_ident (with_disc st (DcLoop (S i) rest)) id, [COIdentify id]))
            | None => Some (Ok (with_disc (add_node st (new_node id)) (DcAdded i rest), []))
            end
      | DcAdded i rest =>
          let id := (Z.of_nat i + 1)%Z in
          Some (Ok (with_disc (push st (EDiscovered id)) (DcPushed i rest),
                    [COPush (EDiscovered id)]))
      | DcPushed i rest =>
          let id := (Z.of_nat i + 1)%Z in
          Some (Ok (with_ident (with_setup (with_disc st (DcLoop (S i) rest)) id) id,
                    [COIdentify id]))
      | _ => None
      end
  | CReport b r =>                                        (* 126-132 *)
      let id := Z.of_N (b2N b) in
      match zlookup id (c_nodes st) with
      | None => Some (Ok (st, []))
      | Some n =>
          Some (do p <- process_event n r;
                let '(n', evs, opened) := p in
                let st1 := with_nodes st (zset id n' (c_nodes st)) in
                let st2 := if opened then with_windows st1 (id :: c_windows st1) else st1 in
                node_events st2 id evs)
      end
  | CWindow id =>
      if existsb (Z.eqb id) (c_windows st) then
        match zlookup id (c_nodes st) with
        | None => None
        | Some n =>
            Some (do p <- alarm_window_end n;
                  let '(n', evs) := p in
                  let st1 := with_nodes st (zset id n' (c_nodes st)) in
                  node_events (with_windows st1 (remove_one id (c_windows st1))) id evs)
        end
      else None
  | CIdent id n announce =>
      if existsb (Z.eqb id) (c_ident st) && (n_id n =? id)%Z then
        let st1 := with_nodes st (zset id n (c_nodes st)) in
        Some (node_events st1 id (if announce then [id] else []))
      else None
  | CRead =>
      match c_queue st with
      | e :: q => Some (Ok (with_queue st q, [CORead e]))
      | [] => None
      end
  | CTrigger =>
      match c_trig st, c_deb st with
      | S t, DWait | S t, DTimer _ => Some (Ok (with_deb st t (DTimer 0), []))
      | _, _ => None
      end
  | CTimeout =>
      match c_deb st with
      | DTimer age =>
          if (save_delay <=? age)%N then
            if c_file st
            then Some (Ok (with_deb st (c_trig st) DSaving, [COSave (c_nodes st)]))
            else Some (Ok (with_deb st (c_trig st) DWait, []))
          else None
      | _ => None
      end
  | CSaved =>
      match c_deb st with
      | DSaving => Some (Ok (with_deb st (c_trig st) DWait, []))
      | _ => None
      end
  | CTick d =>
      match c_deb st with
      | DTimer age => Some (Ok (with_deb st (c_trig st) (DTimer (age + d)), []))
      | _ => Some (Ok (st, []))
      end
  end.

(** A run; a panic ends it. *)
Fixpoint crun (st : cst) (ls : list clabel) : option (res (cst * list cobs)) :=
  match ls with
  | [] => Some (Ok (st, []))
  | l :: r =>
      match cstep st l with
      | None => None
      | Some (Ok (st1, o1)) =>
          match crun st1 r with
          | None => None
          | Some (Ok (st2, o2)) => Some (Ok (st2, o1 ++ o2))
          | Some f => Some f
          end
      | Some f => Some f
      end
  end.

(** ** Start-up: gozwave.go:38-51 with connection.go:115-144 [Connect].
    [s_notices]: goroutines of connection.go:132-140 that have not yet reported
    the connection.  [s_main]: the caller of ConnectWithCustomPortOpener. *)
Inductive sport : Type := SClosed | SOpen.
Inductive smain : Type := MBusy | MWaiting | MOk | MErr.
Record sst : Type := mkS { s_port : sport; s_notices : nat; s_main : smain }.
Inductive slabel : Type :=
| SMainWaits                 (* gozwave.go:48: the caller reaches the receive *)
| SOpens                     (* Open succeeds; reader, writer and notice start *)
| SOpenFails                 (* Open fails; the error is offered *)
| SNotice                    (* 200 ms later: nil is offered *)
| SReadFails.                (* the reader fails and closes the port *)
Inductive sobs : Type := SOOpened | SOClosed | SOReturned (ok : bool).

(** [select { case connectChan <- err: default: }] *)
Definition offer (m : smain) (ok : bool) : smain * list sobs :=
  match m with
  | MWaiting => (if ok then MOk else MErr, [SOReturned ok])
  | _ => (m, [])
  end.
Definition sstep (st : sst) (l : slabel) : option (sst * list sobs) :=
  match l with
  | SMainWaits =>
      match s_main st with
      | MBusy => Some (mkS (s_port st) (s_notices st) MWaiting, [])
      | _ => None
      end
  | SOpens =>
      match s_port st with
      | SClosed => Some (mkS SOpen (S (s_notices st)) (s_main st), [SOOpened])
      | SOpen => None
      end
  | SOpenFails =>
      match s_port st with
      | SClosed => let '(m, o) := offer (s_main st) false in
                   Some (mkS SClosed (s_notices st) m, o)
      | SOpen => None
      end
  | SNotice =>
      match s_notices st with
      | S k => let '(m, o) := offer (s_main st) true in Some (mkS (s_port st) k m, o)
      | O => None
      end
  | SReadFails =>
      match s_port st with
      | SOpen => Some (mkS SClosed (s_notices st) (s_main st), [SOClosed])
      | SClosed => None
      end
  end.
Fixpoint srun (st : sst) (ls : list slabel) : option (sst * list sobs) :=
  match ls with
  | [] => Some (st, [])
  | l :: r =>
      match sstep st l with
      | None => None
      | Some (st1, o1) =>
          match srun st1 r with
          | None => None
          | Some (st2, o2) => Some (st2, o1 ++ o2)
          end
      end
  end.
Definition sinit : sst := mkS SClosed 0 MBusy.
