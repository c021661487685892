(** The whole program: the controller on top of its connection (ModelSystem),
    and one goroutine of Identify (ModelIdentify) for each node that discovery
    starts one for (controller.go:78, 86). *)
From Verif Require Import ModelBase ModelReports ModelSerial ModelCommands ModelNodes ModelList.
From Verif Require Import ModelDatabase ModelIdentify ModelController ModelConnection ModelSystem.

(** What a request of Identify yields: the channel of RequestProtocolInfo, or the
    one of WriteAndWaitForReport (connection.go:101-111), delivers or is closed. *)
Inductive answer : Type := AMessage (m : option message) | AReport (r : option report).

(** [j_req]: its last request; [j_busy]: the request waits to be taken by a
    writer (connection.go:80, 88, 99); [j_holds]: it has the reply channel;
    [j_ans]: the reply, not yet used. *)
Record job : Type := mkJob {
  j_pc : ipc; j_chan : option nat; j_fresh : nat;
  j_req : option nat; j_busy : bool; j_holds : bool; j_ans : option answer }.

Record whole : Type := mkW { w_sys : sys; w_jobs : list (Z * job) }.

(** How a request is handed over, by where the goroutine then waits:
    protocol_info.go:26, manufacurer_specific.go:26, request_endpoints.go:41,
    request_states.go:43, 25, 34. *)
Definition request_kind (pc : ipc) : want * bool * byte :=
  match pc with
  | IInfo => (WaitMessage, true, x00)
  | IAwait SMs => (WaitReport, true, x05)
  | IAwait _ => (WaitReport, true, x08)
  | IAwaitState _ => (WaitReport, true, x02)
  | _ => (NoWait, false, x00)
  end.

Definition own_request (j : job) (i : nat) : bool :=
  match j_req j with Some k => (k =? i)%nat | None => false end.
Definition answered (j : job) : bool := match j_ans j with Some _ => true | None => false end.
Definition with_answer (j : job) (a : option answer) : job :=
  mkJob (j_pc j) (j_chan j) (j_fresh j) (j_req j) (j_busy j) (j_holds j) a.
Definition is_info (pc : ipc) : bool := match pc with IInfo => true | _ => false end.

(** What an event of the connection means for the goroutine of node [id]. *)
Definition hear (id : Z) (j : job) (e : event) : job :=
  match e with
  | EvWire i _ =>
      if own_request j i then mkJob (j_pc j) (j_chan j) (j_fresh j) (j_req j) false (j_holds j) (j_ans j) else j
  | EvGot i =>
      if own_request j i then mkJob (j_pc j) (j_chan j) (j_fresh j) (j_req j) (j_busy j) true (j_ans j) else j
  | EvDeliver i m =>
      if own_request j i && j_holds j && negb (answered j) then
        if is_info (j_pc j) then with_answer j (Some (AMessage m))
        else match m with
             | Some msg => match m_data msg with
                           | Some (PCommand _ _ r) => with_answer j (Some (AReport (Some r)))
                           | _ => j
                           end
             | None => j
             end
      else j
  | EvClose i =>
      if own_request j i && j_holds j && negb (answered j)
      then with_answer j (Some (if is_info (j_pc j) then AMessage None else AReport None))
      else j
  | EvCallback b RWakeUp =>                               (* node.go:108-113 *)
      if (id =? Z.of_N (b2N b))%Z then
        match istep (mkI (j_pc j) (new_node id) (j_chan j) (j_fresh j)) (IReport RWakeUp) with
        | Some (st, _) => mkJob (i_pc st) (i_chan st) (i_fresh st) (j_req j) (j_busy j) (j_holds j) (j_ans j)
        | None => j
        end
      else j
  | _ => j
  end.
Definition hears (ev : list event) (jobs : list (Z * job)) : list (Z * job) :=
  map (fun x => (fst x, fold_left (hear (fst x)) ev (snd x))) jobs.

(** [go node.Identify()] *)
Definition new_job : job := mkJob ITop None 0 None false false None.
Definition started (o : list cobs) (jobs : list (Z * job)) : list (Z * job) :=
  fold_left (fun js x => match x with COIdentify id => zset id new_job js | _ => js end) o jobs.

Inductive wlabel : Type :=
| WSys (l : ylabel)    (* anything but Identify *)
| WGo (id : Z)         (* Identify of node [id] runs to its next pause *)
| WTimer (id : Z)      (* its ten seconds are over *)
| WAnswer (id : Z).    (* it uses the reply it got *)

Definition plain (l : ylabel) : bool :=
  match l with YCtl (CIdent _ _ _) => false | _ => true end.

(** The step of Identify, if it can be made. *)
Definition job_label (l : wlabel) (j : job) : option ilabel :=
  match l with
  | WSys _ => None
  | WGo _ => if j_busy j then None else Some IGo
  | WTimer _ => Some ITimer
  | WAnswer _ => match j_ans j with
                 | Some (AMessage m) => Some (IGotInfo m)
                 | Some (AReport r) => Some (IGotReport r)
                 | None => None
                 end
  end.
Definition commands_of (o : list iobs) : list (list byte) :=
  flat_map (fun x => match x with OWrite m => [m] | _ => [] end) o.
Definition events_of (o : list iobs) : list Z :=
  flat_map (fun x => match x with OEvent a => [a] | _ => [] end) o.
(** What it does to the rest: hand over a command, or change the node and
    publish that. *)
Definition job_effect (id : Z) (st : ist) (o : list iobs) : list ylabel :=
  match commands_of o with
  | m :: _ => let '(w, t, er) := request_kind (i_pc st) in [YConn (LCall m w t er)]
  | [] => match events_of o with
          | [] => [YCtl (CIdent id (i_node st) false)]
          | es => map (fun _ => YCtl (CIdent id (i_node st) true)) es
          end
  end.
Definition job_after (w : whole) (j : job) (st : ist) (o : list iobs) : job :=
  match commands_of o with
  | _ :: _ => mkJob (i_pc st) (i_chan st) (i_fresh st) (Some (c_next (y_conn (w_sys w)))) true false None
  | [] => mkJob (i_pc st) (i_chan st) (i_fresh st) None false false None
  end.

Definition wstep (w : whole) (l : wlabel) : option (res (whole * list event * list cobs)) :=
  match l with
  | WSys yl =>
      if plain yl then
        match ystep (w_sys w) yl with
        | Some (Ok (y, ev, o)) => Some (Ok (mkW y (started o (hears ev (w_jobs w))), ev, o))
        | Some (Fail e) => Some (Fail e)
        | Some Panic => Some Panic
        | None => None
        end
      else None
  | WGo id | WTimer id | WAnswer id =>
      match zlookup id (w_jobs w), zlookup id (c_nodes (y_ctl (w_sys w))) with
      | Some j, Some n =>
          match job_label l j with
          | Some il =>
              match istep (mkI (j_pc j) n (j_chan j) (j_fresh j)) il with
              | Some (st, o) =>
                  match yrun (w_sys w) (job_effect id st o) with
                  | Some (Ok (y, ev, o')) =>
                      Some (Ok (mkW y (zset id (job_after w j st o) (w_jobs w)), ev, o'))
                  | Some (Fail e) => Some (Fail e)
                  | Some Panic => Some Panic
                  | None => None
                  end
              | None => None
              end
          | None => None
          end
      | _, _ => None
      end
  end.

Fixpoint wrun (w : whole) (ls : list wlabel) : option (res (whole * list event * list cobs)) :=
  match ls with
  | [] => Some (Ok (w, [], []))
  | l :: r =>
      match wstep w l with
      | None => None
      | Some (Ok (w1, e1, o1)) =>
          match wrun w1 r with
          | Some (Ok (w2, e2, o2)) => Some (Ok (w2, e1 ++ e2, o1 ++ o2))
          | x => x
          end
      | Some (Fail e) => Some (Fail e)
      | Some Panic => Some Panic
      end
  end.

Definition wstart (file : bool) (ns : list node) : whole := mkW (ystart file ns) [].
