(** The controller on top of its connection: gozwave.go:17-55 together with the
    machines of ModelConnection and ModelController.  The connection hands
    reports to DeliverReportToNode (gozwave.go:28) and answers to getNodes
    (controller.go:40-54). *)
From Verif Require Import ModelBase ModelReports ModelSerial ModelNodes ModelList ModelController.
From Verif Require Import ModelConnection.

(** The request of getNodes: its number, and whether getNodes holds the reply
    channel.  (A nil channel is never received from: connection.go:90.) *)
Record sys : Type := mkSys { y_conn : conn; y_ctl : cst; y_ask : option (nat * bool) }.

Inductive ylabel : Type :=
| YConn (l : label)   (* a step of the connection or of somebody who sends *)
| YStart              (* gozwave.go:48-54: connected, getNodes and saveDebouncer start *)
| YCtl (l : clabel).  (* a step of the controller that the connection has no part in *)

Definition own_step (l : clabel) : bool :=
  match l with CConnected | CAnswer _ | CReport _ _ => false | _ => true end.

(** What an event of the connection makes the controller do. *)
Definition react (ask : option (nat * bool)) (c : cst) (e : event) : option clabel :=
  match e with
  | EvCallback n r => Some (CReport n r)                    (* controller.go:126-132 *)
  | EvDeliver i m =>                                        (* controller.go:47 *)
      match ask, c_disc c with
      | Some (j, true), DcAsked => if (i =? j)%nat then Some (CAnswer m) else None
      | _, _ => None
      end
  | EvClose i =>
      match ask, c_disc c with
      | Some (j, true), DcAsked => if (i =? j)%nat then Some (CAnswer None) else None
      | _, _ => None
      end
  | _ => None
  end.
Definition hold (ask : option (nat * bool)) (e : event) : option (nat * bool) :=
  match e, ask with
  | EvGot i, Some (j, false) => if (i =? j)%nat then Some (j, true) else ask
  | _, _ => ask
  end.

Fixpoint follow (ask : option (nat * bool)) (c : cst) (ev : list event)
  : option (res (option (nat * bool) * cst * list cobs)) :=
  match ev with
  | [] => Some (Ok (ask, c, []))
  | e :: r =>
      match react ask c e with
      | None => follow (hold ask e) c r
      | Some l =>
          match cstep c l with
          | None => None
          | Some (Ok (c1, o1)) =>
              match follow (hold ask e) c1 r with
              | Some (Ok (a, c2, o2)) => Some (Ok (a, c2, o1 ++ o2))
              | x => x
              end
          | Some (Fail e) => Some (Fail e)
          | Some Panic => Some Panic
          end
      end
  end.

(** A step shows events of the connection and of the controller.  getNodes:
    controller.go:41. *)
Definition ystep (y : sys) (l : ylabel) : option (res (sys * list event * list cobs)) :=
  match l with
  | YConn l =>
      match step (y_conn y) l with
      | None => None
      | Some (s, ev) =>
          match follow (y_ask y) (y_ctl y) ev with
          | None => None
          | Some (Ok (a, c, o)) => Some (Ok (mkSys s c a, ev, o))
          | Some (Fail e) => Some (Fail e)
          | Some Panic => Some Panic
          end
      end
  | YStart =>
      match step (y_conn y) (LCall [x02] WaitMessage true x00), cstep (y_ctl y) CConnected with
      | Some (s, ev), Some (Ok (c, o)) => Some (Ok (mkSys s c (Some (c_next (y_conn y), false)), ev, o))
      | _, _ => None
      end
  | YCtl l =>
      if own_step l then
        match cstep (y_ctl y) l with
        | None => None
        | Some (Ok (c, o)) => Some (Ok (mkSys (y_conn y) c (y_ask y), [], o))
        | Some (Fail e) => Some (Fail e)
        | Some Panic => Some Panic
        end
      else None
  end.

Fixpoint yrun (y : sys) (ls : list ylabel) : option (res (sys * list event * list cobs)) :=
  match ls with
  | [] => Some (Ok (y, [], []))
  | l :: r =>
      match ystep y l with
      | None => None
      | Some (Ok (y1, e1, o1)) =>
          match yrun y1 r with
          | Some (Ok (y2, e2, o2)) => Some (Ok (y2, e1 ++ e2, o1 ++ o2))
          | x => x
          end
      | Some (Fail e) => Some (Fail e)
      | Some Panic => Some Panic
      end
  end.

(** gozwave.go:22-36, with the nodes [ns] of the file. *)
Definition ystart (file : bool) (ns : list node) : sys :=
  mkSys init (load_nodes (new_controller file) ns) None.
