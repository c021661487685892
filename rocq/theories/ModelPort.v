(** The serial port under the connection: Connect may also fail to open it
    (connection.go:122-130), a port that failed is closed (194), and Writer uses
    whatever the field readWriteCloser holds (174).  Everything else is the
    connection of ModelConnection. *)
From Verif Require Import ModelBase ModelReports ModelSerial ModelConnection.

(** The field readWriteCloser: nil (never opened, or the last Open failed; an
    opener returns nil with its error, as serial.OpenPort does), open, or closed
    after a failed Read. *)
Inductive port : Set := PNil | POpen | PClosed.

(** [PLost]: the writer took this command, and the error of Write is dropped. *)
Inductive pevent : Type := PE (e : event) | PLost (id : nat).
Inductive plabel : Type :=
| PDo (l : label)
| POpenFails.        (* connection.go:122-130, 117-120 *)

Definition taken_id (s : conn) : nat :=
  match c_sendq s with (p, _) :: _ => p_id p | [] => 0%nat end.

Definition pstep (sp : conn * port) (l : plabel) : option ((conn * port) * list pevent) :=
  let '(s, p) := sp in
  match l with
  | POpenFails =>
      if c_crashed s then None else
      match c_mode s with
      | RStopped => Some ((set_c_connected false s, PNil), [])
      | _ => None
      end
  | PDo l =>
      match step s l with
      | None => None
      | Some (s', ev) =>
          match l with
          | LConnect => Some ((s', POpen), map PE ev)       (* 122, 142-143 *)
          | LReadFail => Some ((s', PClosed), map PE ev)    (* 194 *)
          | LTake _ =>                                      (* 151-175 *)
              match p with
              | POpen => Some ((s', p), map PE ev)
              | PClosed => Some ((s', p), [PLost (taken_id s)])
              | PNil => Some ((set_c_crashed true s', p), [PE EvCrash])
              end
          | _ => Some ((s', p), map PE ev)
          end
      end
  end.

Definition pinit : conn * port := (init, PNil).
Fixpoint prun (sp : conn * port) (ls : list plabel) : option ((conn * port) * list pevent) :=
  match ls with
  | [] => Some (sp, [])
  | l :: r =>
      match pstep sp l with
      | None => None
      | Some (sp1, ev1) =>
          match prun sp1 r with
          | None => None
          | Some (sp2, ev2) => Some (sp2, ev1 ++ ev2)
          end
      end
  end.
