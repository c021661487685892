(** What the bytes of one frame say, with the payload decoders of the packages
    serialapi and reports (they have properties of their own). *)
From Verif Require Import ModelBase ModelReports ModelSerial SpecFrame SpecDecode.

(** The bytes as they are read: the checksum counts as zero. *)
Definition cleared (f : list byte) : list byte := clear_at (List.length f - 1) f.

(** The payload announced by byte 6. *)
Definition announced (f : list byte) : list byte :=
  firstn (N.to_nat (byte_at f 6)) (skipn 7 (cleared f)).

(** Byte 3 is the function: a report from a node (4), the answer to a request
    for the node list (2) or for protocol info (65). *)
Definition content (f : list byte) : res payload :=
  if (byte_at f 3 =? 4)%N then
    match announced f with
    | c :: k :: data => match reports_new c k data with
                        | Ok r => Ok (PCommand c k r)
                        | Fail e => Fail e
                        | Panic => Panic
                        end
    | _ => Panic
    end
  else if (byte_at f 3 =? 2)%N then
    match new_discovered_nodes (announced f) with
    | Ok a => Ok (PNodes a)
    | Fail e => Fail e
    | Panic => Panic
    end
  else if (byte_at f 3 =? 65)%N then
    match new_protocol_info (skipn 4 (cleared f)) with
    | Ok i => Ok (PInfo i)
    | Fail e => Fail e
    | Panic => Panic
    end
  else Fail ENotImplemented.

(** Only reports have a sender. *)
Definition sender (f : list byte) : byte :=
  if (byte_at f 3 =? 4)%N then nth 5 f x00 else x00.

(** The message in one frame. *)
Definition message_of (f : list byte) : option message :=
  match content f with
  | Ok p => Some (mkMessage (nth 1 f x00) (nth 2 f x00) (nth 3 f x00) (sender f) SOF (Some p))
  | _ => None
  end.
Definition error_of (f : list byte) : option err :=
  match content f with Fail e => Some e | _ => None end.

(** The report in one frame, with the sender at offset 5. *)
Definition report_of (f : list byte) : list (byte * report) :=
  match content f with Ok (PCommand _ _ r) => [(nth 5 f x00, r)] | _ => [] end.
