(** Model of package serialapi: framing, checksum, message decoding. *)
From Verif Require Import ModelBase ModelReports.

(** message.go:73-83 [GenerateChecksum].  Panics on an empty slice; the loop
    runs over indices 1 .. len-2. *)
Definition generate_checksum (data : list byte) : res byte :=
  match data with
  | [] => Panic
  | b0 :: r => Ok (not8 (fold_left xor8 (removelast r) b0))
  end.

(** message.go:86-101 [CompileMessage] *)
Definition compile_message (data : list byte) : list byte :=
  let msg := [x00; x00] ++ data ++ [x00] in
  let msg := set_nth 0 (N2b (N.of_nat (List.length msg) - 1)) msg in
  let msg :=
    match generate_checksum msg with
    | Ok cs => set_nth (List.length msg - 1) cs msg
    | _ => msg                                   (* unreachable: msg is not empty *)
    end in
  x01 :: msg.

(** get_node_protocolinfo.go:5-19 *)
Record protocol_info : Type := mkPI {
  pi_listening : bool; pi_routing : bool; pi_beaming : bool;
  pi_version : byte; pi_flirs : bool; pi_security : bool; pi_maxbaud : Z;
  pi_basic : byte; pi_generic : byte; pi_specific : byte }.

(** get_node_protocolinfo.go:22-51 [NewGetNodeProtocolInfo] *)
Definition new_protocol_info (data : list byte) : res protocol_info :=
  if (List.length data <? 6)%nat then Fail ETooShort else
  do d0 <- idx data 0;
  do d1 <- idx data 1;
  do d3 <- idx data 3;
  do d4 <- idx data 4;
  do d5 <- idx data 5;
  Ok {| pi_listening := hasbit d0 x80;
        pi_routing := hasbit d0 x40;
        pi_version := add8 (and8 d0 x07) x01;
        pi_maxbaud := if beq (and8 d0 x38) x10 then 40000%Z else 9600%Z;
        pi_flirs := hasbit d1 x60;
        pi_beaming := hasbit d1 x10;
        pi_security := hasbit d1 x01;
        pi_basic := d3; pi_generic := d4; pi_specific := d5 |}.

(** [f.ActiveNodes[i] = v] on the fixed array [232]bool: panics outside. *)
Definition upd_bool (arr : list bool) (i : nat) (v : bool) : res (list bool) :=
  if (i <? List.length arr)%nat then Ok (set_nth i v arr) else Panic.

(** discovery_nodes.go:21-31: the loop over the bitmap. *)
Fixpoint discovery_loop (arr : list bool) (index : nat) (data : list byte)
  : res (list bool) :=
  match data with
  | [] => Ok arr
  | bits :: r =>
      do a0 <- upd_bool arr (index * 8 + 0) (hasbit bits x01);
      do a1 <- upd_bool a0 (index * 8 + 1) (hasbit bits x02);
      do a2 <- upd_bool a1 (index * 8 + 2) (hasbit bits x04);
      do a3 <- upd_bool a2 (index * 8 + 3) (hasbit bits x08);
      do a4 <- upd_bool a3 (index * 8 + 4) (hasbit bits x10);
      do a5 <- upd_bool a4 (index * 8 + 5) (hasbit bits x20);
      do a6 <- upd_bool a5 (index * 8 + 6) (hasbit bits x40);
      do a7 <- upd_bool a6 (index * 8 + 7) (hasbit bits x80);
      discovery_loop a7 (S index) r
  end.

(** discovery_nodes.go:12-34 [NewDiscoverdNodes].  The private copy of the data
    is not modelled. *)
Definition new_discovered_nodes (data : list byte) : res (list bool) :=
  if (List.length data <? 6)%nat then Fail ETooShort else
  discovery_loop (repeat false 232) 0 data.

(** message.go:10-18 and the types stored in Message.Data *)
Inductive payload : Type :=
| PCommand (command class : byte) (r : report)   (* *FuncApplicationCommandHandler *)
| PNodes (active : list bool)                    (* *DiscoverdNodes *)
| PInfo (pi : protocol_info).                    (* *FuncGetNodeProtocolInfo *)

Record message : Type := mkMessage {
  m_length : byte; m_type : byte; m_function : byte; m_node : byte;
  m_start : byte; m_data : option payload }.

(** message.go:21-33 *)
Definition is_ack (m : message) : bool := beq (m_start m) x06.
Definition is_nak (m : message) : bool := beq (m_start m) x15.
Definition is_can (m : message) : bool := beq (m_start m) x18.

(** application_command_handler.go:17-34 [NewApplicationCommandHandler].
    SetNode at lines 29-31 acts on a nil embedded pointer and has no effect;
    the fields Class and Command are kept. *)
Definition new_application_command_handler (p : slice) : res payload :=
  do c <- idx (els p) 0;
  do class <- idx (els p) 1;
  do rest <- from p 2;
  do r <- reports_new c class (els rest);
  Ok (PCommand c class r).

(** message.go:104-135 [NewMessage].  [7+data[6]] is computed in a byte. *)
Definition new_message (d : slice) : res message :=
  do b0 <- idx (els d) 0;
  if (len d <=? 1)%nat then
    Ok {| m_length := x00; m_type := x00; m_function := x00; m_node := x00;
          m_start := b0; m_data := None |}
  else
  do l <- idx (els d) 1;
  do t <- idx (els d) 2;
  do f <- idx (els d) 3;
  match f with
  | x04 =>
      do node <- idx (els d) 5;
      do n <- idx (els d) 6;
      do p <- sub d 7 (b2n (add8 x07 n));
      do pl <- new_application_command_handler p;
      Ok {| m_length := l; m_type := t; m_function := f; m_node := node;
            m_start := b0; m_data := Some pl |}
  | x02 =>
      do n <- idx (els d) 6;
      do p <- sub d 7 (b2n (add8 x07 n));
      do a <- new_discovered_nodes (els p);
      Ok {| m_length := l; m_type := t; m_function := f; m_node := x00;
            m_start := b0; m_data := Some (PNodes a) |}
  | x41 =>
      do p <- from d 4;
      do pi <- new_protocol_info (els p);
      Ok {| m_length := l; m_type := t; m_function := f; m_node := x00;
            m_start := b0; m_data := Some (PInfo pi) |}
  | _ =>
      do p <- from d 4;
      Fail ENotImplemented
  end.

(** The three results of Decode. *)
Record decoded : Type := mkDecoded {
  d_len : Z; d_msg : option message; d_err : option err }.

(** message.go:36-70 [Decode].  Returns the results and the slice as it is
    afterwards: line 53, [append(data[1:length+1], 0)], always finds capacity
    (the checksum byte itself is there), so it overwrites data[length+1]. *)
Definition decode (d : slice) : res (decoded * slice) :=
  do b0 <- idx (els d) 0;
  match b0 with
  | x01 =>
      if (len d <? 2)%nat then Ok (mkDecoded 2 None None, d) else
      do lb <- idx (els d) 1;
      let length := b2n lb in
      if (len d <? length + 2)%nat
      then Ok (mkDecoded (Z.of_nat (length + 2)) None None, d) else
      do checksum <- idx (els d) (length + 1);
      let d' := {| els := set_nth (length + 1) x00 (els d); spare := spare d |} in
      let checksumData := firstn (length + 1) (skipn 1 (els d')) in
      do sum <- generate_checksum checksumData;
      if negb (beq checksum sum)
      then Ok (mkDecoded (-1) None (Some EChecksum), d') else
      match new_message d' with
      | Ok m => Ok (mkDecoded (Z.of_nat (length + 2)) (Some m) None, d')
      | Fail e => Ok (mkDecoded (Z.of_nat (length + 2)) None (Some e), d')
      | Panic => Panic
      end
  | x06 | x15 | x18 =>
      match new_message d with
      | Ok m => Ok (mkDecoded 1 (Some m) None, d)
      | Fail _ => Ok (mkDecoded 1 None None, d)    (* error logged, dropped *)
      | Panic => Panic
      end
  | _ => Ok (mkDecoded (-1) None None, d)
  end.
