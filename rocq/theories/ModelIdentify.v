(** Model of the identification of one node: nodes/node.go:153-302 [Identify]
    with its requests, interleaved with the reports processed for the node. *)
From Verif Require Import ModelBase ModelReports ModelSerial ModelCommands ModelNodes.
From Verif Require Import DataDevices ModelDatabase.
Local Open Scope string_scope.

(** ** Changes of the node made by Identify *)

(** node.go:167-168 *)
Definition set_info (n : node) (pi : protocol_info) : node :=
  {| n_id := n_id n; n_awake := pi_listening pi; n_info := Some pi; n_ms := n_ms n;
     n_brand := n_brand n; n_product := n_product n; n_description := n_description n;
     n_classes := n_classes n; n_endpoints := n_endpoints n;
     n_bool := n_bool n; n_float := n_float n;
     n_states_ok := n_states_ok n; n_identified := n_identified n |}.
(** node.go:179 *)
Definition set_classes (n : node) (cc : option (list cclass)) : node :=
  {| n_id := n_id n; n_awake := n_awake n; n_info := n_info n; n_ms := n_ms n;
     n_brand := n_brand n; n_product := n_product n; n_description := n_description n;
     n_classes := cc; n_endpoints := n_endpoints n;
     n_bool := n_bool n; n_float := n_float n;
     n_states_ok := n_states_ok n; n_identified := n_identified n |}.
(** node.go:196-205.  The slices of the mandatory table are composite literals
    without spare capacity, so the appends never write into the shared table. *)
Definition append_classes (cc : option (list cclass)) (l : list cclass) : option (list cclass) :=
  match l with
  | [] => cc
  | _ => Some ((match cc with Some c => c | None => [] end) ++ l)%list
  end.
Definition set_manufacturer (n : node) (ms : mspec) : node :=
  let dev := device_new (ms_manufacturer ms) (ms_type ms) (ms_id ms) in
  {| n_id := n_id n; n_awake := n_awake n; n_info := n_info n; n_ms := Some ms;
     n_brand := match dev with Some d => d_brand d | None => n_brand n end;
     n_product := match dev with Some d => d_product d | None => n_product n end;
     n_description := match dev with Some d => d_description d | None => n_description n end;
     n_classes := match dev with Some d => append_classes (n_classes n) (d_classes d)
                            | None => n_classes n end;
     n_endpoints := n_endpoints n; n_bool := n_bool n; n_float := n_float n;
     n_states_ok := n_states_ok n; n_identified := n_identified n |}.
(** request_states.go:53 *)
Definition set_states_ok (n : node) : node :=
  {| n_id := n_id n; n_awake := n_awake n; n_info := n_info n; n_ms := n_ms n;
     n_brand := n_brand n; n_product := n_product n; n_description := n_description n;
     n_classes := n_classes n; n_endpoints := n_endpoints n;
     n_bool := n_bool n; n_float := n_float n;
     n_states_ok := true; n_identified := n_identified n |}.
(** node.go:298 *)
Definition set_identified (n : node) : node :=
  {| n_id := n_id n; n_awake := n_awake n; n_info := n_info n; n_ms := n_ms n;
     n_brand := n_brand n; n_product := n_product n; n_description := n_description n;
     n_classes := n_classes n; n_endpoints := n_endpoints n;
     n_bool := n_bool n; n_float := n_float n;
     n_states_ok := n_states_ok n; n_identified := true |}.

(** ** Requests, as handed to the connection *)
(** protocol_info.go:19-25 *)
Definition info_request (n : node) : list byte := encode_serial_raw [x41; Z2b (n_id n)].
(** manufacurer_specific.go:15-26 *)
Definition ms_request (n : node) : list byte := encode_raw (n_id n) [x72; x04; x00].
(** request_endpoints.go:28-36 *)
Definition endpoints_request (n : node) : list byte := encode_raw (n_id n) [x60; x07; x25].
(** request_states.go:17-24, 26-33, 35-42 *)
Definition state_request (n : node) (c : cclass) : option (list byte) :=
  match cc_id c with
  | x25 => Some (encode_raw (n_id n) [x25; x02; x25])
  | x26 => Some (encode_raw (n_id n) [x26; x02; x25])
  | x31 => Some (encode_raw (n_id n) [x31; x01; x25])
  | _ => None
  end.
(** Only the sensor request waits for its report (request_states.go:43). *)
Definition state_waits (c : cclass) : bool := beq (cc_id c) x31.

(** ** The machine *)
Inductive stage : Type := SMs | SEp | SSt.
(** Where the goroutine of Identify is. *)
Inductive ipc : Type :=
| ITop                          (* line 157 *)
| IInfo                         (* waiting in RequestProtocolInfo *)
| IPause                        (* sleeping ten seconds after a failure *)
| IEnter (s : stage)            (* about to call isAwake (187, 249, 268) *)
| IFetch (s : stage)            (* isAwake between lines 78 and 80 *)
| IWait (s : stage) (c : option nat)   (* receiving from the channel; None: nil *)
| ISend (s : stage)             (* awake: about to make the request *)
| IAwait (s : stage)            (* waiting for the answer (manufacturer, endpoints) *)
| IStates (l : list cclass)     (* request_states.go:15: classes not yet handled *)
| IAwaitState (l : list cclass) (* waiting for the sensor report *)
| IFinal                        (* between lines 295 and 297 *)
| IDone                         (* returned *)
| ICrash.                       (* another goroutine panicked *)

Record ist : Type := mkI { i_pc : ipc; i_node : node; i_chan : option nat; i_fresh : nat }.

Inductive ilabel : Type :=
| IGo                           (* the goroutine runs to its next pause *)
| ITimer                        (* the ten seconds are over *)
| IGotInfo (m : option message) (* the channel of RequestProtocolInfo delivers *)
| IGotReport (r : option report) (* the channel of a report request delivers *)
| IReport (r : report)          (* ProcessEvent for a report of the node *)
| IWindow.                      (* the end of an alarm window; allowed at any
                                   time, which includes all real runs *)
(** What can be seen from outside. *)
Inductive iobs : Type :=
| OWrite (m : list byte)        (* a command handed to the connection *)
| OEvent (address : Z)          (* a NodeUpdated event *)
| OWakeUp.                      (* a wake-up report was processed *)

(** node.go:246-302 *)
Definition after_ms (n : node) : ipc * list iobs :=
  match n_endpoints n with
  | None => (IEnter SEp, [])
  | Some _ =>
      if n_states_ok n then (IFinal, [OEvent (n_id n)]) else (IEnter SSt, [])
  end.
(** node.go:175-186.  The table is visited in source order here; the result of
    the lookup does not depend on the order (C56). *)
Definition after_info (n : node) (pi : protocol_info)
  : ipc * node * list iobs :=
  let n' := set_classes n (get_mandatory definitions (pi_generic pi) (pi_specific pi)) in
  match n_ms n' with
  | None => (IEnter SMs, n', [])
  | Some _ => let '(pc, o) := after_ms n' in (pc, n', o)
  end.

Definition istep (st : ist) (l : ilabel) : option (ist * list iobs) :=
  let n := i_node st in
  let go pc n o := Some (mkI pc n (i_chan st) (i_fresh st), o) in
  match l with
  | IGo =>
      match i_pc st with
      | ITop =>
          match n_info n with
          | None => go IInfo n [OWrite (info_request n)]
          | Some pi => let '(pc, n', o) := after_info n pi in go pc n' o
          end
      | IEnter s =>                                   (* node.go:70-78 *)
          if n_awake n then go (ISend s) n []
          else match i_chan st with
               | Some _ => go (IFetch s) n []
               | None => Some (mkI (IFetch s) n (Some (i_fresh st)) (S (i_fresh st)), [])
               end
      | IFetch s => go (IWait s (i_chan st)) n []     (* node.go:80 *)
      | ISend SMs => go (IAwait SMs) n [OWrite (ms_request n)]
      | ISend SEp =>                                  (* request_endpoints.go:15-38 *)
          match n_classes n with
          | None => go IPause (set_endpoints n []) []
          | Some _ => go (IAwait SEp) n [OWrite (endpoints_request n)]
          end
      | ISend SSt =>
          go (IStates (match n_classes n with Some l => l | None => [] end)) n []
      | IStates [] => go ITop (set_states_ok n) []
      | IStates (c :: r) =>
          match state_request n c with
          | None => go (IStates r) n []
          | Some m => go (if state_waits c then IAwaitState r else IStates r) n [OWrite m]
          end
      | IFinal => go IDone (set_identified n) []
      | _ => None
      end
  | ITimer => match i_pc st with IPause => go ITop n [] | _ => None end
  | IGotInfo m =>
      match i_pc st with
      | IInfo =>
          match m with
          | Some msg =>
              match m_data msg with
              | Some (PInfo pi) =>
                  let n1 := set_info n pi in
                  let '(pc, n2, o) := after_info n1 pi in
                  go pc n2 (OEvent (n_id n) :: o)
              | _ => go IPause n []
              end
          | None => go IPause n []
          end
      | _ => None
      end
  | IGotReport r =>
      match i_pc st with
      | IAwait SMs =>
          match r with
          | Some (RManufacturer m t i) =>
              let n1 := set_manufacturer n (mkMS m t i) in
              let '(pc, o) := after_ms n1 in
              go pc n1 (OEvent (n_id n) :: o)
          | _ => go IPause n []
          end
      | IAwait SEp =>
          match r with
          | Some (REndpoints _ _ count) =>
              go ITop (set_endpoints n (made_endpoints n count)) [OEvent (n_id n)]
          | _ => go IPause n []
          end
      | IAwaitState rest => go (IStates rest) n []
      | _ => None
      end
  | IReport r =>
      match i_pc st with
      | ICrash => None
      | pc =>
          match r with
          | RWakeUp =>                                (* node.go:108-113 *)
              match i_chan st with
              | None => go pc n [OWakeUp]
              | Some c =>
                  let pc' := match pc with
                             | IWait s (Some d) => if Nat.eqb c d then ISend s else pc
                             | _ => pc
                             end in
                  Some (mkI pc' n None (i_fresh st), [OWakeUp])
              end
          | _ =>
              match process_event n r with
              | Ok (n', evs, _) => go pc n' (map OEvent evs)
              | _ => go ICrash n []
              end
          end
      end
  | IWindow =>
      match i_pc st with
      | ICrash => None
      | pc => match alarm_window_end n with
              | Ok (n', evs) => go pc n' (map OEvent evs)
              | _ => go ICrash n []
              end
      end
  end.

Fixpoint irun (st : ist) (ls : list ilabel) : option (ist * list iobs) :=
  match ls with
  | [] => Some (st, [])
  | l :: r =>
      match istep st l with
      | None => None
      | Some (st1, o1) =>
          match irun st1 r with
          | None => None
          | Some (st2, o2) => Some (st2, (o1 ++ o2)%list)
          end
      end
  end.

(** Identify starts on a node that was just created or loaded from the
    configuration: everything that is not saved is unset. *)
Definition istart (n : node) : ist := mkI ITop n None 0.
