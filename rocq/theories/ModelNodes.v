(** Model of package nodes: the node record, commands sent to nodes and
    endpoints, and the effect of reports on a node. *)
From Verif Require Import ModelBase ModelReports ModelSerial ModelCommands.
From Coq Require Import Floats.SpecFloat.
Local Open Scope string_scope.

(** ** Go maps with string keys: nil, or an association list.  Iteration order
    never matters where these are used. *)
Definition smap (V : Type) : Type := option (list (string * V)).
Fixpoint alookup {V} (k : string) (m : list (string * V)) : option V :=
  match m with
  | [] => None
  | (k', v) :: r => if String.eqb k k' then Some v else alookup k r
  end.
Fixpoint aset {V} (k : string) (v : V) (m : list (string * V)) : list (string * V) :=
  match m with
  | [] => [(k, v)]
  | (k', w) :: r => if String.eqb k k' then (k, v) :: r else (k', w) :: aset k v r
  end.
(** [m[k]]: reading a nil map finds nothing. *)
Definition mget {V} (k : string) (m : smap V) : option V :=
  match m with None => None | Some l => alookup k l end.
(** [m[k] = v]: assigning to a nil map panics. *)
Definition mset {V} (k : string) (v : V) (m : smap V) : res (smap V) :=
  match m with None => Panic | Some l => Ok (Some (aset k v l)) end.

(** database/types.go:5-12 *)
Record cclass : Type := mkCC {
  cc_id : byte; cc_innif : bool; cc_secure : bool; cc_nonsecure : bool; cc_version : string }.

(** nodes/endpoints.go:10-18.  [e_linked] says whether the back pointer to the
    node is set.  StateBool and StateFloat of endpoints are never written. *)
Record endpoint : Type := mkEndpoint {
  e_id : Z; e_classes : option (list cclass);
  e_bool : smap bool; e_float : smap spec_float;
  e_linked : bool }.

(** commands/reports/manufacturer_specific.go:10-15 *)
Record mspec : Type := mkMS { ms_manufacturer : string; ms_type : string; ms_id : string }.

(** nodes/node.go:30-59, without the lock, the connection, the callback and
    the wake-up channel (see [wake_step]).  Nil slices are [None]; elements of the
    pointer slices are taken to be non-nil. *)
Record node : Type := mkNode {
  n_id : Z; n_awake : bool;
  n_info : option protocol_info; n_ms : option mspec;
  n_brand : string; n_product : string; n_description : string;
  n_classes : option (list cclass); n_endpoints : option (list endpoint);
  n_bool : smap bool; n_float : smap spec_float;
  n_states_ok : bool; n_identified : bool }.

(** node.go:17-28 [New] *)
Definition new_node (address : Z) : node :=
  {| n_id := address; n_awake := false; n_info := None; n_ms := None;
     n_brand := ""; n_product := ""; n_description := "";
     n_classes := None; n_endpoints := None; n_bool := Some []; n_float := Some [];
     n_states_ok := false; n_identified := false |}.

(** node.go:308-320 [HasCommand] *)
Definition has_command (n : node) (c : byte) : bool :=
  match n_classes n with
  | None => false
  | Some l => existsb (fun v => beq (cc_id v) c) l
  end.

(** node.go:322-328 [IsDeviceClass] *)
Definition is_device_class (n : node) (generic specific : byte) : bool :=
  match n_info n with
  | None => false
  | Some pi => beq (pi_generic pi) generic && beq (pi_specific pi) specific
  end.

(** commands.go:8-29 [On]: the commands handed to connection.Write. *)
Definition node_on (n : node) : list (list byte) :=
  if has_command n x25 then [encode_switch_binary (n_id n) true]
  else if has_command n x26 then [encode_switch_multilevel x00 (n_id n) (f64_of_Z 100)]
  else [].

(** commands.go:31-52 [Off] *)
Definition node_off (n : node) : list (list byte) :=
  if has_command n x25 then [encode_switch_binary (n_id n) false]
  else if has_command n x26 then [encode_switch_multilevel x00 (n_id n) (f64_of_Z 0)]
  else [].

(** commands.go:54-69 [Level]; [undef] as in [multilevel_byte]. *)
Definition node_level (undef : byte) (n : node) (v : spec_float) : list (list byte) :=
  if has_command n x26 then [encode_switch_multilevel undef (n_id n) v] else [].

(** endpoints.go:20-31 [Endpoint] on a non-nil node: nil, a panic, or the
    element.  A negative index panics like one past the end. *)
Definition node_endpoint (n : node) (id : Z) : res (option endpoint) :=
  let eps := match n_endpoints n with Some l => l | None => [] end in
  if (Z.of_nat (List.length eps) <? id)%Z then Ok None
  else if (id <? 0)%Z then Panic
  else match nth_error eps (Z.to_nat id) with
       | Some e => Ok (Some e)
       | None => Panic
       end.

(** endpoints.go:33-36 [Endpoint.Write] *)
Definition endpoint_write (e : endpoint) (msg : list byte) : res (list (list byte)) :=
  if e_linked e then
    do m <- encode_multichannel msg (e_id e);
    Ok [m]
  else Panic.

(** [e.node.HasCommand], [e.node.Id]: reading through an unset back pointer
    panics. *)
Definition endpoint_send (e : endpoint) (cmds : list (list byte)) : res (list (list byte)) :=
  if e_linked e then
    match cmds with
    | [] => Ok []
    | m :: _ => endpoint_write e m
    end
  else Panic.

(** endpoints.go:38-59 [On], 61-82 [Off], 84-99 [Level]: the same choice as on
    the owning node [n], then [Endpoint.Write]. *)
Definition endpoint_on (n : node) (e : endpoint) := endpoint_send e (node_on n).
Definition endpoint_off (n : node) (e : endpoint) := endpoint_send e (node_off n).
Definition endpoint_level (undef : byte) (n : node) (e : endpoint) (v : spec_float) :=
  endpoint_send e (node_level undef n v).

(** request_endpoints.go:52-65: the endpoints made from a report announcing
    [count] of them. *)
Definition made_endpoints (n : node) (count : N) : list endpoint :=
  map (fun i => mkEndpoint (Z.of_nat i) (n_classes n) (Some []) (Some []) true)
      (seq 1 (N.to_nat count - 1)).
Definition set_endpoints (n : node) (eps : list endpoint) : node :=
  {| n_id := n_id n; n_awake := n_awake n; n_info := n_info n; n_ms := n_ms n;
     n_brand := n_brand n; n_product := n_product n; n_description := n_description n;
     n_classes := n_classes n; n_endpoints := Some eps;
     n_bool := n_bool n; n_float := n_float n;
     n_states_ok := n_states_ok n; n_identified := n_identified n |}.

(** strings.ToLower on the ASCII strings that occur here. *)
Definition lower_ascii (c : ascii) : ascii :=
  let n := N_of_ascii c in
  if (65 <=? n)%N && (n <=? 90)%N then ascii_of_N (n + 32) else c.
Fixpoint to_lower (s : string) : string :=
  match s with
  | EmptyString => EmptyString
  | String c r => String (lower_ascii c) (to_lower r)
  end.

(** node.go:138: the state key of a sensor reading. *)
Definition sensor_key (typeString unit : string) : string :=
  to_lower (typeString ++ "_" ++ unit).

Definition with_states (n : node) (b : smap bool) (f : smap spec_float) : node :=
  {| n_id := n_id n; n_awake := n_awake n; n_info := n_info n; n_ms := n_ms n;
     n_brand := n_brand n; n_product := n_product n; n_description := n_description n;
     n_classes := n_classes n; n_endpoints := n_endpoints n;
     n_bool := b; n_float := f;
     n_states_ok := n_states_ok n; n_identified := n_identified n |}.
Definition set_bool (n : node) (k : string) (v : bool) : res node :=
  do b <- mset k v (n_bool n);
  Ok (with_states n b (n_float n)).
Definition set_float (n : node) (k : string) (v : spec_float) : res node :=
  do f <- mset k v (n_float n);
  Ok (with_states n (n_bool n) f).

(** node.go:83-145 [ProcessEvent] up to the first release of the lock: the new
    node, the addresses of the NodeUpdated events pushed, and whether an alarm
    window was opened (lines 98-106 then run one second later, see
    [alarm_window_end]).  A panic while the lock is held ends the process.
    The wake-up case (108-113) is in [wake_step] below. *)
Definition process_event (n : node) (r : report) : res (node * list Z * bool) :=
  match r with
  | RAlarm typ _ _ _ _ status _ =>
      if beq status xff then
        do n1 <- set_bool n "alarm" true;
        do n2 <- (if beq typ x00 then Ok n1
                  else do a <- set_float n1 "alarm" (f64_of_Z (Z.of_N (b2N typ)));
                       set_float a "alarmLastType" (f64_of_Z (Z.of_N (b2N typ))));
        Ok (n2, [n_id n], true)
      else Ok (n, [], false)
  | RWakeUp => Ok (n, [], false)
  | RSwitchBinary1 cur _ | RSwitchBinary2 cur _ _ =>
      do n1 <- set_bool n "on" cur;
      Ok (n1, [n_id n], false)
  | RSwitchMulti1 cur _ | RSwitchMulti4 cur _ _ _ _ =>
      do n1 <- set_bool n "on" (0 <? cur)%N;
      do n2 <- set_float n1 "level" (f64_of_Z (Z.of_N cur));
      Ok (n2, [n_id n], false)
  | RSensor _ _ _ _ value ts unit =>
      do n1 <- set_float n (sensor_key ts unit) value;
      Ok (n1, [n_id n], false)
  | RManufacturer _ _ _ | REndpoints _ _ _ => Ok (n, [], false)
  end.

(** node.go:101-106: one second after an alarm. *)
Definition alarm_window_end (n : node) : res (node * list Z) :=
  do n1 <- set_bool n "alarm" false;
  do n2 <- set_float n1 "alarm" (f64_of_Z 0);
  Ok (n2, [n_id n]).

(** ** One node and the goroutines delivering reports to it.
    Each report is processed by its own goroutine (connection.go:282); the
    node's lock makes the parts of ProcessEvent between Lock and Unlock atomic.
    [m_open] are the alarm windows that are open: goroutines waiting at line
    100, by the number of the report they process.  They may end in any order. *)
Record nmach : Type := mkNM { m_node : node; m_next : nat; m_open : list nat }.
Inductive nlabel : Type :=
| NReport (r : report)      (* a goroutine runs ProcessEvent up to line 98 / the end *)
| NWindow (i : nat).        (* the goroutine of report [i] runs lines 101-106 *)

(** The new machine and the events pushed; [None] if the label is not enabled. *)
Definition nstep (m : nmach) (l : nlabel) : option (res (nmach * list Z)) :=
  match l with
  | NReport r =>
      Some (do p <- process_event (m_node m) r;
            let '(n, evs, opened) := p in
            Ok (mkNM n (S (m_next m)) (if opened then m_next m :: m_open m else m_open m), evs))
  | NWindow i =>
      if in_dec Nat.eq_dec i (m_open m) then
        Some (do p <- alarm_window_end (m_node m);
              let '(n, evs) := p in
              Ok (mkNM n (m_next m) (remove Nat.eq_dec i (m_open m)), evs))
      else None
  end.

Fixpoint nrun (m : nmach) (ls : list nlabel) : option (res (nmach * list Z)) :=
  match ls with
  | [] => Some (Ok (m, []))
  | l :: r =>
      match nstep m l with
      | None => None
      | Some (Ok (m1, e1)) =>
          match nrun m1 r with
          | None => None
          | Some (Ok (m2, e2)) => Some (Ok (m2, (e1 ++ e2)%list))
          | Some f => Some f
          end
      | Some f => Some f
      end
  end.

(** ** Waiting for a node to be awake: node.go:69-81 [isAwake] followed by a
    receive from the channel it returns, and the wake-up case of ProcessEvent
    (108-113).  [w_chan] is the field [awake] (channels are numbered as they are
    made), [w_flag] the field IsAwake.  isAwake does not hold the node's lock, so
    a wake-up can be processed between its test of [awake] (76) and its return of
    [awake] (80).  [w_calls] are the goroutines between these two lines,
    [w_waiting] the goroutines blocked in the receive with their channel ([None]:
    nil, on which a receive blocks forever). *)
Record wmach : Type := mkWM {
  w_flag : bool; w_chan : option nat; w_fresh : nat;
  w_calls : list nat; w_waiting : list (nat * option nat) }.
Inductive wlabel : Type :=
| WEnter (g : nat)          (* goroutine [g] runs lines 70-78 of isAwake *)
| WFetch (g : nat)          (* line 80, and the receive begins *)
| WWakeUp                   (* a wake-up report is processed *)
| WFlag (b : bool).         (* node.go:168: IsAwake is set *)

Definition chan_is (c : nat) (p : nat * option nat) : bool :=
  match snd p with Some d => Nat.eqb d c | None => false end.

(** The new machine and the goroutines that got past their wait. *)
Definition wake_step (m : wmach) (l : wlabel) : wmach * list nat :=
  match l with
  | WEnter g =>
      if w_flag m then (m, [g])       (* a closed channel is returned *)
      else match w_chan m with
           | Some c => (mkWM (w_flag m) (Some c) (w_fresh m) (g :: w_calls m) (w_waiting m), [])
           | None => (mkWM (w_flag m) (Some (w_fresh m)) (S (w_fresh m)) (g :: w_calls m)
                           (w_waiting m), [])
           end
  | WFetch g =>
      if existsb (Nat.eqb g) (w_calls m) then
        (mkWM (w_flag m) (w_chan m) (w_fresh m) (remove Nat.eq_dec g (w_calls m))
              ((g, w_chan m) :: w_waiting m), [])
      else (m, [])
  | WWakeUp =>
      match w_chan m with
      | None => (m, [])
      | Some c =>
          (mkWM (w_flag m) None (w_fresh m) (w_calls m)
                (filter (fun p => negb (chan_is c p)) (w_waiting m)),
           map fst (filter (chan_is c) (w_waiting m)))
      end
  | WFlag b => (mkWM b (w_chan m) (w_fresh m) (w_calls m) (w_waiting m), [])
  end.
Definition wake_init (flag : bool) : wmach := mkWM flag None 0 [] [].
Fixpoint wake_after (m : wmach) (ls : list wlabel) : wmach :=
  match ls with
  | [] => m
  | l :: r => wake_after (fst (wake_step m l)) r
  end.
(** The goroutines released during a history. *)
Fixpoint wake_released (m : wmach) (ls : list wlabel) : list nat :=
  match ls with
  | [] => []
  | l :: r => snd (wake_step m l) ++ wake_released (fst (wake_step m l)) r
  end%list.
