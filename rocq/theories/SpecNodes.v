(** Vocabulary for properties of nodes. *)
From Verif Require Import ModelBase ModelReports ModelNodes ModelList.
From Coq Require Import Floats.SpecFloat.

(** The node lists command class [c]. *)
Definition supports (n : node) (c : byte) : Prop :=
  exists l v, n_classes n = Some l /\ In v l /\ cc_id v = c.

(** The double [v] is exactly the integer [z]. *)
Definition is_integer (v : spec_float) (z : Z) : Prop :=
  match v with
  | S754_zero _ => z = 0%Z
  | S754_finite s m e =>
      let sm := if s then Zneg m else Zpos m in
      if (0 <=? e)%Z then (z = sm * 2 ^ e)%Z else (z * 2 ^ (- e) = sm)%Z
  | _ => False
  end.

(** Everything of a node except the two state maps. *)
Definition same_but_state (a b : node) : Prop :=
  n_id a = n_id b /\ n_awake a = n_awake b /\ n_info a = n_info b /\ n_ms a = n_ms b /\
  n_brand a = n_brand b /\ n_product a = n_product b /\ n_description a = n_description b /\
  n_classes a = n_classes b /\ n_endpoints a = n_endpoints b /\
  n_states_ok a = n_states_ok b /\ n_identified a = n_identified b.

(** [m'] is [m] with key [k] bound to [v] and nothing else changed. *)
Definition updated {V} (m m' : smap V) (k : string) (v : V) : Prop :=
  mget k m' = Some v /\ forall k', k' <> k -> mget k' m' = mget k' m.
Definition unchanged {V} (m m' : smap V) : Prop := forall k, mget k m' = mget k m.

Local Open Scope string_scope.
(** What each kind of report says about a node: the effect on the boolean map
    and on the numeric map. *)
Inductive report_effect (n n' : node) : report -> Prop :=
| eff_switch1 : forall cur valid,
    updated (n_bool n) (n_bool n') "on" cur -> unchanged (n_float n) (n_float n') ->
    report_effect n n' (RSwitchBinary1 cur valid)
| eff_switch2 : forall cur target dur,
    updated (n_bool n) (n_bool n') "on" cur -> unchanged (n_float n) (n_float n') ->
    report_effect n n' (RSwitchBinary2 cur target dur)
| eff_level1 : forall cur valid v on,
    updated (n_bool n) (n_bool n') "on" on -> (on = true <-> cur <> 0%N) ->
    updated (n_float n) (n_float n') "level" v -> is_integer v (Z.of_N cur) ->
    report_effect n n' (RSwitchMulti1 cur valid)
| eff_level4 : forall cur target dur valid tvalid v on,
    updated (n_bool n) (n_bool n') "on" on -> (on = true <-> cur <> 0%N) ->
    updated (n_float n) (n_float n') "level" v -> is_integer v (Z.of_N cur) ->
    report_effect n n' (RSwitchMulti4 cur target dur valid tvalid)
| eff_sensor : forall vt size scale prec value ts unit,
    unchanged (n_bool n) (n_bool n') ->
    updated (n_float n) (n_float n') (to_lower (ts ++ "_" ++ unit)) value ->
    report_effect n n' (RSensor vt size scale prec value ts unit).

(** Reports that describe state (alarms are treated separately). *)
Definition state_report (r : report) : Prop :=
  match r with
  | RSwitchBinary1 _ _ | RSwitchBinary2 _ _ _ | RSwitchMulti1 _ _
  | RSwitchMulti4 _ _ _ _ _ | RSensor _ _ _ _ _ _ _ => True
  | _ => False
  end.
(** An alarm that is being raised, of type [t]. *)
Definition raised (r : report) (t : byte) : Prop :=
  exists level source sensor event raw, r = RAlarm t level source sensor event xff raw.
(** Reports about which a node records nothing. *)
Definition silent_report (r : report) : Prop :=
  ~ state_report r /\ forall t, ~ raised r t.

Close Scope string_scope.
(** The node has both state maps (it was made by New). *)
Definition has_maps (n : node) : Prop := n_bool n <> None /\ n_float n <> None.

(** ** Histories of a node.  Report number [i] of the history. *)
Fixpoint report_number (ls : list nlabel) (i : nat) : option report :=
  match ls, i with
  | [], _ => None
  | NReport r :: _, O => Some r
  | NReport _ :: rest, S j => report_number rest j
  | NWindow _ :: rest, _ => report_number rest i
  end.
(** Report [i] of the history raised an alarm whose window has not ended. *)
Definition window_open (ls : list nlabel) (i : nat) : Prop :=
  (exists r t, report_number ls i = Some r /\ raised r t) /\ ~ In (NWindow i) ls.
(** A label that concerns the alarm flag. *)
Definition alarm_label (l : nlabel) : Prop :=
  match l with NReport r => exists t, raised r t | NWindow _ => True end.

(** Labels that change the node's state and so are to be reported to the
    application. *)
Definition reported (l : nlabel) : bool :=
  match l with
  | NWindow _ => true
  | NReport (RAlarm _ _ _ _ _ st _) => beq st xff
  | NReport (RSwitchBinary1 _ _) | NReport (RSwitchBinary2 _ _ _) | NReport (RSwitchMulti1 _ _)
  | NReport (RSwitchMulti4 _ _ _ _ _) | NReport (RSensor _ _ _ _ _ _ _) => true
  | _ => false
  end.

(** ** Histories of waiting.  The node is listening after the history. *)
Definition listening (flag0 : bool) (h : list wlabel) : Prop :=
  (exists p q, h = p ++ WFlag true :: q /\ forall b, ~ In (WFlag b) q) \/
  (flag0 = true /\ forall b, ~ In (WFlag b) h).
(** Goroutine [g] is inside isAwake: it entered while the node was not listening. *)
Definition in_call (flag0 : bool) (h : list wlabel) (g : nat) : Prop :=
  exists p q, h = p ++ WEnter g :: q /\ ~ listening flag0 p /\ ~ In (WFetch g) q.
(** Somebody entered isAwake since the last wake-up: there is a channel. *)
Definition channel_made (flag0 : bool) (h : list wlabel) : Prop :=
  exists g p q, h = p ++ WEnter g :: q /\ ~ listening flag0 p /\ ~ In WWakeUp q.
(** Goroutine [g] waits on a channel, and no wake-up was received since. *)
Definition waiting (flag0 : bool) (h : list wlabel) (g : nat) : Prop :=
  exists p q, h = p ++ WFetch g :: q /\ in_call flag0 p g /\ channel_made flag0 p /\
    ~ In WWakeUp q.

(** ** The node list. *)
(** The list after adding the nodes [ns] in order. *)
Definition adds (l0 : nlist) (ns : list node) : nlist := fold_left list_add ns l0.
(** The last node with id [id] in a list of added nodes. *)
Definition last_added (added : list node) (id : Z) (n : node) : Prop :=
  exists p q, added = p ++ n :: q /\ n_id n = id /\ forall m, In m q -> n_id m <> id.
(** The same node, with its endpoints pointing back to it. *)
Definition linked_copy (n n' : node) : Prop :=
  n_id n' = n_id n /\ n_awake n' = n_awake n /\ n_info n' = n_info n /\ n_ms n' = n_ms n /\
  n_brand n' = n_brand n /\ n_product n' = n_product n /\ n_description n' = n_description n /\
  n_classes n' = n_classes n /\ n_bool n' = n_bool n /\ n_float n' = n_float n /\
  n_states_ok n' = n_states_ok n /\ n_identified n' = n_identified n /\
  match n_endpoints n, n_endpoints n' with
  | None, None => True
  | Some l, Some l' => Forall2 (fun e e' => e_id e' = e_id e /\ e_classes e' = e_classes e /\
      e_bool e' = e_bool e /\ e_float e' = e_float e /\ e_linked e' = true) l l'
  | _, _ => False
  end.

(** ** Histories of the list's lock: an Add has begun and not finished. *)
Definition add_in_progress (h : list klabel) : Prop :=
  exists a p q, h = p ++ KAddLock a :: q /\ ~ In (KAddUnlock a) q.
(** A reader is looking at the map: past its lock and not yet returned. *)
Definition reading (h : list klabel) (g : nat) : Prop :=
  In (KRLock g) h /\ ~ In (KReturn g) h.
