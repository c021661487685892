(** Who touches which shared map when: the table of pending requests
    (connection.go, field inFlight) and the state of a node (nodes/node.go,
    fields StateBool and StateFloat).  Every goroutine is the sequence of its
    lock operations and of its accesses to the map; an access takes time, from
    [Begin] to [End]. *)
From Verif Require Import ModelBase.

(** [Begin w m site]: an access to map [m] starts; [w]: it changes the map. *)
Inductive op : Set :=
| Lock | Unlock | RLock | RUnlock | Begin (w : bool) (m site : nat) | End.

(** A goroutine: what it holds, the access it is in, what it still has to do. *)
Inductive hold : Set := HNone | HRead | HWrite.
Record thread : Set := mkT { t_hold : hold; t_in : option (bool * nat * nat); t_rest : list op }.

(** sync.RWMutex: Lock returns when nobody holds it, RLock when nobody holds it
    for writing.  (That a waiting Lock holds up later RLocks is left out: it
    allows fewer runs.) *)
Definition held_by_none (ts : list thread) : bool :=
  forallb (fun t => match t_hold t with HNone => true | _ => false end) ts.
Definition no_writer (ts : list thread) : bool :=
  forallb (fun t => match t_hold t with HWrite => false | _ => true end) ts.

(** Goroutine [g] takes its next step. *)
Definition astep (ts : list thread) (g : nat) : option (list thread) :=
  match nth_error ts g with
  | Some t =>
      match t_rest t with
      | Lock :: r => if held_by_none ts then Some (set_nth g (mkT HWrite (t_in t) r) ts) else None
      | RLock :: r => if no_writer ts then Some (set_nth g (mkT HRead (t_in t) r) ts) else None
      | Unlock :: r => match t_hold t with
                       | HWrite => Some (set_nth g (mkT HNone (t_in t) r) ts)
                       | _ => None
                       end
      | RUnlock :: r => match t_hold t with
                        | HRead => Some (set_nth g (mkT HNone (t_in t) r) ts)
                        | _ => None
                        end
      | Begin w m site :: r => Some (set_nth g (mkT (t_hold t) (Some (w, m, site)) r) ts)
      | End :: r => Some (set_nth g (mkT (t_hold t) None r) ts)
      | [] => None
      end
  | None => None
  end.
Fixpoint arun (ts : list thread) (gs : list nat) : option (list thread) :=
  match gs with
  | [] => Some ts
  | g :: r => match astep ts g with Some ts' => arun ts' r | None => None end
  end.
Definition start (p : list op) : thread := mkT HNone None p.

Definition access (w : bool) (m site : nat) : list op := [Begin w m site; End].

(** ** The table of pending requests.  Sites are lines of connection.go. *)
(** connection.go:151-175: Writer takes a package. *)
Definition writer_take : list op := [Lock] ++ access true 0 154 ++ [Unlock].
(** connection.go:345-353 [timeoutWorker]: [found] after how many entries its
    own is met, and how many follow. *)
Definition timeout_worker (before : nat) (found : option nat) : list op :=
  [Lock] ++ List.concat (repeat (access false 0 346) (S before)) ++
  match found with
  | Some after => access true 0 349 ++ List.concat (repeat (access false 0 346) (S after))
  | None => []
  end ++ [Unlock].
(** connection.go:214-236: the loop for a control byte; for every entry met,
    whether it is deleted (line 224).  The loop itself looks at the table
    without the lock. *)
Definition control_loop (entries : list bool) : list op :=
  List.concat (map (fun del : bool => access false 0 214 ++ [RLock] ++
                     (if del then access true 0 224 else []) ++ [RUnlock]) entries) ++
  access false 0 214.
(** connection.go:253-270: the loop for a frame; whether each entry matches. *)
Definition frame_loop (entries : list bool) : list op :=
  [Lock] ++ List.concat (map (fun del : bool => access false 0 254 ++
                               (if del then access true 0 269 else [])) entries) ++
  access false 0 254 ++ [Unlock].
(** Reader meets control bytes and frames.  There is one reader at a time:
    Connect calls Reader and is called again only after it returned
    (gozwave.go:39-45). *)
Inductive received : Set := RControlByte (entries : list bool) | RFrame (entries : list bool).
Definition reader_ops (l : list received) : list op :=
  List.concat (map (fun r => match r with
                             | RControlByte e => control_loop e
                             | RFrame e => frame_loop e
                             end) l).
(** The other goroutines: any number of writers and of timers. *)
Inductive other : Set := OWrite | OTimer (before : nat) (found : option nat).
Definition other_ops (l : list other) : list op :=
  List.concat (map (fun o => match o with
                             | OWrite => writer_take
                             | OTimer b f => timeout_worker b f
                             end) l).
Definition connection_threads (reader : list received) (others : list (list other)) : list thread :=
  start (reader_ops reader) :: map (fun o => start (other_ops o)) others.

(** ** The state of a node: map 0 is StateBool, map 1 is StateFloat.  Sites are
    lines of nodes/node.go; 9000 and 9001 are the reflection of encoding/json
    over the two maps. *)
Inductive node_action : Set :=
| NSwitch                      (* node.go:114-123 *)
| NLevel                       (* node.go:124-135 *)
| NSensor                      (* node.go:136-142 *)
| NAlarm (typed : bool)        (* node.go:87-107 *)
| NIgnore                      (* node.go:108-113, and reports without effect *)
| NMarshal (bools floats : nat).  (* controller.go:150: list.go:70-78 and
                                     encoding/json; how often each map is
                                     looked at *)
Definition node_ops (a : node_action) : list op :=
  match a with
  | NSwitch => [Lock] ++ access true 0 115 ++ [Unlock]
  | NLevel => [Lock] ++ access true 0 125 ++ access true 1 126 ++ [Unlock]
  | NSensor => [Lock] ++ access true 1 139 ++ [Unlock]
  | NAlarm typed =>
      [Lock] ++ access true 0 90 ++ (if typed then access true 1 92 ++ access true 1 93 else []) ++ [Unlock] ++
      [Lock] ++ access true 0 102 ++ access true 1 103 ++ [Unlock]
  | NIgnore => [Lock] ++ [Unlock]
  | NMarshal bools floats =>
      [RLock] ++ [RUnlock] ++
      List.concat (repeat (access false 0 9000) bools) ++ List.concat (repeat (access false 1 9001) floats)
  end.
(** Any number of goroutines: each report is processed by its own, and there is
    the one that saves. *)
Definition node_threads (l : list (list node_action)) : list thread :=
  map (fun a => start (List.concat (map node_ops a))) l.
