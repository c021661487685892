(** Vocabulary for the statements about identification. *)
From Verif Require Import ModelBase ModelReports ModelSerial ModelNodes ModelIdentify.

(** A node that was just created, or loaded from a configuration: everything
    that is not saved is unset. *)
Definition unidentified (n : node) : Prop :=
  n_info n = None /\ n_states_ok n = false /\ n_identified n = false.

(** The stage of a request, read off the bytes: 0 protocol info, 1 manufacturer
    get, 2 endpoints get, 3 state get (sensors: supported get); [None]: not a
    request of identification. *)
Definition request_stage (m : list byte) : option nat :=
  match m with
  | [x41; _] => Some 0
  | x13 :: _ :: _ :: x72 :: x04 :: _ => Some 1
  | x13 :: _ :: _ :: x60 :: x07 :: _ => Some 2
  | x13 :: _ :: _ :: (x25 | x26) :: x02 :: _ => Some 3
  | x13 :: _ :: _ :: x31 :: x01 :: _ => Some 3
  | _ => None
  end.
(** The node a request is sent to. *)
Definition request_node (m : list byte) : option byte :=
  match m with _ :: b :: _ => Some b | _ => None end.
(** [m] asks for the state of class [c]: get for the switches, supported-get
    for sensors. *)
Definition asks_state (m : list byte) (c : byte) : Prop :=
  (c = x25 \/ c = x26) /\ (exists a b r, m = x13 :: a :: b :: c :: x02 :: r) \/
  c = x31 /\ exists a b r, m = x13 :: a :: b :: c :: x01 :: r.

Definition writes (o : list iobs) : list (list byte) :=
  flat_map (fun x => match x with OWrite m => [m] | _ => [] end) o.
Definition published (o : list iobs) : list Z :=
  flat_map (fun x => match x with OEvent a => [a] | _ => [] end) o.

(** In a history: the protocol info answers. *)
Definition info_answers (ls : list ilabel) : list protocol_info :=
  flat_map (fun l => match l with
    | IGotInfo (Some m) => match m_data m with Some (PInfo pi) => [pi] | _ => [] end
    | _ => [] end) ls.
Definition endpoint_answers (ls : list ilabel) : list N :=
  flat_map (fun l => match l with IGotReport (Some (REndpoints _ _ n)) => [n] | _ => [] end) ls.

(** The goroutine waits on a nil channel, or is about to. *)
Definition lost (st : ist) : Prop :=
  (exists s, i_pc st = IWait s None) \/ (exists s, i_pc st = IFetch s /\ i_chan st = None).

(** A step in which nothing goes wrong: the goroutine runs, a pause ends, a
    request is answered with what was asked for, or a waited-for wake-up comes. *)
Definition cooperative (st : ist) (l : ilabel) : Prop :=
  match l, i_pc st with
  | IGo, _ | ITimer, _ => True
  | IGotInfo (Some m), _ => exists pi, m_data m = Some (PInfo pi)
  | IGotReport (Some (RManufacturer _ _ _)), IAwait SMs => True
  | IGotReport (Some (REndpoints _ _ _)), IAwait SEp => True
  | IGotReport _, IAwaitState _ => True
  | IReport RWakeUp, IWait _ (Some _) => True
  | _, _ => False
  end.
Inductive coop_run : ist -> list ilabel -> ist -> Prop :=
| coop_nil st : coop_run st [] st
| coop_cons st l st1 o ls st2 :
    cooperative st l -> istep st l = Some (st1, o) -> coop_run st1 ls st2 ->
    coop_run st (l :: ls) st2.
