(** Vocabulary for the statements about the whole program. *)
From Verif Require Import ModelBase ModelReports ModelSerial ModelNodes ModelList DataDevices ModelDatabase ModelController ModelConnection.
From Verif Require Import ModelSystem ModelWhole SpecFrame SpecMessage SpecConnection SpecIdentify SpecSystem.
Local Open Scope string_scope.

(** Node [b] was sent the request of stage [k] of identification, and frame [f]
    was received after that. *)
Definition asked_then (tr : list event) (k : nat) (b : byte) (f : list byte) : Prop :=
  exists t1 t2 i data w t er, tr = (t1 ++ t2)%list /\ In (EvCall i data w t er) t1 /\
    request_stage data = Some k /\ request_node data = Some b /\ In f (frames_taken t2).

(** The type of a device in the answer to a request for it. *)
Definition info_of (f : list byte) : option protocol_info :=
  match content f with Ok (PInfo pi) => Some pi | _ => None end.

(** Node [b] itself said that it is this product, or that it has [count]
    endpoints, after it was asked. *)
Definition told_product (tr : list event) (b : byte) (p : mspec) : Prop :=
  exists f, asked_then tr 1 b f /\ report_of f = [(b, RManufacturer (ms_manufacturer p) (ms_type p) (ms_id p))].
Definition told_endpoints (tr : list event) (b : byte) (count : N) : Prop :=
  exists f x y, asked_then tr 2 b f /\ report_of f = [(b, REndpoints x y count)].
(** Somebody said after node [b] was asked for its type that the type is this. *)
Definition told_type (tr : list event) (b : byte) (pi : protocol_info) : Prop :=
  exists f, asked_then tr 0 b f /\ info_of f = Some pi.

Definition names (n : node) : string * string * string := (n_brand n, n_product n, n_description n).
Definition device_names (d : device) : string * string * string := (d_brand d, d_product d, d_description d).
(** A node of this id in the configuration file has [P]. *)
Definition in_file (ns : list node) (id : Z) (P : node -> Prop) : Prop :=
  exists n0, In n0 ns /\ n_id n0 = id /\ P n0.
(** The names a node has before anything is known about its product. *)
Definition first_names (ns : list node) (id : Z) (x : string * string * string) : Prop :=
  in_file ns id (fun n0 => names n0 = x) \/ x = ("", "", "").

(** Identify of node [b] waits for an answer on the channel it was given. *)
Definition awaiting (w : whole) (b : byte) : Prop :=
  exists j, zlookup (address b) (w_jobs w) = Some j /\ j_holds j = true /\ j_ans j = None.
(** Identify of node [b] pauses before it tries again, or goes on with the next
    state it asks for. *)
Definition moved_on (w : whole) (b : byte) : Prop :=
  exists j, zlookup (address b) (w_jobs w) = Some j /\
    (j_pc j = ModelIdentify.IPause \/ exists l, j_pc j = ModelIdentify.IStates l).

(** Identify of node [b] waits for the answer of stage [k] (0: type, 1: product,
    2: endpoints) on the channel it was given. *)
Definition stage_of (pc : ModelIdentify.ipc) : option nat :=
  match pc with
  | ModelIdentify.IInfo => Some 0
  | ModelIdentify.IAwait ModelIdentify.SMs => Some 1
  | ModelIdentify.IAwait ModelIdentify.SEp => Some 2
  | _ => None
  end.
Definition at_stage (w : whole) (b : byte) (k : nat) : Prop :=
  exists j, zlookup (address b) (w_jobs w) = Some j /\ j_holds j = true /\ j_ans j = None /\ stage_of (j_pc j) = Some k.
(** Everybody who was given a channel receives from it in time. *)
Definition all_listen (tr : list event) (accepts : list nat) : Prop := forall i, In (EvGot i) tr -> In i accepts.
