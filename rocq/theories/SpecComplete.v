(** Vocabulary of C112: how Identify of a node comes to its end. *)
From Verif Require Import ModelBase ModelReports ModelSerial ModelNodes ModelList DataDevices ModelDatabase ModelIdentify.
From Verif Require Import ModelConnection ModelSystem ModelWhole SpecFrame SpecMessage SpecConnection SpecSystem SpecWhole.

(** The only chunks that are received are among [fs]. *)
Definition only (fs : list (list byte)) (e : event) : Prop := match e with EvArrive _ c => In c fs | _ => True end.
(** Of all identifications only that of node [b] makes a step. *)
Definition moves (b : byte) (l : wlabel) : Prop :=
  match l with WSys _ => True | WGo i | WTimer i | WAnswer i => i = address b end.
(** Identify of node [b] has returned. *)
Definition returned (w : whole) (b : byte) : Prop :=
  exists j, zlookup (address b) (w_jobs w) = Some j /\ j_pc j = IDone.
(** A type of the table in database/mandatory.go. *)
Definition listed_type (g s : byte) : Prop := exists v, In (g, s, v) definitions.
(** Identify waits for the answer to a question. *)
Definition waits_answer (pc : ipc) : bool :=
  match pc with IInfo | IAwait SMs | IAwait SEp | IAwaitState _ => true | _ => false end.
(** Identify waits, or will wait, for something that cannot come: for the wake-up
    of its node on a channel that was gone when it looked (or will be gone when it
    looks), or for an answer on the channel of a request that was closed before
    Identify had fetched it. *)
Definition lost (tr : list event) (j : job) : Prop :=
  (exists s, j_pc j = IWait s None \/ j_pc j = IFetch s /\ j_chan j = None) \/
  (waits_answer (j_pc j) = true /\ exists i, j_req j = Some i /\ j_holds j = false /\ In (EvClose i) tr).
Definition unfinished (w : whole) (b : byte) : Prop :=
  exists j, zlookup (address b) (w_jobs w) = Some j /\ j_pc j <> IDone.
Definition is_lost (w : whole) (tr : list event) (b : byte) : Prop :=
  exists j, zlookup (address b) (w_jobs w) = Some j /\ lost tr j.
(** What is known about a node stays. *)
Definition keeps_known (n n' : node) : Prop :=
  (forall x, n_info n = Some x -> n_info n' = Some x) /\ (forall x, n_ms n = Some x -> n_ms n' = Some x) /\
  (forall x, n_endpoints n = Some x -> n_endpoints n' = Some x).

(** ** C116: all nodes of a network *)
(** Identify of node [b] has been started and has not yet done anything. *)
Definition not_begun (w : whole) (b : byte) : Prop := zlookup (address b) (w_jobs w) = Some new_job.
(** Frames of a node: its type, its product, its endpoints, and that it is awake. *)
Record reply_set : Type := mkReplies { rs_type : list byte; rs_product : list byte; rs_endpoints : list byte; rs_awake : list byte }.
(** The type that the node [n] is known to have, or that the frames tell. *)
Definition told_type (n : node) (a : reply_set) : option protocol_info :=
  match n_info n with Some q => Some q | None => info_of (rs_type a) end.
Definition told_listening (n : node) (a : reply_set) : bool :=
  match n_info n with
  | Some _ => n_awake n
  | None => match info_of (rs_type a) with Some q => pi_listening q | None => false end
  end.
(** The frames in [a] are those of node [b]; one that does not listen tells that it is awake. *)
Definition answers_all (b : byte) (n : node) (a : reply_set) : Prop :=
  (self_contained (rs_type a) /\ exists q, info_of (rs_type a) = Some q) /\
  (self_contained (rs_product a) /\ exists ma mt mp, report_of (rs_product a) = [(b, RManufacturer ma mt mp)]) /\
  (self_contained (rs_endpoints a) /\ exists x y count, report_of (rs_endpoints a) = [(b, REndpoints x y count)]) /\
  (told_listening n a = true \/ self_contained (rs_awake a) /\ report_of (rs_awake a) = [(b, RWakeUp)]).
Definition frames_for (n : node) (a : reply_set) : list (list byte) :=
  [rs_type a; rs_product a; rs_endpoints a] ++ if told_listening n a then [] else [rs_awake a].
(** The node [n0] has become [n]: what was known is kept, the rest is what the frames tell. *)
Definition told (b : byte) (n0 : node) (a : reply_set) (n : node) : Prop :=
  n_identified n = true /\ n_info n = told_type n0 a /\
  match n_ms n0 with
  | Some m => n_ms n = Some m
  | None => exists m, n_ms n = Some m /\
      report_of (rs_product a) = [(b, RManufacturer (ms_manufacturer m) (ms_type m) (ms_id m))]
  end /\
  match n_endpoints n0 with
  | Some eps => n_endpoints n = Some eps
  | None => exists q eps, n_info n = Some q /\ n_endpoints n = Some eps /\
      (listed_type (pi_generic q) (pi_specific q) -> exists x y count,
        report_of (rs_endpoints a) = [(b, REndpoints x y count)] /\
        map e_id eps = map Z.of_nat (seq 1 (N.to_nat count - 1)))
  end.
(** Only the identifications of nodes of [bs] make steps. *)
Definition moves_of (bs : list byte) (l : wlabel) : Prop :=
  match l with WSys _ => True | WGo i | WTimer i | WAnswer i => exists b, In b bs /\ i = address b end.
(** The frames that node [b] of the network [y] sends. *)
Definition frames_of (y : sys) (f : byte -> reply_set) (b : byte) : list (list byte) :=
  match node_of y b with Some n => frames_for n (f b) | None => [] end.

(** ** C117: from the start of the program *)
(** The answer to the question for the nodes. *)
Definition node_list (f : list byte) : Prop :=
  self_contained f /\ exists m bm, message_of f = Some m /\ m_data m = Some (PNodes bm).
(** What is known about node [b] at the start: the node of the file, or nothing. *)
Definition first_known (file : bool) (ns : list node) (b : byte) : node :=
  match node_of (ystart file ns) b with Some n => n | None => new_node (address b) end.
