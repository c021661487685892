(** Vocabulary for the statements about the controller on top of its connection. *)
From Verif Require Import ModelBase ModelReports ModelSerial ModelNodes ModelList.
From Verif Require Import ModelController SpecController ModelConnection SpecFrame SpecDecode SpecMessage SpecReports.
From Verif Require Import SpecConnection SpecNodes ModelSystem.

(** What the connection does in a run. *)
Definition conn_labels (ls : list ylabel) : list label :=
  flat_map (fun l => match l with
                     | YConn l => [l]
                     | YStart => [LCall [x02] WaitMessage true x00]
                     | YCtl _ => []
                     end) ls.

Definition address (b : byte) : Z := Z.of_N (Byte.to_N b).
Definition node_of (y : sys) (b : byte) : option node := zlookup (address b) (c_nodes (y_ctl y)).

(** The reports from node [b] in these frames, in order of arrival. *)
Definition reports_from (b : byte) (fs : list (list byte)) : list report :=
  map snd (filter (fun x => Byte.eqb (fst x) b) (flat_map report_of fs)).
(** All reports from node [b] received so far were processed. *)
Definition caught_up (y : sys) (b : byte) : Prop := forall r, ~ In (b, r) (c_callbacks (y_conn y)).
(** Neither identification nor the end of an alarm changes node [b]. *)
Definition left_alone (b : byte) (ls : list ylabel) : Prop :=
  forall l, In (YCtl l) ls -> ~ touches (address b) l.
(** The update events for node [b]. *)
Definition updates_of (b : byte) (o : list cobs) : list ModelController.event :=
  filter (fun e => match e with EUpdated a => (a =? address b)%Z | _ => false end) (pushed o).

(** The frame is a node list in which [id] is marked. *)
Definition lists_node (f : list byte) (id : Z) : Prop :=
  byte_at f 3 = 2%N /\ (1 <= id <= 232)%Z /\
  let k := Z.to_nat (id - 1) in
  bit (nth (k / 8) (SpecMessage.announced f) x00) (N.of_nat (k mod 8)) = true.
