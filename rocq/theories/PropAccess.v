(** Property theorems C82, C83 (overlapping accesses to shared maps). *)
From Verif Require Import ModelBase ModelAccess SpecAccess ProofBase ProofAccess.

(** ** C82 *)
(** The full statement, for all readers, others, schedules:
    [arun (connection_threads reader others) gs = Some ts -> ~ overlap ts 0 s1 s2].
    It is false: while a command is being entered into the table (line 154), the
    reader, which received a control byte, iterates over it (line 214). *)
Theorem C82_pending_table_refuted : exists reader others gs ts,
  arun (connection_threads reader others) gs = Some ts /\ overlap ts 0 154 214.
Proof. exact pending_overlaps. Qed.
Print Assumptions C82_pending_table_refuted.

(** What is missing: the loop for control bytes.  Every overlap is one of this
    loop with a new command or with a timeout. *)
Theorem C82_only_control_bytes_partial : forall reader others gs ts s1 s2,
  arun (connection_threads reader others) gs = Some ts -> overlap ts 0 s1 s2 ->
  s2 = 214%nat /\ In s1 [154; 349]%nat.
Proof. exact pending_overlap. Qed.
Print Assumptions C82_only_control_bytes_partial.

Theorem C82_frames_partial : forall fs others gs ts s1 s2,
  arun (connection_threads (map RFrame fs) others) gs = Some ts -> ~ overlap ts 0 s1 s2.
Proof. exact frames_no_overlap. Qed.
Print Assumptions C82_frames_partial.

(** A writer, a timer and a frame, to the end. *)
Example C82_example : exists ts,
  arun (connection_threads [RFrame [true]] [[OWrite]; [OTimer 0 (Some 0)%nat]])
       ([1; 1; 1; 1] ++ repeat 0%nat 8 ++ repeat 2%nat 8)%nat = Some ts /\
  Forall (fun t => t_rest t = []) ts.
Proof. eexists. split; [reflexivity|]. repeat constructor. Qed.

(** ** C83 *)
(** The full statement: [arun (node_threads l) gs = Some ts -> ~ overlap ts m s1 s2].
    It is false: encoding/json reads the maps of a node without its lock. *)
Theorem C83_saving_refuted : exists l gs ts,
  arun (node_threads l) gs = Some ts /\ overlap ts 0 115 9000.
Proof. exact node_overlaps. Qed.
Print Assumptions C83_saving_refuted.

(** What is missing: saving.  Every overlap is one of a report with a save. *)
Theorem C83_only_saving_partial : forall l gs ts m s1 s2,
  arun (node_threads l) gs = Some ts -> overlap ts m s1 s2 -> In s2 [9000; 9001]%nat.
Proof. exact node_overlap. Qed.
Print Assumptions C83_only_saving_partial.

Theorem C83_reports_partial : forall l gs ts m s1 s2, reports_only l ->
  arun (node_threads l) gs = Some ts -> ~ overlap ts m s1 s2.
Proof. exact reports_no_overlap. Qed.
Print Assumptions C83_reports_partial.

(** Two alarms whose windows overlap, to the end. *)
Example C83_example : exists ts,
  arun (node_threads [[NAlarm true]; [NAlarm false]])
       (repeat 0%nat 8 ++ repeat 1%nat 4 ++ repeat 0%nat 6 ++ repeat 1%nat 6) = Some ts /\
  Forall (fun t => t_rest t = []) ts /\ reports_only [[NAlarm true]; [NAlarm false]].
Proof. eexists. split; [reflexivity|]. repeat constructor. Qed.
