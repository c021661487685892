(** What is left of C67 and C68. *)
From Verif Require Import ModelBase ModelReports ModelNodes ModelList SpecNodes ProofNodes ProofUnknown.
From Coq Require Import Floats.SpecFloat.
Local Open Scope list_scope.

(** ** C67 *)
(** A report with value "unknown", of either version, is taken for "on, at level
    100", and nothing else about the node changes.  So level and on state are left
    alone exactly if they were 100 and on. *)
Theorem C67_taken_for_full_partial : forall rest r n,
  reports_new x26 x03 (xfe :: rest) = Ok r -> has_maps n ->
  exists n' v, process_event n r = Ok (n', [n_id n], false) /\ is_integer v 100 /\
    updated (n_bool n) (n_bool n') "on" true /\ updated (n_float n) (n_float n') "level" v /\ same_but_state n n'.
Proof. exact unknown_level_effect. Qed.
Print Assumptions C67_taken_for_full_partial.
Example C67_example_version_4 : exists r, reports_new x26 x03 [xfe; x14; x00] = Ok r /\ has_maps (new_node 5).
Proof. eexists. split; [reflexivity|]. split; discriminate. Qed.

(** ** C68 *)
(** A call that is made while an Add is changing the map does not look at the map:
    only calls that were made before can. *)
Theorem C68_called_before_partial : forall p g q s, krun kinit (p ++ KCall g :: q) = Some s ->
  reading (p ++ KCall g :: q) g -> ~ add_in_progress p.
Proof. exact (fun p g q s R I => locked_reader_never_reads p g q s R (proj1 I)). Qed.
Print Assumptions C68_called_before_partial.
Example C68_example_before : exists s, krun kinit ([KAddLock 0; KAddUnlock 0] ++ KCall 1 :: [KRLock 1; KAddLock 2]) = Some s /\
  reading ([KAddLock 0; KAddUnlock 0] ++ KCall 1 :: [KRLock 1; KAddLock 2]) 1.
Proof. eexists. split; [reflexivity|]. split; [cbn; auto|]. cbn. intros [H|[H|[H|[H|[H|[]]]]]]; discriminate H. Qed.
