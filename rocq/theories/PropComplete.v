(** Property theorems C112-C113: how Identify of a node comes to its end.  [w] is
    any state the whole program can reach; a continuation is a further execution
    from there, and [Forall (only fs) ev] says that nothing but the frames [fs]
    is received in it. *)
From Verif Require Import ModelBase ModelReports ModelSerial ModelNodes ModelList DataDevices ModelDatabase ModelIdentify.
From Verif Require Import ModelController ModelConnection ModelSystem ModelWhole.
From Verif Require Import SpecFrame SpecMessage SpecConnection SpecSystem SpecWhole SpecComplete.
From Verif Require Import ProofWitness ProofWholeRuns ProofComplete ProofResume ProofCompleteRuns.

(** ** C112 *)
Theorem C112_answers_complete_identification : forall file ns ls w tr o b n0,
  wrun (wstart file ns) ls = Some (Ok (w, tr, o)) -> c_crashed (y_conn (w_sys w)) = false -> c_mode (y_conn (w_sys w)) = RReading ->
  at_stage w b 0 -> node_of (w_sys w) b = Some n0 ->
  forall fi pi fm ma mt mp fe x y count fw,
  self_contained fi -> info_of fi = Some pi ->
  self_contained fm -> report_of fm = [(b, RManufacturer ma mt mp)] ->
  self_contained fe -> report_of fe = [(b, REndpoints x y count)] ->
  pi_listening pi = true \/ (self_contained fw /\ report_of fw = [(b, RWakeUp)]) ->
  exists ls' w' ev o' n, wrun w ls' = Some (Ok (w', ev, o')) /\
    Forall (only (if pi_listening pi then [fi; fm; fe] else [fi; fm; fe; fw])) ev /\ Forall (moves b) ls' /\ returned w' b /\
    node_of (w_sys w') b = Some n /\ n_identified n = true /\ n_info n = Some pi /\
    n_ms n = Some (match n_ms n0 with Some m => m | None => mkMS ma mt mp end) /\
    match n_endpoints n0 with
    | Some eps => n_endpoints n = Some eps
    | None => exists eps, n_endpoints n = Some eps /\
        (listed_type (pi_generic pi) (pi_specific pi) -> map e_id eps = map Z.of_nat (seq 1 (N.to_nat count - 1)))
    end.
Proof. exact identification_completes. Qed.
Print Assumptions C112_answers_complete_identification.

(** Node 5 of [waiting] is asked for its type; the frames of a listening node and
    those of a sleeping one. *)
Example C112_example : moment (fun w _ => at_stage w x05 0).
Proof. exact type_awaited. Qed.
Example C112_frames : Forall self_contained [info_frame; ms_frame; ep_frame; sleeper_frame; awake_frame] /\
  (exists pi, info_of info_frame = Some pi /\ pi_listening pi = true /\ listed_type (pi_generic pi) (pi_specific pi)) /\
  (exists pi, info_of sleeper_frame = Some pi /\ pi_listening pi = false) /\
  report_of ms_frame = [(x05, RManufacturer "0081" "00a0" "0001")]%string /\
  (exists x y, report_of ep_frame = [(x05, REndpoints x y 3)]) /\ report_of awake_frame = [(x05, RWakeUp)].
Proof. exact answers_known. Qed.

(** ** C113 *)
(** In full: from every state in which the program has not crashed, the port can
    be read and Identify of a node has not returned, there is a continuation in
    which it returns.  This is false: an answer that was processed before
    Identify had fetched the channel of its request is never seen. *)
Theorem C113_identification_can_end_refuted : exists file ns ls w tr o b,
  wrun (wstart file ns) ls = Some (Ok (w, tr, o)) /\ c_crashed (y_conn (w_sys w)) = false /\
  c_mode (y_conn (w_sys w)) = RReading /\ unfinished w b /\
  forall ls' w' ev o', wrun w ls' = Some (Ok (w', ev, o')) -> ~ returned w' b.
Proof. exact never_ends. Qed.
Print Assumptions C113_identification_can_end_refuted.

(** Missing: the identifications that have lost what they wait for. *)
Theorem C113_identification_can_end_partial : forall file ns ls w tr o b n0,
  wrun (wstart file ns) ls = Some (Ok (w, tr, o)) -> c_crashed (y_conn (w_sys w)) = false ->
  c_mode (y_conn (w_sys w)) = RReading \/ c_mode (y_conn (w_sys w)) = RStopped ->
  unfinished w b -> ~ is_lost w tr b -> node_of (w_sys w) b = Some n0 ->
  forall fi pi fm ma mt mp fe x y count fw,
  self_contained fi -> info_of fi = Some pi ->
  self_contained fm -> report_of fm = [(b, RManufacturer ma mt mp)] ->
  self_contained fe -> report_of fe = [(b, REndpoints x y count)] ->
  self_contained fw -> report_of fw = [(b, RWakeUp)] ->
  exists ls' w' ev o' n, wrun w ls' = Some (Ok (w', ev, o')) /\ Forall (only [fi; fm; fe; fw]) ev /\ Forall (moves b) ls' /\
    returned w' b /\ node_of (w_sys w') b = Some n /\ n_identified n = true /\ keeps_known n0 n.
Proof. exact identification_can_end. Qed.
Print Assumptions C113_identification_can_end_partial.

Example C113_example : moment (fun w tr => unfinished w x05 /\ ~ is_lost w tr x05).
Proof. exact wake_awaited. Qed.

(** The boundary is exact: what has lost its answer or its wake-up never returns. *)
Theorem C113_lost_never_ends : forall file ns ls w tr o b,
  wrun (wstart file ns) ls = Some (Ok (w, tr, o)) -> is_lost w tr b ->
  forall ls' w' ev o', wrun w ls' = Some (Ok (w', ev, o')) -> ~ returned w' b.
Proof. exact lost_never_ends. Qed.
Print Assumptions C113_lost_never_ends.

Example C113_lost_case : moment (fun w tr => unfinished w x05 /\ is_lost w tr x05).
Proof. exact answer_missed. Qed.
