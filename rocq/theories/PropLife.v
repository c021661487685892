(** Property theorems C104 - C107: the program from one start to the next.  An
    execution is [trun fmt (mkWorld d0 None) ls w o]: [d0] is the configuration file
    at first, [ls] chooses what happens next (a start, a step of the program, a step
    of a save, a kill, an edit of the file by somebody else) and [o] is what is seen.
    [fmt] writes floats; the claims hold for each one that reads back as the same
    float, as strconv does. *)
From Verif Require Import ModelBase ModelNodes ModelList ModelController ModelSystem ModelWhole ModelJson ModelConfig ModelLife.
From Verif Require Import SpecFloat64 SpecConfig SpecLife ProofFormat ProofLife ProofLifeRuns.
From Coq Require Import Floats.SpecFloat.

(** ** C104 *)
(** Full statement (false of the code): whatever the configuration file holds, a
    running program goes on. *)
Theorem C104_file_does_no_harm_refuted : exists fmt ls w,
  (forall f, is_double f -> faithful fmt f) /\
  trun fmt (mkWorld None None) ls w [TOStarted []; TOEdited; TOFileCrash].
Proof. exists exact_format. destruct (edited_then_crash exact_format) as (ls & w & R). exists ls, w. exact (conj exact_faithful R). Qed.
Print Assumptions C104_file_does_no_harm_refuted.

(** A save brings the program down exactly if the file, as it is before, holds a
    null node or a null endpoint. *)
Theorem C104_save_crash_exactly_partial : forall fmt s w,
  (exists l w', tstep fmt (mkWorld (Some s) (Some (mkProc w (Some SvStart)))) (TSave l) w' [TOFileCrash]) <-> holds_null s.
Proof. exact save_crash_iff. Qed.
Print Assumptions C104_save_crash_exactly_partial.

(** Missing: files that others write while the program runs, and a file that is
    harmful at the first start. *)
Theorem C104_own_file_does_no_harm_partial : forall fmt, (forall f, is_double f -> faithful fmt f) ->
  forall d0 ls w o, trun fmt (mkWorld d0 None) ls w o -> ours o -> harmless d0 -> ~ In TOFileCrash o.
Proof. exact file_harmless. Qed.
Print Assumptions C104_own_file_does_no_harm_partial.

Example C104_case : holds_null null_file /\ exists ls w ns ns',
  trun exact_format (mkWorld None None) ls w [TOStarted []; TOCreated; TOSave ns; TOSaved; TOKilled; TOStarted ns'] /\
  ours [TOStarted []; TOCreated; TOSave ns; TOSaved; TOKilled; TOStarted ns'] /\ harmless None.
Proof.
  split; [exact null_held|]. destruct (saved_then_restarted exact_format exact_faithful) as (ls & w & ns & ns' & R & _).
  exists ls, w, ns, ns'. split; [exact R|]. split; [|exact I]. unfold ours. cbn. intuition discriminate.
Qed.

(** ** C105 *)
Theorem C105_saves_can_be_loaded : forall fmt, (forall f, is_double f -> faithful fmt f) ->
  forall d0 ls w o ns, trun fmt (mkWorld d0 None) ls w o -> In (TOSave ns) o ->
  exists s, marshal fmt ns = Some s /\ gives s ns.
Proof. exact saved_readable. Qed.
Print Assumptions C105_saves_can_be_loaded.

(** Node 5 is found, identified and saved. *)
Example C105_case : (forall f, is_double f -> faithful exact_format f) /\ exists ls w o ns,
  trun exact_format (mkWorld None None) ls w o /\ In (TOSave ns) o /\ knows5 ns.
Proof.
  split; [exact exact_faithful|]. destruct (saved_then_restarted exact_format exact_faithful) as (ls & w & ns & ns' & R & K & _).
  eexists ls, w, _, ns. split; [exact R|]. split; [right; right; left; reflexivity|exact K].
Qed.

(** ** C106 *)
(** Full statement (false of the code): once a save has returned without an error,
    a program started later knows the nodes of that save or of a later one. *)
Theorem C106_saved_nodes_survive_refuted : exists fmt ls w ns, (forall f, is_double f -> faithful fmt f) /\
  trun fmt (mkWorld None None) ls w
    [TOStarted []; TOCreated; TOSave ns; TOSaved; TOCreated; TOKilled; TOStarted []] /\
  knows5 ns /\ ~ same_nodes ns [].
Proof.
  exists exact_format. destruct (saved_then_lost exact_format exact_faithful) as (ls & w & ns & R & K). exists ls, w, ns.
  exact (conj exact_faithful (conj R (conj K (not_in_empty ns K)))).
Qed.
Print Assumptions C106_saved_nodes_survive_refuted.

(** Missing: saves that begin after this one. *)
Theorem C106_saved_nodes_survive_partial : forall fmt, (forall f, is_double f -> faithful fmt f) ->
  forall d0 ls w o1 o2 ns o3 o4 ns',
  trun fmt (mkWorld d0 None) ls w (o1 ++ TOCreated :: o2 ++ TOSave ns :: o3 ++ TOSaved :: o4 ++ [TOStarted ns']) ->
  quiet o2 -> quiet o3 -> quiet o4 -> same_nodes ns ns'.
Proof. exact survives. Qed.
Print Assumptions C106_saved_nodes_survive_partial.

Example C106_case : exists ls w ns ns', trun exact_format (mkWorld None None) ls w
  ([TOStarted []] ++ TOCreated :: [] ++ TOSave ns :: [] ++ TOSaved :: [TOKilled] ++ [TOStarted ns']) /\
  quiet [] /\ quiet [TOKilled] /\ knows5 ns /\ knows5 ns'.
Proof.
  destruct (saved_then_restarted exact_format exact_faithful) as (ls & w & ns & ns' & R & K). exists ls, w, ns, ns'.
  split; [exact R|]. split; [intros x []|]. split; [|exact K]. intros x [<-|[]]. exact I.
Qed.

(** ** C107 *)
Theorem C107_no_mixture : forall fmt, (forall f, is_double f -> faithful fmt f) ->
  forall d0 ls w o ns, trun fmt (mkWorld d0 None) ls w (o ++ [TOStarted ns]) -> ours o ->
  ns = [] \/ (exists ns0, In (TOSave ns0) o /\ same_nodes ns0 ns) \/
  (~ In TOCreated o /\ exists ns0, boots d0 (Some ns0) /\ ns = nodes_of (wstart true ns0)).
Proof. exact no_mixture. Qed.
Print Assumptions C107_no_mixture.

Example C107_case : exists ls w ns ns', trun exact_format (mkWorld None None) ls w
  ([TOStarted []; TOCreated; TOSave ns; TOSaved; TOKilled] ++ [TOStarted ns']) /\
  ours [TOStarted []; TOCreated; TOSave ns; TOSaved; TOKilled] /\ knows5 ns'.
Proof.
  destruct (saved_then_restarted exact_format exact_faithful) as (ls & w & ns & ns' & R & _ & K). exists ls, w, ns, ns'.
  split; [exact R|]. split; [|exact K]. unfold ours. cbn. intuition discriminate.
Qed.
