(** Property theorems C98 and C99: the application that receives the events, and
    the web server of the example program.  An execution is
    [crun (loaded file ns) ls = Some (Ok (st, o))]. *)
From Verif Require Import ModelBase ModelReports ModelSerial ModelNodes ModelList ModelController.
From Verif Require Import ModelExample SpecController SpecNodes SpecCommands SpecExample ProofExample.
From Coq Require Import String.
Local Open Scope string_scope.

(** ** C98 *)
Theorem C98_events_name_nodes : forall file ns ls st o e, crun (loaded file ns) ls = Some (Ok (st, o)) ->
  In e (pushed o ++ received o) ->
  exists n, list_get (Some (c_nodes st)) (event_node e) = Some n /\ n_id n = event_node e.
Proof. exact events_known. Qed.
Print Assumptions C98_events_name_nodes.

(** The loop of the example program never panics on an event. *)
Theorem C98_example_loop : forall file ns ls st o e, crun (loaded file ns) ls = Some (Ok (st, o)) ->
  In e (received o) -> handle_event st e = Ok tt.
Proof. exact handled. Qed.
Print Assumptions C98_example_loop.

Definition two_events : list clabel :=
  [CConnected; CAnswer (Some (mkMessage x00 x01 x02 x00 x01 (Some (PNodes [true; false; true])))); CRead; CDisc; CDisc; CDisc; CDisc; CRead;
   CReport x05 (RSwitchBinary1 true true); CRead].
Example C98_example :
  match crun (loaded true [new_node 5]) two_events with
  | Some (Ok (_, o)) => received o = [EDiscovered 5; EDiscovered 3; EUpdated 5]
  | _ => False
  end.
Proof. vm_compute. reflexivity. Qed.

(** ** C99 *)
(** Full statement (false of the code): a request to switch a node on or off
    that is answered with status 200 sends a command. *)
Theorem C99_control_refuted : exists ls st o,
  crun (loaded true [new_node 5]) ls = Some (Ok (st, o)) /\ http_control st "5" "on" = (200%Z, []).
Proof. exists [], (loaded true [new_node 5]), []. split; reflexivity. Qed.
Print Assumptions C99_control_refuted.

Theorem C99_node_answer : forall st s, answers st s (http_node st s) 200.
Proof. exact node_answers. Qed.
Print Assumptions C99_node_answer.

Theorem C99_control_answer : forall st s a,
  answers st s (fst (http_control st s a)) (if in_dec string_dec a ["on"; "off"] then 200 else 404).
Proof. exact control_answers. Qed.
Print Assumptions C99_control_answer.

(** What is sent to the node named in the request.  What is missing: nodes that
    support neither class. *)
Theorem C99_control_partial : forall file ns ls st o s a id n nb, crun (loaded file ns) ls = Some (Ok (st, o)) ->
  names s id -> list_get (Some (c_nodes st)) id = Some n -> low_byte id nb ->
  let sent := snd (http_control st s a) in
  (a = "on" -> supports n x25 -> sent = [binary_set nb xff]) /\
  (a = "off" -> supports n x25 -> sent = [binary_set nb x00]) /\
  (a = "on" -> ~ supports n x25 -> supports n x26 -> sent = [multilevel_set nb x63]) /\
  (a = "off" -> ~ supports n x25 -> supports n x26 -> sent = [multilevel_set nb x00]) /\
  (~ supports n x25 -> ~ supports n x26 -> sent = []) /\
  (a <> "on" -> a <> "off" -> sent = []).
Proof. exact control_sends. Qed.
Print Assumptions C99_control_partial.

Theorem C99_nothing_else : forall st s a cmd, In cmd (snd (http_control st s a)) ->
  exists id, names s id /\ In id (map fst (c_nodes st)).
Proof. exact nothing_else. Qed.
Print Assumptions C99_nothing_else.

(** A request names at most one node. *)
Theorem C99_names_unique : forall s a b, names s a -> names s b -> a = b.
Proof. exact names_unique. Qed.
Print Assumptions C99_names_unique.

Definition lamp : node :=
  {| n_id := 5; n_awake := true; n_info := None; n_ms := None;
     n_brand := ""; n_product := ""; n_description := "";
     n_classes := Some [mkCC x20 true false false "1"; mkCC x25 true false false "1"];
     n_endpoints := None; n_bool := None; n_float := None;
     n_states_ok := false; n_identified := false |}.
Example C99_example :
  let st := loaded true [lamp] in
  names "+05" 5 /\ supports lamp x25 /\
  http_control st "+05" "off" = (200%Z, [binary_set x05 x00]) /\ http_control st "5" "dim" = (404%Z, []) /\
  http_control st "6" "on" = (404%Z, []) /\ http_node st "five" = 500%Z /\ http_node st "" = 500%Z /\
  http_node st "9223372036854775808" = 500%Z.
Proof.
  split; [apply atoi_iff; reflexivity|]. split; [eexists _, _; split; [reflexivity|]; split; [right; left; reflexivity|reflexivity]|].
  repeat split.
Qed.
