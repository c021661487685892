(** Properties of the identification of a node. *)
From Verif Require Import ModelBase ModelReports ModelSerial ModelCommands ModelNodes.
From Verif Require Import DataDevices ModelDatabase ModelIdentify SpecIdentify ProofIdentify.
Local Open Scope string_scope.

(** ** Sample histories *)
Definition a_switch (listening : bool) : protocol_info :=
  mkPI listening true false x04 false false 40000 x04 x10 x01.
Definition info_msg (pi : protocol_info) : ilabel :=
  IGotInfo (Some (mkMessage x09 x01 x41 x00 x01 (Some (PInfo pi)))).
(** A listening binary switch that answers everything. *)
Definition good_run : list ilabel :=
  [IGo; info_msg (a_switch true);
   IGo; IGo; IGotReport (Some (RManufacturer "010a" "1100" "4b00"));
   IGo; IGo; IGotReport (Some (REndpoints false false 3));
   IGo; IGo; IGo] ++ repeat IGo 12 ++ [IReport (RSwitchBinary1 true true)].
(** A sleeping one; the first endpoint request gets no answer. *)
Definition sleepy_run : list ilabel :=
  [IGo; info_msg (a_switch false);
   IGo; IGo; IReport RWakeUp; IGo; IGotReport (Some (RManufacturer "010a" "1100" "4b00"));
   IGo; IGo; IReport RWakeUp; IGo; IGotReport None; ITimer; IGo;
   IGo; IGo; IReport RWakeUp; IGo; IGotReport (Some (REndpoints false false 3));
   IGo; IGo; IGo; IReport RWakeUp; IGo] ++ repeat IGo 12.
Definition outcome (n : node) (ls : list ilabel) : ist * list iobs :=
  match irun (istart n) ls with Some p => p | None => (istart n, []) end.
Lemma outcome_ok n ls : (if irun (istart n) ls then true else false) = true ->
  irun (istart n) ls = Some (outcome n ls).
Proof. unfold outcome. destruct (irun (istart n) ls); [reflexivity|discriminate]. Qed.

Lemma head_of_filter {A} (f : A -> bool) l c : hd_error (filter f l) = Some c -> In c l /\ f c = true.
Proof.
  intros E. apply filter_In. destruct (filter f l); [discriminate|].
  injection E as ->. left. reflexivity.
Qed.

(** ** C49: identified means everything is known, asked for in order *)
Theorem C49_identified_is_complete : forall n0 ls st tr, unidentified n0 ->
  irun (istart n0) ls = Some (st, tr) ->
  n_identified (i_node st) = true \/ i_pc st = IDone -> i_pc st <> ICrash ->
  (exists pi, n_info (i_node st) = Some pi) /\ (exists ms, n_ms (i_node st) = Some ms) /\
  (exists eps, n_endpoints (i_node st) = Some eps) /\ n_states_ok (i_node st) = true /\
  (forall c, In c (match n_classes (i_node st) with Some l => l | None => [] end) ->
     In (cc_id c) [x25; x26; x31] -> exists m, In m (writes tr) /\ asks_state m (cc_id c)).
Proof. exact identified_complete. Qed.
Print Assumptions C49_identified_is_complete.

Theorem C49_returned_is_identified : forall n0 ls st tr, irun (istart n0) ls = Some (st, tr) ->
  i_pc st = IDone -> n_identified (i_node st) = true.
Proof. exact (fun n0 ls => returned_identified n0 ls). Qed.
Print Assumptions C49_returned_is_identified.

Theorem C49_requests_in_order : forall n0 ls st tr, unidentified n0 ->
  irun (istart n0) ls = Some (st, tr) ->
  (forall m, In m (writes tr) -> (exists k, request_stage m = Some k) /\
     request_node m = Some (Z2b (n_id n0))) /\
  (forall a m1 b m2 c, writes tr = (a ++ m1 :: b ++ m2 :: c)%list ->
     exists i j, request_stage m1 = Some i /\ request_stage m2 = Some j /\ i <= j) /\
  (forall e, In e (published tr) -> e = n_id n0).
Proof. exact requests_in_order. Qed.
Print Assumptions C49_requests_in_order.

Example C49_example : unidentified (new_node 5) /\
  exists st tr, irun (istart (new_node 5)) good_run = Some (st, tr) /\
    i_pc st = IDone /\ n_identified (i_node st) = true /\ has_command (i_node st) x25 = true /\
    map request_stage (writes tr) = [Some 0; Some 1; Some 2; Some 3] /\
    published tr = [5; 5; 5; 5; 5]%Z.
Proof.
  split; [unfold unidentified; cbn [new_node n_info n_states_ok n_identified]; auto|].
  exists (fst (outcome (new_node 5) good_run)), (snd (outcome (new_node 5) good_run)).
  split; [rewrite <- surjective_pairing; apply outcome_ok; vm_compute; reflexivity|].
  split; [vm_compute; reflexivity|]. split; [vm_compute; reflexivity|].
  split; [vm_compute; reflexivity|]. split; vm_compute; reflexivity.
Qed.

(** ** C50: command classes of the device database *)

(** The classes added from the database are overwritten in the next pass. *)
Theorem C50_database_classes_refuted : exists n0 ls st tr ms d c,
  unidentified n0 /\ irun (istart n0) ls = Some (st, tr) /\ i_pc st = IDone /\
  n_ms (i_node st) = Some ms /\
  device_new (ms_manufacturer ms) (ms_type ms) (ms_id ms) = Some d /\
  In c (d_classes d) /\ has_command (i_node st) (cc_id c) = false.
Proof.
  destruct (device_new "010a" "1100" "4b00") as [d|] eqn:D; [|vm_compute in D; discriminate].
  assert (E : exists c, hd_error (filter (fun c => negb (has_command (i_node (fst (outcome (new_node 5) good_run))) (cc_id c)))
    match device_new "010a" "1100" "4b00" with Some d => d_classes d | None => [] end) = Some c).
  { eexists. vm_compute. reflexivity. }
  rewrite D in E. destruct E as [c E]. apply head_of_filter in E. destruct E as [I F].
  exists (new_node 5), good_run, (fst (outcome (new_node 5) good_run)), (snd (outcome (new_node 5) good_run)).
  exists (mkMS "010a" "1100" "4b00"), d, c.
  split; [unfold unidentified; cbn [new_node n_info n_states_ok n_identified]; auto|].
  split; [rewrite <- surjective_pairing; apply outcome_ok; vm_compute; reflexivity|].
  split; [vm_compute; reflexivity|]. split; [vm_compute; reflexivity|]. split; [exact D|].
  split; [exact I|]. apply negb_true_iff in F. exact F.
Qed.
Print Assumptions C50_database_classes_refuted.

(** What an identified node lists: exactly the mandatory classes of its type. *)
Theorem C50_classes_partial : forall n0 ls st tr, unidentified n0 ->
  irun (istart n0) ls = Some (st, tr) -> i_pc st = IDone ->
  exists pi, n_info (i_node st) = Some pi /\
    n_classes (i_node st) = get_mandatory definitions (pi_generic pi) (pi_specific pi).
Proof. exact identified_classes. Qed.
Print Assumptions C50_classes_partial.

(** The names of the database entry do stay. *)
Theorem C50_names_kept : forall n0 ls st tr, unidentified n0 -> n_ms n0 = None ->
  irun (istart n0) ls = Some (st, tr) ->
  forall ms d, n_ms (i_node st) = Some ms ->
  device_new (ms_manufacturer ms) (ms_type ms) (ms_id ms) = Some d ->
  n_brand (i_node st) = d_brand d /\ n_product (i_node st) = d_product d /\
  n_description (i_node st) = d_description d.
Proof. exact names_from_database. Qed.
Print Assumptions C50_names_kept.

Example C50_example :
  let st := fst (outcome (new_node 5) good_run) in
  i_pc st = IDone /\ n_info (i_node st) = Some (a_switch true) /\
  n_ms (i_node st) = Some (mkMS "010a" "1100" "4b00") /\
  (exists d, device_new "010a" "1100" "4b00" = Some d /\ n_brand (i_node st) = d_brand d /\ d_brand d <> "").
Proof.
  intros st. split; [vm_compute; reflexivity|]. split; [vm_compute; reflexivity|].
  split; [vm_compute; reflexivity|]. eexists. split; [vm_compute; reflexivity|].
  split; [vm_compute; reflexivity|]. vm_compute. discriminate.
Qed.

(** ** C51: completion *)

(** A wake-up processed inside isAwake leaves identification waiting forever. *)
Theorem C51_completes_refuted : exists n0 ls st tr, unidentified n0 /\
  irun (istart n0) ls = Some (st, tr) /\ i_pc st <> IDone /\
  forall ls' st' o, irun st ls' = Some (st', o) -> i_pc st' <> IDone.
Proof.
  set (ls := [IGo; info_msg (a_switch false); IGo; IReport RWakeUp; IGo]).
  exists (new_node 5), ls, (fst (outcome (new_node 5) ls)), (snd (outcome (new_node 5) ls)).
  split; [unfold unidentified; cbn [new_node n_info n_states_ok n_identified]; auto|].
  split; [rewrite <- surjective_pairing; apply outcome_ok; vm_compute; reflexivity|].
  split; [vm_compute; discriminate|].
  intros ls'. apply lost_forever. left. exists SMs. vm_compute. reflexivity.
Qed.
Print Assumptions C51_completes_refuted.

(** From every other reachable state every continuation in which nothing goes
    wrong is short, and is only over when identification is. *)
Theorem C51_completes_partial : forall n0 ls0 st tr, unidentified n0 ->
  irun (istart n0) ls0 = Some (st, tr) -> ~ lost st -> i_pc st <> ICrash ->
  forall ls st', coop_run st ls st' ->
    List.length ls <= 424 /\
    (i_pc st' = IDone \/ exists l st'' o, cooperative st' l /\ istep st' l = Some (st'', o)).
Proof. exact completes. Qed.
Print Assumptions C51_completes_partial.
Theorem C51_completing_run_partial : forall n0 ls0 st tr, unidentified n0 ->
  irun (istart n0) ls0 = Some (st, tr) -> ~ lost st -> i_pc st <> ICrash ->
  exists ls st', coop_run st ls st' /\ i_pc st' = IDone.
Proof. exact can_complete. Qed.
Print Assumptions C51_completing_run_partial.

(** Exactly the lost states are hopeless. *)
Theorem C51_lost_is_forever : forall st ls, lost st ->
  forall st' o, irun st ls = Some (st', o) -> i_pc st' <> IDone.
Proof. exact lost_forever. Qed.
Print Assumptions C51_lost_is_forever.

(** A state in the middle of failures: waiting to be woken for the second
    endpoint request. *)
Example C51_example : exists st tr,
  irun (istart (new_node 5)) (firstn 16 sleepy_run) = Some (st, tr) /\
  i_pc st = IWait SEp (Some 2) /\ ~ lost st /\ i_pc st <> ICrash.
Proof.
  exists (fst (outcome (new_node 5) (firstn 16 sleepy_run))), (snd (outcome (new_node 5) (firstn 16 sleepy_run))).
  split; [rewrite <- surjective_pairing; apply outcome_ok; vm_compute; reflexivity|].
  assert (E : i_pc (fst (outcome (new_node 5) (firstn 16 sleepy_run))) = IWait SEp (Some 2))
    by (vm_compute; reflexivity).
  rewrite E. split; [reflexivity|]. split; [|discriminate].
  intros [[s K]|(s & K & _)]; rewrite E in K; discriminate.
Qed.

(** ** C52: a sleeping node is contacted after it woke up *)
Theorem C52_contacted_when_awake : forall n0 ls st tr, unidentified n0 ->
  (forall pi, In pi (info_answers ls) -> pi_listening pi = false) ->
  irun (istart n0) ls = Some (st, tr) ->
  forall pre m post, tr = (pre ++ OWrite m :: post)%list -> request_stage m <> Some 0 ->
  exists a b, pre = (a ++ OWakeUp :: b)%list /\
    forall m', In m' (writes b) -> request_stage m = Some 3 /\ request_stage m' = Some 3.
Proof. exact contacted_awake. Qed.
Print Assumptions C52_contacted_when_awake.
Example C52_example : exists st tr,
  irun (istart (new_node 5)) sleepy_run = Some (st, tr) /\ i_pc st = IDone /\
  (forall pi, In pi (info_answers sleepy_run) -> pi_listening pi = false) /\
  map request_stage (writes tr) = [Some 0; Some 1; Some 2; Some 2; Some 3] /\
  List.length (filter (fun x => match x with OWakeUp => true | _ => false end) tr) = 4.
Proof.
  exists (fst (outcome (new_node 5) sleepy_run)), (snd (outcome (new_node 5) sleepy_run)).
  split; [rewrite <- surjective_pairing; apply outcome_ok; vm_compute; reflexivity|].
  split; [vm_compute; reflexivity|].
  split; [intros pi [<-|[]]; reflexivity|]. split; vm_compute; reflexivity.
Qed.

(** ** C71: only devices with endpoints are asked for endpoints *)
Theorem C71_endpoint_request_refuted : exists n0 ls st tr,
  unidentified n0 /\ irun (istart n0) ls = Some (st, tr) /\
  has_command (i_node st) x60 = false /\ In (Some 2) (map request_stage (writes tr)).
Proof.
  set (ls := [IGo; info_msg (a_switch true); IGo; IGo;
              IGotReport (Some (RManufacturer "0000" "0000" "0000")); IGo; IGo]).
  exists (new_node 5), ls, (fst (outcome (new_node 5) ls)), (snd (outcome (new_node 5) ls)).
  split; [unfold unidentified; cbn [new_node n_info n_states_ok n_identified]; auto|].
  split; [rewrite <- surjective_pairing; apply outcome_ok; vm_compute; reflexivity|].
  split; [vm_compute; reflexivity|]. vm_compute. auto.
Qed.
Print Assumptions C71_endpoint_request_refuted.
(** A device of a known type that does not report endpoints is never
    identified, whatever else it does. *)
Theorem C71_never_identified : forall n0 ls, unidentified n0 -> n_endpoints n0 = None ->
  endpoint_answers ls = [] ->
  (forall pi, In pi (info_answers ls) ->
     get_mandatory definitions (pi_generic pi) (pi_specific pi) <> None) ->
  forall st tr, irun (istart n0) ls = Some (st, tr) -> i_pc st <> IDone.
Proof. exact never_identified. Qed.
Print Assumptions C71_never_identified.
Example C71_example : exists st tr,
  irun (istart (new_node 5)) (firstn 14 sleepy_run) = Some (st, tr) /\
  endpoint_answers (firstn 14 sleepy_run) = [] /\
  get_mandatory definitions (pi_generic (a_switch false)) (pi_specific (a_switch false)) <> None.
Proof.
  exists (fst (outcome (new_node 5) (firstn 14 sleepy_run))), (snd (outcome (new_node 5) (firstn 14 sleepy_run))).
  split; [rewrite <- surjective_pairing; apply outcome_ok; vm_compute; reflexivity|].
  split; [reflexivity|]. vm_compute. discriminate.
Qed.
