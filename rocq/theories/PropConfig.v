(** Property theorems C43 - C45, C78 - C80. *)
From Verif Require Import ModelBase ModelReports ModelNodes ModelList ModelIdentify ModelJson SpecJson SpecFloat64.
From Verif Require Import ModelConfig SpecConfig ProofJson ProofConfig ProofFormat ProofStorable.
From Coq Require Import Floats.SpecFloat.
Local Open Scope string_scope.

(** ** C43 *)
(** [fmt] is the formatting of floats.  Whatever the nodes are that the
    controller already has, after loading it has the saved ones as they were. *)
Theorem C43_roundtrip : forall fmt ns, node_list ns -> (forall k n, In (k, n) ns -> storable fmt n) ->
  exists s, marshal fmt ns = Some s /\ (exists d, read_config s d) /\
  forall d, read_config s d -> exists m, load_config d = Some (Some m) /\
    forall old new, added old m new -> forall id,
    match zlookup id ns with
    | Some n => exists r n', zlookup id new = Some r /\ real_node r = Some n' /\ kept n n'
    | None => zlookup id new = zlookup id old
    end.
Proof. exact roundtrip. Qed.
Print Assumptions C43_roundtrip.
(** All doubles can be formatted so. *)
Theorem C43_formatter_exists : exists fmt, forall f, is_double f -> faithful fmt f.
Proof. exists exact_format. exact exact_faithful. Qed.
Print Assumptions C43_formatter_exists.

Definition n2 : node :=
  {| n_id := 2; n_awake := true; n_info := None; n_ms := Some (mkMS "0086" "0003" "0062");
     n_brand := "Aeotec"; n_product := "a ""quoted"" name"; n_description := "";
     n_classes := Some [mkCC x25 true false true "1"];
     n_endpoints := Some [mkEndpoint 1 None (Some [("on", true)]) None true];
     n_bool := Some [("on", false); ("alarm", true)];
     n_float := Some [("temperature_c", S754_finite true 6052837899185947 (-48)); ("level", S754_zero false)];
     n_states_ok := true; n_identified := true |}.
Definition sample : list (Z * node) := [(2%Z, n2); (3%Z, new_node 3)].
Lemma faithful_sample f : In f [S754_finite true 6052837899185947 (-48); S754_zero false] -> faithful exact_format f.
Proof. intros [<-|[<-|[]]]; split; vm_compute; reflexivity. Qed.
Lemma n2_storable : storable exact_format n2.
Proof.
  constructor; cbn; try (apply goodb_ok; reflexivity).
  - split; vm_compute; [discriminate|reflexivity].
  - intros m E. injection E as <-. repeat split; apply goodb_ok; reflexivity.
  - intros l c E I. injection E as <-. destruct I as [<-|[]]. apply goodb_ok. reflexivity.
  - intros l e E I. injection E as <-. destruct I as [<-|[]]. split; [split; vm_compute; [discriminate|reflexivity]|].
    split; [intros l c E; discriminate|]. split; [|intros l k v E; discriminate].
    intros l k v E I. injection E as <-. destruct I as [E|[]]; injection E as <- <-. split; [apply goodb_ok|]; reflexivity || exact I.
  - intros l k v E I. injection E as <-. split; [|exact Logic.I].
    destruct I as [E|[E|[]]]; injection E as <- <-; apply goodb_ok; reflexivity.
  - intros l k v E I. injection E as <-. destruct I as [E|[E|[]]]; injection E as <- <-;
      (split; [apply goodb_ok; reflexivity|apply faithful_sample; cbn; auto]).
Qed.
Example C43_example : node_list sample /\ (forall k n, In (k, n) sample -> storable exact_format n) /\
  exists s, marshal exact_format sample = Some s /\ List.length s = 933%nat.
Proof.
  split; [|split].
  - split; [repeat constructor; cbn; intuition discriminate|]. intros k n [E|[E|[]]]; injection E as <- <-; reflexivity.
  - intros k n [E|[E|[]]]; injection E as <- <-; [exact n2_storable|]. apply new_storable. split; vm_compute; [discriminate|reflexivity].
  - eexists. split; [vm_compute; reflexivity|]. vm_compute. reflexivity.
Qed.

(** ** C44: a process that dies during a save leaves the old or the new file.
    Full statement, false:
    forall old new ls st, frun (Some new) (mkF SvStart (Some old)) ls = Some st ->
      f_file st = Some old \/ f_file st = Some new *)
Theorem C44_refuted : exists ns old new ls st, marshal exact_format ns = Some new /\ loads old /\
  frun (Some new) (mkF SvStart (Some old)) ls = Some st /\
  f_file st <> Some old /\ f_file st <> Some new /\ forall t, f_file st = Some t -> ~ loads t.
Proof.
  set (old := jprint 0 (jcontroller exact_format [])). set (new := jprint 0 (jcontroller exact_format [(3%Z, new_node 3)])).
  exists [(3%Z, new_node 3)], old, new, [FCreate], (mkF (SvCreated true) (Some [])).
  split; [vm_compute; reflexivity|]. split.
  { destruct (roundtrip exact_format []) as (s & M & (d & R) & G); [split; [constructor|intros ? ? []]|intros ? ? []|].
    destruct (G d R) as (m & L & _). assert (s = old) by (vm_compute in M; injection M as <-; vm_compute; reflexivity).
    subst s. exists d, m. auto. }
  split; [reflexivity|]. split; [vm_compute; discriminate|]. split; [vm_compute; discriminate|].
  intros t E. injection E as <-. intros (d & m & R & L). assert (N : jread [] = None) by (vm_compute; reflexivity).
  rewrite (unreadable_rejected [] N d R) in L. discriminate.
Qed.
Print Assumptions C44_refuted.
(** What can be found instead: a cut version of the new file.  Loading it
    returns an error; it is not mistaken for a configuration and nothing
    crashes. *)
Theorem C44_partial : forall fmt ns s old ls st,
  (forall k n, In (k, n) ns -> storable fmt n) -> marshal fmt ns = Some s ->
  frun (Some s) (mkF SvStart old) ls = Some st ->
  f_file st = old \/ f_file st = Some s \/ exists a, f_file st = Some a /\ strict_prefix a s /\ rejected a.
Proof. exact save_crash. Qed.
Print Assumptions C44_partial.
Example C44_example : exists st,
  frun (Some (txt "{}")) (mkF SvStart None) [FCreate; FMarshal; FWrite 1] = Some st /\ f_file st = Some (txt "{").
Proof. eexists. split; reflexivity. Qed.

(** ** C45: loading never crashes.  Full statement, false:
    forall s d, read_config s d -> load_config d <> None *)
Theorem C45_refuted : forall s, In s [txt "{}"; txt "null"; txt "{""Nodes"":null}"; txt "{""Nodes"":{""2"":null}}";
    txt "{""Nodes"":{""2"":{""id"":2,""Endpoints"":[null]}}}"] ->
  (exists d, read_config s d) /\ forall d, read_config s d -> load_config d = None.
Proof.
  intros s I. split; [apply read_total|]. intros d R. apply (crash_exactly s d R).
  cbn [In] in I. destruct I as [<-|[<-|[<-|[<-|[<-|[]]]]]].
  - exists (JObj []), []. split; [vm_compute; reflexivity|]. apply fatal_missing; [intros k j []|]. intros l1 k j l2 E. destruct l1; discriminate.
  - exists JNull, []. split; [vm_compute; reflexivity|constructor].
  - exists (JObj [(txt "Nodes", JNull)]), []. split; [vm_compute; reflexivity|]. apply fatal_missing.
    + intros k j [E|[]] _. injection E as <- <-. now left.
    + intros l1 k j l2 E. destruct l1 as [|? [|]]; [injection E as <- <- <-; reflexivity|discriminate|discriminate].
  - exists (JObj [(txt "Nodes", JObj [(txt "2", JNull)])]), []. split; [vm_compute; reflexivity|].
    eapply fatal_node; [now left|reflexivity|]. exists [("2", None)], "2", None. split; [vm_compute; reflexivity|]. split; [now left|exact I].
  - eexists _, []. split; [vm_compute; reflexivity|].
    eapply fatal_node; [now left|reflexivity|]. eexists _, _, _. split; [vm_compute; reflexivity|]. split; [now left|reflexivity].
Qed.
Print Assumptions C45_refuted.
(** Exactly these documents crash, in whatever order the nodes are visited. *)
Theorem C45_partial : forall s d, read_config s d ->
  (load_config d = None <-> exists j r, jread s = Some (j, r) /\ fatal j).
Proof. exact crash_exactly. Qed.
Print Assumptions C45_partial.
(** "Nodes" in these documents is spelled in any of these ways, and in no other. *)
Theorem C45_field_name_partial : forall k, names_nodes k = true <-> spelled_nodes k.
Proof. exact nodes_spelled. Qed.
Print Assumptions C45_field_name_partial.
Example C45_field_name_example : spelled_nodes (txt "noDE" ++ [xc5; xbf]) /\ names_nodes (txt "node") = false.
Proof. split; [apply nodes_spelled|]; vm_compute; reflexivity. Qed.
(** In particular a document without null that has "Nodes" loads or is
    rejected; and a text that is not JSON is rejected. *)
Theorem C45_null_free_partial : forall s l r d k j, jread s = Some (JObj l, r) -> null_free (JObj l) ->
  In (k, j) l -> names_nodes k = true -> read_config s d -> load_config d <> None.
Proof.
  intros s l r d k j J N I K R H. apply (crash_exactly s d R) in H. destruct H as (j0 & r0 & J0 & F).
  rewrite J in J0. injection J0 as <- <-. exact (null_free_not_fatal l k j N I K F).
Qed.
Print Assumptions C45_null_free_partial.
Theorem C45_syntax_partial : forall s, jread s = None -> rejected s.
Proof. exact unreadable_rejected. Qed.
Print Assumptions C45_syntax_partial.
Example C45_example : exists l, jread (txt "{""Nodes"":{""2"":{""id"":2}}}") = Some (JObj l, []) /\ null_free (JObj l) /\
  exists k j, In (k, j) l /\ names_nodes k = true.
Proof.
  eexists. split; [vm_compute; reflexivity|]. split.
  - constructor. intros k v [E|[]]. injection E as <- <-. constructor. intros k v [E|[]]. injection E as <- <-.
    constructor. intros k v [E|[]]. injection E as <- <-. constructor.
  - eexists _, _. split; [now left|reflexivity].
Qed.

(** ** C78: whatever a node gets from the wire and from the device table can be
    written to the file. *)
Theorem C78_storable : forall fmt, (forall f, is_double f -> faithful fmt f) ->
  forall n ls st o, storable fmt n -> (forall l, In l ls -> wire_label l) ->
  irun (istart n) ls = Some (st, o) -> storable fmt (i_node st).
Proof. intros fmt F n ls st o S W E. exact (irun_good fmt F ls (istart n) st o S W E). Qed.
Print Assumptions C78_storable.
Theorem C78_new_node : forall fmt id, int64 id -> storable fmt (new_node id).
Proof. exact new_storable. Qed.
Print Assumptions C78_new_node.
Theorem C78_written : forall fmt ns, (forall k n, In (k, n) ns -> storable fmt n) -> exists s, marshal fmt ns = Some s.
Proof. intros fmt ns G. eexists. exact (storable_written fmt ns G). Qed.
Print Assumptions C78_written.
(** A value that is not finite would not: the file would be left empty. *)
Theorem C78_nonfinite_empties_file : forall fmt old k n ls st, n_float n = Some [(k, S754_nan)] ->
  frun (marshal fmt [(n_id n, n)]) (mkF SvStart old) ls = Some st -> f_phase st = SvDone -> forallb file_op ls = true ->
  f_file st = Some [].
Proof.
  intros fmt old k n ls st F R D O. destruct (save_states _ _ _ _ R) as [_ H]. rewrite (H D O).
  unfold marshal. cbn [flat_map snd]. unfold node_floats. rewrite F. reflexivity.
Qed.
Print Assumptions C78_nonfinite_empties_file.
Definition sensor_frame : list byte := [x01; x22; x00; xd7].
Example C78_example : exists r st o,
  reports_new x31 x05 sensor_frame = Ok r /\ wire_label (IReport r) /\
  irun (istart (new_node 3)) [IReport r] = Some (st, o) /\
  mget "temperature_c" (n_float (i_node st)) = Some (S754_finite false 6051711999279104 (-48)).
Proof.
  eexists _, _, _. split; [vm_compute; reflexivity|]. split; [exists x31, x05, sensor_frame; vm_compute; reflexivity|].
  split; vm_compute; reflexivity.
Qed.

(** ** C79: a save that did not store the configuration says so.  Full
    statement, false:
    forall new old ls st, frun (Some new) (mkF SvStart old) ls = Some st ->
      f_phase st = SvDone -> reported_error st = false -> f_file st = Some new *)
Theorem C79_refuted : exists new old ls st, frun (Some new) (mkF SvStart (Some old)) ls = Some st /\
  f_phase st = SvDone /\ reported_error st = false /\ f_file st <> Some new /\ f_file st <> Some old.
Proof.
  exists (txt "{1}"), (txt "{2}"), [FCreate; FMarshal; FWrite 1; FWriteFails], (mkF SvDone (Some (txt "{"))).
  repeat split; discriminate.
Qed.
Print Assumptions C79_refuted.
(** It is stored if no file operation failed. *)
Theorem C79_partial : forall new old ls st, frun (Some new) (mkF SvStart old) ls = Some st ->
  f_phase st = SvDone -> forallb file_op ls = true -> f_file st = Some new.
Proof. intros new old ls st R. exact (proj2 (save_states old (Some new) ls st R)). Qed.
Print Assumptions C79_partial.
Example C79_example : exists st,
  frun (Some (txt "{}")) (mkF SvStart None) [FCreate; FMarshal; FWrite 1; FWrite 1; FReturn] = Some st /\
  f_phase st = SvDone.
Proof. eexists. split; reflexivity. Qed.

(** ** C80: a configuration that loads gives nodes that can be used.  Full
    statement, false:
    forall s d m k n c, read_config s d -> load_config d = Some (Some m) -> In (k, n) m ->
      raw_has_command n c <> Panic *)
Theorem C80_refuted : exists s d m k n, read_config s d /\ load_config d = Some (Some m) /\ In (k, n) m /\
  forall c, raw_has_command n c = Panic.
Proof.
  set (s := txt "{""Nodes"":{""2"":{""id"":2,""CommandClasses"":[null]}}}").
  set (n := mkRN 2 false None "" "" "" (Some [None]) None None None).
  exists s, (LOk (Some (Some [(2%Z, n)]))), [(2%Z, n)], 2%Z, n. split; [|split; [reflexivity|split; [now left|reflexivity]]].
  eapply RC_object; [vm_compute; reflexivity|].
  eapply (FR_nodes None true (txt "Nodes") _ [] _ [("2", Some n)] [("2", Some n)] [(2%Z, n)]);
    [reflexivity|vm_compute; reflexivity|apply Permutation.Permutation_refl|reflexivity|]. apply (FR_done (Some [(2%Z, n)]) true).
Qed.
Print Assumptions C80_refuted.
(** Nodes from a document without null can. *)
Theorem C80_partial : forall s j r d m k n, jread s = Some (j, r) -> null_free j -> read_config s d ->
  load_config d = Some (Some m) -> In (k, n) m ->
  exists n', real_node n = Some n' /\ forall c, raw_has_command n c = Ok (has_command n' c).
Proof. exact loaded_usable. Qed.
Print Assumptions C80_partial.
Example C80_example : null_free (JObj [(txt "Nodes", JObj [(txt "2", JObj [(txt "id", JNum (txt "2"))])])]).
Proof. constructor. intros k v [E|[]]. injection E as <- <-. constructor. intros k v [E|[]]. injection E as <- <-.
  constructor. intros k v [E|[]]. injection E as <- <-. constructor. Qed.
