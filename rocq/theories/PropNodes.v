(** Property theorems C46 - C48, C53, C54, C67 - C69. *)
From Verif Require Import ModelBase ModelReports ModelNodes ModelList SpecNodes ProofNodes.
From Coq Require Import Floats.SpecFloat.

(** ** C46 *)
Theorem C46_report_effect : forall n c k d r,
  reports_new c k d = Ok r -> has_maps n -> state_report r ->
  exists n', process_event n r = Ok (n', [n_id n], false) /\
    report_effect n n' r /\ same_but_state n n' /\ has_maps n'.
Proof. exact state_report_effect. Qed.
Print Assumptions C46_report_effect.

Theorem C46_other_reports_change_nothing : forall n r, silent_report r ->
  process_event n r = Ok (n, [], false).
Proof. exact silent_report_effect. Qed.
Print Assumptions C46_other_reports_change_nothing.

(** Over a whole history: one update event per change, with the node's id. *)
Theorem C46_events : forall m h m' evs, nrun m h = Some (Ok (m', evs)) ->
  evs = repeat (n_id (m_node m)) (List.length (filter reported h)).
Proof. exact nrun_events. Qed.
Print Assumptions C46_events.
Theorem C46_events_exactly_for_changes : forall l, reported l = true <->
  match l with NWindow _ => True | NReport r => ~ silent_report r end.
Proof. exact reported_spec. Qed.
Print Assumptions C46_events_exactly_for_changes.

(** A temperature of 21.5 C (size 2, precision 1) on a fresh node 7. *)
Example C46_example : exists r n v,
  reports_new x31 x05 [x01; x22; x00; xd7] = Ok r /\ state_report r /\ has_maps (new_node 7) /\
  process_event (new_node 7) r = Ok (n, [7%Z], false) /\
  mget "temperature_c" (n_float n) = Some v /\ v = S754_finite false 6051711999279104 (-48) /\
  (6051711999279104 * 10 = 215 * 2 ^ 48)%Z.
Proof.
  do 3 eexists. split; [vm_compute; reflexivity|]. split; [exact I|].
  split; [split; discriminate|]. split; [vm_compute; reflexivity|].
  split; [vm_compute; reflexivity|]. split; vm_compute; reflexivity.
Qed.

(** ** C47 *)
Definition alarm_of (t status : byte) : report := RAlarm t x00 x00 x00 x00 status [].

(** Full statement (false of the code): the alarm flag stays true until the
    window of the alarm has ended. *)
Theorem C47_alarm_stays_raised_refuted : exists h m evs i,
  nrun (mkNM (new_node 7) 0 []) h = Some (Ok (m, evs)) /\ window_open h i /\
  mget "alarm" (n_bool (m_node m)) = Some false.
Proof. exact alarm_cut_short. Qed.
Print Assumptions C47_alarm_stays_raised_refuted.

(** What holds: a true flag means an open window ... *)
Theorem C47_alarm_needs_window_partial : forall n h m evs,
  has_maps n -> mget "alarm" (n_bool n) <> Some true ->
  nrun (mkNM n 0 []) h = Some (Ok (m, evs)) ->
  mget "alarm" (n_bool (m_node m)) = Some true -> exists i, window_open h i.
Proof. exact alarm_needs_window. Qed.
Print Assumptions C47_alarm_needs_window_partial.

(** ... once all windows ended the flag is false and the value zero ... *)
Theorem C47_alarm_over_partial : forall n h m evs i r t, has_maps n ->
  nrun (mkNM n 0 []) h = Some (Ok (m, evs)) ->
  report_number h i = Some r -> raised r t -> (forall j, ~ window_open h j) ->
  mget "alarm" (n_bool (m_node m)) = Some false /\
  mget "alarm" (n_float (m_node m)) = Some (S754_zero false).
Proof. exact alarm_over. Qed.
Print Assumptions C47_alarm_over_partial.

(** ... the last non-zero type is remembered ... *)
Theorem C47_last_type_partial : forall n p r t q m evs, has_maps n ->
  nrun (mkNM n 0 []) (p ++ NReport r :: q) = Some (Ok (m, evs)) ->
  raised r t -> t <> x00 -> (forall r' t', In (NReport r') q -> raised r' t' -> t' = x00) ->
  exists v, mget "alarmLastType" (n_float (m_node m)) = Some v /\ is_integer v (Z.of_N (Byte.to_N t)).
Proof. exact alarm_last_type. Qed.
Print Assumptions C47_last_type_partial.

(** ... every open window can end, once, and no other ... *)
Theorem C47_windows_end_partial : forall n h m evs i, has_maps n ->
  nrun (mkNM n 0 []) h = Some (Ok (m, evs)) ->
  window_open h i <-> exists m' evs', nrun (mkNM n 0 []) (h ++ [NWindow i]) = Some (Ok (m', evs')).
Proof. exact windows_can_end. Qed.
Print Assumptions C47_windows_end_partial.

(** ... and the flag is exactly: was the last thing that happened to it an
    alarm or the end of a window? *)
Theorem C47_flag_exact_partial : forall n h m evs, has_maps n ->
  nrun (mkNM n 0 []) h = Some (Ok (m, evs)) ->
  ((forall l, In l h -> ~ alarm_label l) ->
     mget "alarm" (n_bool (m_node m)) = mget "alarm" (n_bool n)) /\
  (forall p r q, h = p ++ NReport r :: q -> alarm_label (NReport r) ->
     (forall x, In x q -> ~ alarm_label x) -> mget "alarm" (n_bool (m_node m)) = Some true) /\
  (forall p i q, h = p ++ NWindow i :: q ->
     (forall x, In x q -> ~ alarm_label x) -> mget "alarm" (n_bool (m_node m)) = Some false).
Proof. exact alarm_flag_exact. Qed.
Print Assumptions C47_flag_exact_partial.

(** Two overlapping alarms, windows ending in the other order, with a switch
    report between: flag false, value zero, last type 6. *)
Example C47_example :
  let h := [NReport (alarm_of x05 xff); NReport (RSwitchBinary1 true true);
            NReport (alarm_of x06 xff); NWindow 2; NWindow 0] in
  match nrun (mkNM (new_node 7) 0 []) h with
  | Some (Ok (m, evs)) => mget "alarm" (n_bool (m_node m)) = Some false /\
      mget "on" (n_bool (m_node m)) = Some true /\
      mget "alarmLastType" (n_float (m_node m)) = Some (f64_of_Z 6) /\ evs = [7; 7; 7; 7; 7]%Z
  | _ => False
  end.
Proof. vm_compute. tauto. Qed.

(** ** C48 *)
(** Full statement (false of the code): the next wake-up releases everyone who
    waits.  A goroutine that a wake-up meets inside isAwake waits forever. *)
Theorem C48_wakeup_releases_refuted : exists h g, In (WEnter g) h /\ In (WFetch g) h /\
  forall rest, ~ In (WEnter g) rest -> ~ In g (wake_released (wake_init false) (h ++ rest)).
Proof. exact wait_lost. Qed.
Print Assumptions C48_wakeup_releases_refuted.

(** A wait during whose isAwake call no wake-up comes is ended by the next one. *)
Theorem C48_undisturbed_waits_partial : forall flag0 p g mid q, ~ listening flag0 p ->
  ~ In (WFetch g) mid -> ~ In WWakeUp mid -> ~ In WWakeUp q ->
  In g (snd (wake_step (wake_after (wake_init flag0) (p ++ WEnter g :: mid ++ WFetch g :: q)) WWakeUp)).
Proof. exact undisturbed_wait. Qed.
Print Assumptions C48_undisturbed_waits_partial.

(** Exactly who is released by a wake-up; earlier wake-ups are not remembered. *)
Theorem C48_released_partial : forall flag0 h g,
  In g (snd (wake_step (wake_after (wake_init flag0) h) WWakeUp)) <-> waiting flag0 h g.
Proof. exact wake_releases. Qed.
Print Assumptions C48_released_partial.

Theorem C48_listening_nodes_partial : forall flag0 h g,
  (listening flag0 h -> snd (wake_step (wake_after (wake_init flag0) h) (WEnter g)) = [g]) /\
  (~ listening flag0 h -> snd (wake_step (wake_after (wake_init flag0) h) (WEnter g)) = []).
Proof. exact wait_at_once. Qed.
Print Assumptions C48_listening_nodes_partial.

Theorem C48_nothing_else_releases_partial : forall m l, (forall g, l <> WEnter g) -> l <> WWakeUp ->
  snd (wake_step m l) = [].
Proof. exact nothing_else_releases. Qed.
Print Assumptions C48_nothing_else_releases_partial.

(** Goroutines 1 and 2 wait, a wake-up arrives, 3 waits: only the next wake-up
    releases 3. *)
Example C48_example :
  waiting false [WWakeUp; WEnter 1; WEnter 2; WFetch 1; WFetch 2] 2 /\
  ~ waiting false [WEnter 2; WFetch 2; WWakeUp; WEnter 3; WFetch 3] 2 /\
  wake_released (wake_init false)
    [WWakeUp; WEnter 1; WEnter 2; WFetch 2; WFetch 1; WWakeUp; WEnter 3; WFetch 3] = [1; 2].
Proof.
  split; [|split; [|reflexivity]].
  - apply (wake_releases false [WWakeUp; WEnter 1; WEnter 2; WFetch 1; WFetch 2] 2). cbn. auto.
  - intros H. apply wake_releases in H. cbn in H. destruct H as [H|[]]. discriminate.
Qed.

(** ** C53 *)
Theorem C53_get_last_added : forall ns id,
  (forall n, last_added ns id n -> exists n', list_get (adds new_list ns) id = Some n' /\ linked_copy n n') /\
  ((forall n, In n ns -> n_id n <> id) -> list_get (adds new_list ns) id = None).
Proof. exact adds_get. Qed.
Print Assumptions C53_get_last_added.
Theorem C53_all_lists_each_id_once : forall ns, NoDup (map fst (list_all (adds new_list ns))).
Proof. exact adds_nodup. Qed.
Print Assumptions C53_all_lists_each_id_once.
Theorem C53_all_agrees_with_get : forall ns id n,
  In (id, n) (list_all (adds new_list ns)) <-> list_get (adds new_list ns) id = Some n.
Proof. exact adds_all. Qed.
Print Assumptions C53_all_agrees_with_get.
Theorem C53_keys_are_ids : forall ns id n, In (id, n) (list_all (adds new_list ns)) -> n_id n = id.
Proof. exact list_all_linked. Qed.
Print Assumptions C53_keys_are_ids.
Example C53_example :
  let a := new_node 4 in let b := set_endpoints (new_node 4) [mkEndpoint 1 None None None false] in
  last_added [a; new_node 9; b; new_node 5] 4 b /\
  map fst (list_all (adds new_list [a; new_node 9; b; new_node 5])) = [4; 9; 5]%Z /\
  list_get (adds new_list [a; new_node 9; b; new_node 5]) 4 =
    Some (set_endpoints (new_node 4) [mkEndpoint 1 None None None true]).
Proof.
  split; [|split; reflexivity]. exists [new_node 4; new_node 9], [new_node 5].
  split; [reflexivity|]. split; [reflexivity|]. intros m [<-|[]]. discriminate.
Qed.

(** ** C54 *)
(** Full statement (false of the code): every call of Get or All can return. *)
Theorem C54_readers_return_refuted : exists h g s, krun kinit h = Some s /\ In (KCall g) h /\
  forall rest s', krun s rest = Some s' -> ~ In (KReturn g) (h ++ rest).
Proof. exact reader_deadlock. Qed.
Print Assumptions C54_readers_return_refuted.

(** Calls made while no Add is in progress return within two steps of their own
    whatever the others do; exactly the others never return. *)
Theorem C54_readers_return_partial : forall p g q s,
  krun kinit (p ++ KCall g :: q) = Some s -> ~ add_in_progress p ->
  In (KReturn g) (p ++ KCall g :: q) \/
  (exists s', krun s [KReturn g] = Some s') \/ (exists s', krun s [KRLock g; KReturn g] = Some s').
Proof. exact free_reader_returns. Qed.
Print Assumptions C54_readers_return_partial.
Theorem C54_blocked_readers_partial : forall p g q s, krun kinit (p ++ KCall g :: q) = Some s ->
  add_in_progress p -> ~ In (KReturn g) (p ++ KCall g :: q).
Proof. exact locked_reader_never_returns. Qed.
Print Assumptions C54_blocked_readers_partial.
Example C54_example : exists s, krun kinit [KAddLock 1; KAddUnlock 1; KCall 5; KAddLock 2; KRLock 5] = Some s /\
  ~ add_in_progress [KAddLock 1; KAddUnlock 1].
Proof.
  eexists. split; [reflexivity|]. intros H.
  apply (k_adder_add [KAddLock 1; KAddUnlock 1] kinit eq_refl) in H. destruct H as [a H]. discriminate.
Qed.

(** ** C67 *)
(** Full statement (false of the code): a level report saying "unknown" leaves
    the known level alone. *)
Theorem C67_unknown_level_refuted : exists d r n n' evs v,
  reports_new x26 x03 d = Ok r /\ d = [xfe] /\ has_maps n /\
  mget "level" (n_float n) = Some v /\ is_integer v 20 /\
  process_event n r = Ok (n', evs, false) /\
  exists v', mget "level" (n_float n') = Some v' /\ is_integer v' 100.
Proof. exact unknown_level_overwrites. Qed.
Print Assumptions C67_unknown_level_refuted.

(** The decoder does mark such a report as invalid, and only such a one. *)
Theorem C67_unknown_level_partial : forall b r, reports_new x26 x03 [b] = Ok r ->
  exists cur valid, r = RSwitchMulti1 cur valid /\ (valid = false <-> b = xfe).
Proof. exact unknown_level_marked. Qed.
Print Assumptions C67_unknown_level_partial.
Example C67_example : reports_new x26 x03 [xfe] = Ok (RSwitchMulti1 100 false).
Proof. reflexivity. Qed.

(** ** C68 *)
(** Full statement (false of the code): nobody reads the map while Add changes it. *)
Theorem C68_readers_exclude_add_refuted : exists h s g, krun kinit h = Some s /\
  reading h g /\ add_in_progress h.
Proof. exact reader_overlaps_add. Qed.
Print Assumptions C68_readers_exclude_add_refuted.
(** Two Adds never overlap. *)
Theorem C68_adds_exclude_each_other_partial : forall h a s,
  krun kinit (h ++ [KAddLock a]) = Some s -> ~ add_in_progress h.
Proof. exact adds_exclude. Qed.
Print Assumptions C68_adds_exclude_each_other_partial.
Example C68_example : exists s, krun kinit ([KAddLock 1; KAddUnlock 1] ++ [KAddLock 2]) = Some s.
Proof. eexists. reflexivity. Qed.

(** ** C69 *)
(** Full statement (false of the code): processing a report never crashes. *)
Theorem C69_report_never_crashes_refuted : exists n c k d r,
  reports_new c k d = Ok r /\ process_event n r = Panic.
Proof. exact nil_map_crash. Qed.
Print Assumptions C69_report_never_crashes_refuted.
(** It never does on a node that has its state maps, in any history. *)
Theorem C69_report_never_crashes_partial : forall n h, has_maps n ->
  nrun (mkNM n 0 []) h = None \/ exists m evs, nrun (mkNM n 0 []) h = Some (Ok (m, evs)).
Proof. exact report_no_crash. Qed.
Print Assumptions C69_report_never_crashes_partial.
Theorem C69_new_nodes_have_maps_partial : forall id, has_maps (new_node id).
Proof. exact new_node_maps. Qed.
Print Assumptions C69_new_nodes_have_maps_partial.
Example C69_example : exists m evs,
  nrun (mkNM (new_node 3) 0 []) [NReport (alarm_of x00 xff); NWindow 0] = Some (Ok (m, evs)).
Proof. do 2 eexists. vm_compute. reflexivity. Qed.
