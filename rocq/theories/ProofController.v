(** Proofs about the controller. *)
From Verif Require Import ModelBase ModelReports ModelSerial ModelNodes ModelList ModelController.
From Verif Require Import SpecNodes SpecController ProofNodes.
From Coq Require Import Lia.

(** ** Runs *)
Lemma crun_app st l1 l2 st' o : crun st (l1 ++ l2) = Some (Ok (st', o)) <->
  exists st1 o1 o2, crun st l1 = Some (Ok (st1, o1)) /\ crun st1 l2 = Some (Ok (st', o2)) /\
    o = o1 ++ o2.
Proof.
  revert st o. induction l1 as [|l l1 IH]; intros st o; cbn [app crun].
  - split; [intros E; exists st, [], o; auto|].
    intros (st1 & o1 & o2 & A & B & ->). injection A as <- <-. exact B.
  - destruct (cstep st l) as [[[st1 o1]|f|]|] eqn:E.
    2,3,4: split; [discriminate|intros (? & ? & ? & A & _); discriminate].
    split.
    + destruct (crun st1 (l1 ++ l2)) as [[[st2 o2]|f|]|] eqn:R; try discriminate.
      intros K. injection K as <- <-. apply IH in R. destruct R as (a & b & c & R1 & R2 & ->).
      exists a, (o1 ++ b), c. rewrite R1. rewrite app_assoc. auto.
    + intros (a & b & c & R1 & R2 & ->).
      destruct (crun st1 l1) as [[[st2 o2]|f|]|] eqn:R; try discriminate.
      injection R1 as <- <-.
      assert (K : crun st1 (l1 ++ l2) = Some (Ok (st', o2 ++ c))).
      { apply IH. exists st2, o2, c. auto. }
      rewrite K. rewrite app_assoc. reflexivity.
Qed.
Lemma crun_snoc st ls l st' o : crun st (ls ++ [l]) = Some (Ok (st', o)) <->
  exists st1 o1 o2, crun st ls = Some (Ok (st1, o1)) /\ cstep st1 l = Some (Ok (st', o2)) /\
    o = o1 ++ o2.
Proof.
  rewrite crun_app. split; intros (st1 & o1 & o2 & A & B & ->); exists st1, o1, o2; split; auto.
  - cbn in B. destruct (cstep st1 l) as [[[a b]|f|]|]; try discriminate.
    injection B as <- <-. rewrite app_nil_r. auto.
  - cbn. rewrite B. rewrite app_nil_r. auto.
Qed.

Lemma pushed_app a b : pushed (a ++ b) = pushed a ++ pushed b.
Proof. apply flat_map_app. Qed.
Lemma received_app a b : received (a ++ b) = received a ++ received b.
Proof. apply flat_map_app. Qed.
Lemma discovered_app a b : discovered (a ++ b) = discovered a ++ discovered b.
Proof. apply flat_map_app. Qed.
Lemma identifies_app a b : identifies (a ++ b) = identifies a ++ identifies b.
Proof. apply flat_map_app. Qed.
Lemma saves_app a b : saves (a ++ b) = saves a ++ saves b.
Proof. apply flat_map_app. Qed.
Lemma updates_app a b : updates (a ++ b) = updates a + updates b.
Proof. unfold updates. rewrite pushed_app, filter_app, app_length. reflexivity. Qed.

(** ** The parts of a step *)
Definition enq (q : list event) (e : event) : list event :=
  if (List.length q <? 10)%nat then q ++ [e] else q.

Lemma pushes_frame es : forall st,
  c_file (pushes st es) = c_file st /\ c_nodes (pushes st es) = c_nodes st /\
  c_setup (pushes st es) = c_setup st /\ c_deb (pushes st es) = c_deb st /\
  c_disc (pushes st es) = c_disc st /\ c_ident (pushes st es) = c_ident st /\
  c_windows (pushes st es) = c_windows st /\
  c_queue (pushes st es) = fold_left enq es (c_queue st) /\
  c_trig (pushes st es) = c_trig st + List.length (filter is_update es).
Proof.
  induction es as [|e es IH]; intros st; cbn [pushes fold_left filter List.length].
  - repeat split; lia.
  - destruct (IH (push st e)) as (A&B&C&D&E&F&G&H&I).
    rewrite A, B, C, D, E, F, G, H, I. repeat split; cbn.
    destruct e; cbn; lia.
Qed.

Lemma node_events_ok st id l st' o : node_events st id l = Ok (st', o) ->
  st' = pushes st (map EUpdated l) /\ o = map (fun a => COPush (EUpdated a)) l.
Proof.
  unfold node_events. destruct l as [|a l]; [intros E; injection E as <- <-; auto|].
  destruct (existsb _ _); [|discriminate]. intros E. injection E as <- <-. auto.
Qed.
Lemma pushed_events l : pushed (map (fun a => COPush (EUpdated a)) l) = map EUpdated l.
Proof. unfold pushed, received, saves, discovered, identifies in *. induction l; cbn; congruence. Qed.
Lemma received_events l : received (map (fun a => COPush (EUpdated a)) l) = [].
Proof. unfold pushed, received, saves, discovered, identifies in *. induction l; cbn; congruence. Qed.
Lemma saves_events l : saves (map (fun a => COPush (EUpdated a)) l) = [].
Proof. unfold pushed, received, saves, discovered, identifies in *. induction l; cbn; congruence. Qed.
Lemma discovered_events l : discovered (map (fun a => COPush (EUpdated a)) l) = [].
Proof. unfold pushed, received, saves, discovered, identifies in *. induction l; cbn; congruence. Qed.
Lemma identifies_events l : identifies (map (fun a => COPush (EUpdated a)) l) = [].
Proof. unfold pushed, received, saves, discovered, identifies in *. induction l; cbn; congruence. Qed.

(** Case analysis of a step: the three labels that go through [node_events]
    share one case. *)
Inductive cstep_case (st : cst) : clabel -> cst -> list cobs -> Prop :=
| SC_connected : c_disc st = DcIdle ->
    cstep_case st CConnected (with_deb (with_disc st DcAsked) (c_trig st) DWait) []
| SC_reconnect : c_disc st <> DcIdle -> cstep_case st CReconnect st []
| SC_answer msg active : c_disc st = DcAsked -> m_data msg = Some (PNodes active) ->
    cstep_case st (CAnswer (Some msg)) (with_disc st (DcLoop 0 active)) []
| SC_noanswer m : c_disc st = DcAsked ->
    (forall msg active, m = Some msg -> m_data msg <> Some (PNodes active)) ->
    cstep_case st (CAnswer m) (with_disc st DcDone) []
| SC_end i : c_disc st = DcLoop i [] -> cstep_case st CDisc (with_disc st DcDone) []
| SC_skip i a rest : c_disc st = DcLoop i (a :: rest) -> a = false \/ i = 0 ->
    cstep_case st CDisc (with_disc st (DcLoop (S i) rest)) []
| SC_known i rest n : c_disc st = DcLoop i (true :: rest) -> i <> 0 ->
    zlookup (Z.of_nat i + 1) (c_nodes st) = Some n ->
    cstep_case st CDisc (with_ident (with_disc st (DcLoop (S i) rest)) (Z.of_nat i + 1))
      [COIdentify (Z.of_nat i + 1)]
| SC_new i rest : c_disc st = DcLoop i (true :: rest) -> i <> 0 ->
    zlookup (Z.of_nat i + 1) (c_nodes st) = None ->
    cstep_case st CDisc (with_disc (add_node st (new_node (Z.of_nat i + 1))) (DcAdded i rest)) []
| SC_announce i rest : c_disc st = DcAdded i rest ->
    cstep_case st CDisc (with_disc (push st (EDiscovered (Z.of_nat i + 1))) (DcPushed i rest))
      [COPush (EDiscovered (Z.of_nat i + 1))]
| SC_setup i rest : c_disc st = DcPushed i rest ->
    cstep_case st CDisc
      (with_ident (with_setup (with_disc st (DcLoop (S i) rest)) (Z.of_nat i + 1)) (Z.of_nat i + 1))
      [COIdentify (Z.of_nat i + 1)]
| SC_unknown b r : zlookup (Z.of_N (b2N b)) (c_nodes st) = None ->
    cstep_case st (CReport b r) st []
| SC_change l id n n' w evs : touches id l ->
    zlookup id (c_nodes st) = Some n \/ (exists a, l = CIdent id n' a /\ n_id n' = id /\ In id (c_ident st)) ->
    (forall b r, l = CReport b r -> exists opened, process_event n r = Ok (n', evs, opened)) ->
    cstep_case st l
      (pushes (with_windows (with_nodes st (zset id n' (c_nodes st))) w) (map EUpdated evs))
      (map (fun a => COPush (EUpdated a)) evs)
| SC_read e q : c_queue st = e :: q -> cstep_case st CRead (with_queue st q) [CORead e]
| SC_trigger t : c_trig st = S t -> c_deb st = DWait \/ (exists age, c_deb st = DTimer age) ->
    cstep_case st CTrigger (with_deb st t (DTimer 0)) []
| SC_save age : c_deb st = DTimer age -> (10000 <= age)%N -> c_file st = true ->
    cstep_case st CTimeout (with_deb st (c_trig st) DSaving) [COSave (c_nodes st)]
| SC_nosave age : c_deb st = DTimer age -> (10000 <= age)%N -> c_file st = false ->
    cstep_case st CTimeout (with_deb st (c_trig st) DWait) []
| SC_saved : c_deb st = DSaving -> cstep_case st CSaved (with_deb st (c_trig st) DWait) []
| SC_tick age d : c_deb st = DTimer age ->
    cstep_case st (CTick d) (with_deb st (c_trig st) (DTimer (age + d))) []
| SC_tick0 d : (forall age, c_deb st <> DTimer age) -> cstep_case st (CTick d) st [].

Lemma with_windows_same st : with_windows st (c_windows st) = st.
Proof. destruct st; reflexivity. Qed.

Lemma cstep_inv st l st' o : cstep st l = Some (Ok (st', o)) -> cstep_case st l st' o.
Proof.
  destruct l; unfold cstep.
  - destruct (c_disc st) eqn:E; try discriminate. intros K. injection K as <- <-.
    now constructor.
  - destruct (c_disc st) eqn:E; try discriminate; intros K; injection K as <- <-; constructor; congruence.
  - destruct (c_disc st) eqn:E; try discriminate. destruct m as [msg|].
    + destruct (m_data msg) as [[?|a|?]|] eqn:D; intros K; injection K as <- <-.
      all: try (apply SC_noanswer; [assumption|]; intros ? ? G; injection G as <-; congruence).
      now apply SC_answer.
    + intros K; injection K as <- <-. apply SC_noanswer; [assumption|]. congruence.
  - destruct (c_disc st) as [| |i rest|i rest|i rest|] eqn:E; try discriminate.
    + destruct rest as [|a rest]; [intros K; injection K as <- <-; eapply SC_end; eauto|].
      destruct a; cbn [negb].
      2: intros K; injection K as <- <-; eapply SC_skip; eauto.
      destruct (Nat.eqb_spec i 0).
      1: intros K; injection K as <- <-; eapply SC_skip; eauto.
      destruct (zlookup _ _) eqn:Z; intros K; injection K as <- <-.
      * eapply SC_known; eauto.
      * eapply SC_new; eauto.
    + intros K; injection K as <- <-. eapply SC_announce; eauto.
    + intros K; injection K as <- <-. eapply SC_setup; eauto.
  - destruct (zlookup _ _) as [n|] eqn:Z; [|intros K; injection K as <- <-; now apply SC_unknown].
    destruct (process_event n r) as [[[n' evs] op]|?|] eqn:P; cbn [bind]; try discriminate.
    intros K. injection K as K. apply node_events_ok in K. destruct K as [-> ->].
    assert (T : touches (Z.of_N (b2N id)) (CReport id r)) by reflexivity.
    destruct op.
    + eapply (SC_change st _ _ n n' _ evs T); [now left|]. intros b' r' G. injection G as -> ->. eauto.
    + rewrite <- (with_windows_same (with_nodes _ _)).
      eapply (SC_change st _ _ n n' _ evs T); [now left|]. intros b' r' G. injection G as -> ->. eauto.
  - destruct (existsb _ _) eqn:X; [|discriminate].
    destruct (zlookup _ _) as [n|] eqn:Z; [|discriminate].
    destruct (alarm_window_end n) as [[n' evs]|?|] eqn:P; cbn [bind]; try discriminate.
    intros K. injection K as K. apply node_events_ok in K. destruct K as [-> ->].
    eapply (SC_change st _ _ n n'); [reflexivity|now left|]. congruence.
  - destruct (existsb _ _) eqn:X; [|discriminate]. cbn [andb].
    destruct (Z.eqb_spec (n_id n) id) as [I|]; [|discriminate].
    intros K. injection K as K. apply node_events_ok in K. destruct K as [-> ->].
    rewrite <- (with_windows_same (with_nodes _ _)).
    apply existsb_exists in X. destruct X as (x & X & Y). apply Z.eqb_eq in Y. subst x.
    eapply (SC_change st _ _ n n); [reflexivity|right; eauto|]. congruence.
  - destruct (c_queue st) eqn:Q; [discriminate|]. intros K; injection K as <- <-. now constructor.
  - destruct (c_trig st) eqn:T; [discriminate|].
    destruct (c_deb st) eqn:D; try discriminate; intros K; injection K as <- <-; constructor; eauto.
  - destruct (c_deb st) eqn:D; try discriminate. destruct (N.leb_spec save_delay age); [|discriminate].
    destruct (c_file st) eqn:F; intros K; injection K as <- <-.
    + eapply SC_save; eauto.
    + eapply SC_nosave; eauto.
  - destruct (c_deb st) eqn:D; try discriminate; intros K; injection K as <- <-; now constructor.
  - destruct (c_deb st) eqn:D; intros K; injection K as <- <-;
      try (apply SC_tick0; congruence). now apply SC_tick.
Qed.

(** ** The queue (C39) *)
Lemma step_queue st l st' o : cstep st l = Some (Ok (st', o)) ->
  (exists e, o = [CORead e] /\ c_queue st = e :: c_queue st') \/
  (received o = [] /\ c_queue st' = fold_left enq (pushed o) (c_queue st)).
Proof.
  intros E. apply cstep_inv in E. destruct E; try (right; split; reflexivity).
  - right. rewrite received_events, pushed_events. split; [reflexivity|].
    destruct (pushes_frame (map EUpdated evs) (with_windows (with_nodes st (zset id n' (c_nodes st))) w))
      as (_&_&_&_&_&_&_&Q&_). rewrite Q. reflexivity.
  - left. exists e. split; [reflexivity|]. cbn. assumption.
Qed.

(** What the queue promises about a trace that begins with an empty queue. *)
Definition queue_ok (T : list cobs) (q : list event) : Prop :=
  List.length q <= 10 /\
  exists keep, List.length keep = List.length (pushed T) /\
    received T ++ q = chosen keep (pushed T) /\
    forall p e s, T = p ++ COPush e :: s ->
      (nth (List.length (pushed p)) keep true = false <->
       List.length (chosen keep (pushed p)) = List.length (received p) + 10).

Lemma chosen_app {A} k1 (l1 : list A) k2 l2 : List.length k1 = List.length l1 ->
  chosen (k1 ++ k2) (l1 ++ l2) = chosen k1 l1 ++ chosen k2 l2.
Proof.
  revert l1. induction k1 as [|k k1 IH]; intros [|x l1] E; try discriminate; [reflexivity|].
  cbn. injection E as E. destruct k; rewrite (IH _ E); reflexivity.
Qed.
(** Longer masks do not matter. *)
Lemma chosen_prefix {A} k (l : list A) k2 : List.length l <= List.length k ->
  chosen (k ++ k2) l = chosen k l.
Proof.
  revert l. induction k as [|b k IH]; intros [|x l] E; cbn in *; try lia; try reflexivity.
  - destruct k2; reflexivity.
  - rewrite IH by lia. reflexivity.
Qed.

Lemma pushed_prefix (p : list cobs) e s : List.length (pushed p) < List.length (pushed (p ++ COPush e :: s)).
Proof. rewrite pushed_app, app_length. cbn. lia. Qed.

Lemma split_last {A} (T : list A) x p y s : T ++ [x] = p ++ y :: s ->
  (s = [] /\ p = T /\ y = x) \/ exists s', s = s' ++ [x] /\ T = p ++ y :: s'.
Proof.
  intros E. destruct (exists_last (l := y :: s)) as (s' & z & Z); [discriminate|].
  rewrite Z, app_assoc in E. apply app_inj_tail in E. destruct E as [-> ->].
  destruct s' as [|a s']; cbn in Z; injection Z as -> ->.
  - left. rewrite app_nil_r. auto.
  - right. eauto.
Qed.

Lemma queue_ok_other T q x : queue_ok T q -> pushed [x] = [] -> received [x] = [] ->
  queue_ok (T ++ [x]) q.
Proof.
  intros (L & keep & K1 & K2 & K3) P R. split; [exact L|]. exists keep.
  rewrite pushed_app, received_app, P, R, !app_nil_r. split; [exact K1|]. split; [exact K2|].
  intros p e s E. apply split_last in E. destruct E as [(-> & -> & <-)|(s' & -> & ->)].
  - discriminate.
  - eapply K3. reflexivity.
Qed.
Lemma queue_ok_read T q e : queue_ok T (e :: q) -> queue_ok (T ++ [CORead e]) q.
Proof.
  intros (L & keep & K1 & K2 & K3). cbn in L. split; [lia|]. exists keep.
  rewrite pushed_app, received_app. cbn [pushed received flat_map]. rewrite app_nil_r.
  split; [exact K1|]. split; [rewrite <- app_assoc; exact K2|].
  intros p x s E. apply split_last in E. destruct E as [(_ & _ & E)|(s' & -> & ->)].
  - discriminate.
  - eapply K3. reflexivity.
Qed.
Lemma queue_ok_push T q e : queue_ok T q -> queue_ok (T ++ [COPush e]) (enq q e).
Proof.
  intros (L & keep & K1 & K2 & K3).
  assert (C : List.length (chosen keep (pushed T)) = List.length (received T) + List.length q)
    by (rewrite <- K2, app_length; reflexivity).
  unfold enq. set (b := (List.length q <? 10)%nat).
  split. { destruct b eqn:B; [|exact L]. apply Nat.ltb_lt in B. rewrite app_length. cbn. lia. }
  exists (keep ++ [b]). rewrite pushed_app, received_app, app_length, app_length.
  cbn [pushed received flat_map List.length app]. rewrite app_nil_r.
  split; [lia|]. split.
  { rewrite chosen_app by exact K1. rewrite <- K2. destruct b; cbn.
    - now rewrite app_assoc.
    - now rewrite app_nil_r. }
  intros p x s E. apply split_last in E. destruct E as [(-> & -> & E)|(s' & -> & ->)].
  - rewrite app_nth2 by lia. rewrite K1, Nat.sub_diag. cbn [nth].
    rewrite chosen_prefix by lia. rewrite C. subst b.
    destruct (Nat.ltb_spec (List.length q) 10); split; intros; try lia; try discriminate; reflexivity.
  - pose proof (pushed_prefix p x s').
    rewrite app_nth1 by lia. rewrite chosen_prefix by lia. eapply K3. reflexivity.
Qed.
Lemma queue_ok_pushes o : forall T q, queue_ok T q -> received o = [] ->
  queue_ok (T ++ o) (fold_left enq (pushed o) q).
Proof.
  induction o as [|x o IH]; intros T q K R; [cbn; now rewrite app_nil_r|].
  replace (T ++ x :: o) with ((T ++ [x]) ++ o) by (rewrite <- app_assoc; reflexivity).
  destruct x as [e|e|ns|id]; cbn [pushed flat_map app fold_left]; [| discriminate| |].
  - apply IH; [|exact R]. now apply queue_ok_push.
  - apply IH; [|exact R]. now apply queue_ok_other.
  - apply IH; [|exact R]. now apply queue_ok_other.
Qed.

Lemma queue_ok_nil : queue_ok [] [].
Proof.
  split; [cbn; lia|]. exists []. repeat split; intros; destruct p; discriminate.
Qed.

Lemma load_app st a b : load_nodes st (a ++ b) = load_nodes (load_nodes st a) b.
Proof. revert st. induction a as [|n a IH]; intros st; cbn; [reflexivity|apply IH]. Qed.

Lemma queue_ok_load file ns : queue_ok (announced ns) (c_queue (loaded file ns)).
Proof.
  unfold loaded. induction ns as [|n ns IH] using rev_ind; [apply queue_ok_nil|].
  unfold announced. rewrite map_app, load_app. cbn [map load_nodes push add_node with_setup c_queue].
  change (queue_ok (announced ns ++ [COPush (EDiscovered (n_id n))])
           (enq (c_queue (load_nodes (new_controller file) ns)) (EDiscovered (n_id n)))).
  now apply queue_ok_push.
Qed.

Lemma queue_run file ns ls : forall st o, crun (loaded file ns) ls = Some (Ok (st, o)) ->
  queue_ok (announced ns ++ o) (c_queue st).
Proof.
  induction ls as [|l ls IH] using rev_ind; intros st o E.
  - injection E as <- <-. rewrite app_nil_r. apply queue_ok_load.
  - apply crun_snoc in E. destruct E as (st1 & o1 & o2 & A & B & ->).
    specialize (IH _ _ A). rewrite app_assoc. apply step_queue in B.
    destruct B as [(e & -> & Q)|(R & ->)].
    + apply queue_ok_read. rewrite <- Q. exact IH.
    + now apply queue_ok_pushes.
Qed.

Lemma queue_history file ns ls st o : crun (loaded file ns) ls = Some (Ok (st, o)) ->
  List.length (c_queue st) <= 10 /\
  exists keep, List.length keep = List.length (pushed (announced ns ++ o)) /\
    received (announced ns ++ o) ++ c_queue st = chosen keep (pushed (announced ns ++ o)) /\
    forall p e s, announced ns ++ o = p ++ COPush e :: s ->
      (nth (List.length (pushed p)) keep true = false <->
       List.length (chosen keep (pushed p)) = List.length (received p) + 10).
Proof. intros E. exact (queue_run _ _ _ _ _ E). Qed.

Lemma node_events_none st id l x : Some (node_events st id l) = None -> Some x = @None (res (cst * list cobs)).
Proof. discriminate. Qed.
Lemma never_blocks st l q t : l <> CRead -> l <> CTrigger ->
  (cstep st l = None <-> cstep (congested st q t) l = None).
Proof.
  intros NR NT. destruct l; try congruence; unfold cstep, congested;
    cbn [with_deb with_queue c_disc c_deb c_nodes c_windows c_ident c_file c_queue c_trig].
  all: repeat match goal with
    | |- context [match ?x with _ => _ end] => destruct x
    | |- context [if ?x then _ else _] => destruct x
    end; try reflexivity; try (split; discriminate).
Qed.

(** ** Loading (C40) *)
Lemma load_queue ns : forall st, List.length (c_queue st) + List.length ns <= 10 ->
  c_queue (load_nodes st ns) = c_queue st ++ map (fun n => EDiscovered (n_id n)) ns.
Proof.
  induction ns as [|n ns IH]; intros st L; cbn [load_nodes map].
  - now rewrite app_nil_r.
  - cbn in L. cbn [push add_node with_setup with_nodes c_queue] in IH |- *.
    rewrite IH; cbn [push c_queue with_nodes with_setup add_node];
      destruct (Nat.ltb_spec (List.length (c_queue st)) queue_cap) as [H|H]; unfold queue_cap in *; try lia.
    + rewrite <- app_assoc. reflexivity.
    + rewrite app_length. cbn. lia.
Qed.
Lemma zset_keys {V} k (v : V) m x : In x (map fst (zset k v m)) <-> x = k \/ In x (map fst m).
Proof.
  induction m as [|[k' w] m IH]; cbn [zset map fst].
  - cbn. intuition.
  - destruct (Z.eqb_spec k k') as [->|N]; cbn [map fst In]; [intuition|].
    rewrite IH. intuition.
Qed.
Lemma zlookup_set {V} k (v : V) m x :
  zlookup x (zset k v m) = if (x =? k)%Z then Some v else zlookup x m.
Proof.
  induction m as [|[k' w] m IH]; cbn [zset zlookup]; [reflexivity|].
  destruct (Z.eqb_spec k k') as [->|N]; cbn [zlookup].
  - destruct (Z.eqb_spec x k'); reflexivity.
  - rewrite IH. destruct (Z.eqb_spec x k'); [|reflexivity].
    subst. destruct (Z.eqb_spec k' k); congruence.
Qed.
Lemma zlookup_key {V} (m : list (Z * V)) x : In x (map fst m) <-> zlookup x m <> None.
Proof.
  induction m as [|[k' w] m IH]; cbn [map fst In zlookup]; [intuition|].
  destruct (Z.eqb_spec x k'); [intuition congruence|]. rewrite <- IH. intuition congruence.
Qed.
Lemma load_known ns : forall st id,
  knows (load_nodes st ns) id <-> knows st id \/ In id (map n_id ns).
Proof.
  induction ns as [|n ns IH]; intros st id; cbn [load_nodes map In]; [intuition|].
  rewrite IH. unfold knows. cbn [push add_node with_setup with_nodes c_nodes list_all list_add].
  rewrite zset_keys. intuition.
Qed.
Lemma load_setup ns : forall st id,
  In id (c_setup (load_nodes st ns)) <-> In id (c_setup st) \/ In id (map n_id ns).
Proof.
  induction ns as [|n ns IH]; intros st id; cbn [load_nodes map In]; [intuition|].
  rewrite IH. cbn [push add_node with_setup with_nodes c_setup In]. intuition.
Qed.
Lemma load_rest ns : forall st, let st' := load_nodes st ns in
  c_file st' = c_file st /\ c_deb st' = c_deb st /\ c_disc st' = c_disc st /\
  c_ident st' = c_ident st /\ c_windows st' = c_windows st /\ c_trig st' = c_trig st.
Proof.
  induction ns as [|n ns IH]; intros st; cbn [load_nodes]; [auto 10|].
  cbv zeta in IH |- *. destruct (IH (push (add_node (with_setup st (n_id n)) n) (EDiscovered (n_id n))))
    as (A&B&C&D&E&F). rewrite A, B, C, D, E, F. auto 10.
Qed.

(** ** The debouncer (C41) *)
Lemma updates_events l : updates (map (fun a => COPush (EUpdated a)) l) = List.length l.
Proof.
  unfold updates. rewrite pushed_events. induction l; cbn; congruence.
Qed.
Lemma filter_updates (l : list Z) : filter is_update (map EUpdated l) = map EUpdated l.
Proof. induction l; cbn; congruence. Qed.

(** Debouncer, requests and saves in one step. *)
Lemma step_deb st l st' o : cstep st l = Some (Ok (st', o)) ->
  c_file st' = c_file st /\
  ((l = CTrigger /\ saves o = [] /\ updates o = 0 /\ c_trig st = S (c_trig st') /\
      c_deb st' = DTimer 0 /\ (c_deb st = DWait \/ exists age, c_deb st = DTimer age)) \/
   (c_trig st' = c_trig st + updates o /\
    ((saves o = [] /\ (c_deb st' = c_deb st \/
        (l = CConnected /\ c_disc st = DcIdle /\ c_deb st' = DWait) \/
        (exists age, c_deb st = DTimer age /\ c_file st = false /\ c_deb st' = DWait) \/
        (c_deb st = DSaving /\ c_deb st' = DWait)) /\ (forall d, l <> CTick d)) \/
     (exists d, l = CTick d /\ saves o = [] /\ updates o = 0 /\
        ((exists age, c_deb st = DTimer age /\ c_deb st' = DTimer (age + d)) \/
         ((forall age, c_deb st <> DTimer age) /\ c_deb st' = c_deb st))) \/
     (exists age, l = CTimeout /\ o = [COSave (c_nodes st)] /\ c_deb st = DTimer age /\ (10000 <= age)%N /\
        c_file st = true /\ c_deb st' = DSaving)))).
Proof.
  intros E. apply cstep_inv in E. destruct E.
  all: try (split; [reflexivity|right; split; [cbn; unfold updates; cbn; lia|left];
            split; [reflexivity|]; split; [solve [eauto 10]|congruence]]).
  - destruct (pushes_frame (map EUpdated evs) (with_windows (with_nodes st (zset id n' (c_nodes st))) w))
      as (A&_&_&B&_&_&_&_&C). rewrite A, B, C. split; [reflexivity|right].
    rewrite updates_events, saves_events, filter_updates, map_length. cbn.
    split; [reflexivity|left]. split; [reflexivity|]. split; [eauto|].
    intros d ->. contradiction.
  - split; [reflexivity|left]. cbn. eauto 10.
  - split; [reflexivity|right]. split; [cbn; lia|]. right; right. exists age. auto 10.
  - split; [reflexivity|right]. split; [cbn; lia|]. right; left. exists d. cbn. eauto 10.
  - split; [reflexivity|right]. split; [cbn; lia|]. right; left. exists d. cbn. eauto 10.
Qed.

Definition cost (d : deb) : nat := match d with DTimer _ => 1 | _ => 0 end.
Lemma saves_bound st ls : forall st' o, crun st ls = Some (Ok (st', o)) ->
  (c_disc st = DcIdle -> c_deb st = DOff) ->
  (c_disc st' = DcIdle -> c_deb st' = DOff) /\
  List.length (saves o) + c_trig st' + cost (c_deb st') <= updates o + c_trig st + cost (c_deb st).
Proof.
  induction ls as [|l ls IH] using rev_ind; intros st' o E I.
  - injection E as <- <-. split; [exact I|]. cbn. lia.
  - apply crun_snoc in E. destruct E as (st1 & o1 & o2 & A & B & ->).
    destruct (IH _ _ A I) as [I1 K]. rewrite saves_app, updates_app, app_length.
    split.
    + pose proof (cstep_inv _ _ _ _ B) as C. destruct C; cbn; auto; try congruence.
      * match goal with |- context [pushes ?x ?y] => destruct (pushes_frame y x) as (_&_&_&G&F&_) end.
        rewrite G, F. exact I1.
      * intros Q; apply I1 in Q. exfalso. repeat match goal with H : _ \/ _ |- _ => destruct H | H : exists _, _ |- _ => destruct H end; congruence.
      * intros Q; apply I1 in Q. exfalso. repeat match goal with H : _ \/ _ |- _ => destruct H | H : exists _, _ |- _ => destruct H end; congruence.
      * intros Q; apply I1 in Q. exfalso. repeat match goal with H : _ \/ _ |- _ => destruct H | H : exists _, _ |- _ => destruct H end; congruence.
      * intros Q; apply I1 in Q. exfalso. repeat match goal with H : _ \/ _ |- _ => destruct H | H : exists _, _ |- _ => destruct H end; congruence.
      * intros Q; apply I1 in Q. exfalso. repeat match goal with H : _ \/ _ |- _ => destruct H | H : exists _, _ |- _ => destruct H end; congruence.
    + apply step_deb in B. destruct B as [_ [(-> & S0 & U & T & D & D1)|(T & [(S0 & D & _)|[(d & -> & S0 & U & D)|(age & -> & -> & D & _ & _ & D')]])]].
      * rewrite S0, U, D. cbn. destruct D1 as [D1|[? D1]]; rewrite D1 in K; cbn in K; lia.
      * rewrite S0. cbn [List.length].
        destruct D as [D|[(_ & D0 & D)|[(age & D1 & _ & D)|(D1 & D)]]]; rewrite D; cbn; lia.
      * rewrite S0, U. destruct D as [(age & D & D')|(_ & D')]; rewrite D'; cbn; [rewrite D in K; cbn in K|]; lia.
      * rewrite D'. cbn. rewrite D in K. cbn in K. cbn in T. lia.
Qed.
Lemma load_trig file ns : c_trig (loaded file ns) = 0 /\ c_deb (loaded file ns) = DOff /\
  c_disc (loaded file ns) = DcIdle /\ c_file (loaded file ns) = file /\
  c_ident (loaded file ns) = [] /\ c_windows (loaded file ns) = [].
Proof.
  unfold loaded. destruct (load_rest ns (new_controller file)) as (A&B&C&D&E&F).
  rewrite A, B, C, D, E, F. auto 10.
Qed.
Lemma saves_le_updates file ns ls st o : crun (loaded file ns) ls = Some (Ok (st, o)) ->
  List.length (saves o) <= updates o.
Proof.
  intros E. destruct (load_trig file ns) as (T & D & Q & _).
  destruct (saves_bound _ _ _ _ E) as [_ K]; [auto|]. rewrite T, D in K. cbn in K. lia.
Qed.

Lemma run_file st ls : forall st' o, crun st ls = Some (Ok (st', o)) -> c_file st' = c_file st.
Proof.
  induction ls as [|l ls IH] using rev_ind; intros st' o E; [injection E as <- _; reflexivity|].
  apply crun_snoc in E. destruct E as (st1 & o1 & o2 & A & B & ->).
  rewrite <- (IH _ _ A). now apply step_deb in B.
Qed.
Lemma no_file_no_save st ls : forall st' o, c_file st = false ->
  crun st ls = Some (Ok (st', o)) -> saves o = [].
Proof.
  induction ls as [|l ls IH] using rev_ind; intros st' o F E; [injection E as _ <-; reflexivity|].
  apply crun_snoc in E. destruct E as (st1 & o1 & o2 & A & B & ->).
  rewrite saves_app, (IH _ _ F A). apply run_file in A.
  apply step_deb in B. destruct B as [_ [(_ & S0 & _)|(T & [(S0 & _)|[(d & _ & S0 & _)|(age & _ & _ & _ & _ & G & _)]])]]; auto.
  congruence.
Qed.

Lemma elapsed_app a b : elapsed (a ++ b) = (elapsed a + elapsed b)%N.
Proof.
  induction a as [|l a IH]; cbn; [reflexivity|]. destruct l; try exact IH. rewrite IH. lia.
Qed.
(** The timer never runs ahead of the time that passed since it was off. *)
Lemma timer_age st ls : forall st' o age, (forall a, c_deb st <> DTimer a) ->
  crun st ls = Some (Ok (st', o)) -> c_deb st' = DTimer age -> (age <= elapsed ls)%N.
Proof.
  induction ls as [|l ls IH] using rev_ind; intros st' o age F E D.
  - injection E as <- _. congruence.
  - apply crun_snoc in E. destruct E as (st1 & o1 & o2 & A & B & ->). rewrite elapsed_app.
    pose proof (fun a K => IH _ _ a F A K) as I.
    apply step_deb in B. destruct B as [_ [(-> & _ & _ & _ & D' & _)|(_ & [(_ & D' & _)|[(d & -> & _ & _ & D')|(a & _ & _ & _ & _ & _ & D')]])]].
    + rewrite D in D'. injection D' as ->. lia.
    + destruct D' as [D'|[(_ & _ & D')|[(? & _ & _ & D')|(_ & D')]]]; try congruence.
      rewrite D in D'. symmetry in D'. apply I in D'. lia.
    + cbn. destruct D' as [(a & D1 & D2)|(N & D')].
      * apply I in D1. rewrite D in D2. injection D2 as ->. lia.
      * rewrite D in D'. symmetry in D'. now apply N in D'.
    + congruence.
Qed.
Lemma saves_apart st ls st1 o ns st2 : c_deb st = DSaving ->
  crun st ls = Some (Ok (st1, o)) -> cstep st1 CTimeout = Some (Ok (st2, [COSave ns])) ->
  (10000 <= elapsed ls)%N.
Proof.
  intros D R S. apply cstep_inv in S. inversion S as [| | | | | | | | | | |l id n n' w evs T X Y L V|e q|t| age D1 A F| | | |]; subst.
  - contradiction.
  - assert (H : (age <= elapsed ls)%N) by (eapply timer_age; [|exact R|exact D1]; congruence). lia.
Qed.

(** Quiet time leads to a save. *)
Lemma quiet_bound l2 : forall st st2 o2 t, c_file st = true ->
  (c_trig st > 0 /\ c_deb st <> DOff \/ exists age, c_deb st = DTimer age) ->
  crun st l2 = Some (Ok (st2, o2)) -> prompt st l2 -> idle_time st l2 t ->
  updates o2 = 0 -> saves o2 = [] -> (c_disc st = DcIdle -> c_deb st = DOff) ->
  (t <= 10000)%N /\
  (c_trig st = 0 -> forall age, c_deb st = DTimer age -> (age + t <= N.max 10000 age)%N).
Proof.
  induction l2 as [|l l2 IH]; intros st st2 o2 t F U R P T N S I.
  - inversion T; subst. split; [lia|]. intros _ age _. lia.
  - inversion P as [|? ? st1 o1 ? C E P1]; subst.
    inversion T as [|? ? st1' o1' ? t' d E' T1 Q]; subst. rewrite E in E'. injection E' as <- <-.
    change (crun st (l :: l2)) with (crun st ([l] ++ l2)) in R. apply crun_app in R.
    destruct R as (s1 & a & b & R1 & R2 & ->). cbn in R1. rewrite E in R1. injection R1 as <- <-.
    rewrite app_nil_r in N, S. rewrite updates_app in N. rewrite saves_app in S.
    apply app_eq_nil in S. destruct S as [S1 S2].
    assert (I1 : c_disc st1 = DcIdle -> c_deb st1 = DOff).
    { assert (E1 : crun st [l] = Some (Ok (st1, o1 ++ []))) by (cbn; rewrite E; reflexivity).
      exact (proj1 (saves_bound _ _ _ _ E1 I)). }
    destruct (step_deb _ _ _ _ E) as [F1 D]. rewrite F in F1.
    assert (K : forall U1, _) by (intros U1; exact (IH st1 st2 b t' F1 U1 R2 P1 T1 ltac:(lia) S2 I1)).
    destruct D as [(-> & _ & _ & T0 & D & D1)|(T0 & [(_ & D & X)|[(d & -> & _ & _ & D)|(age & _ & -> & _)]])].
    + destruct (K (or_intror (ex_intro _ _ D))) as [K1 K2]. split; [lia|]. lia.
    + assert (U1 : c_trig st1 > 0 /\ c_deb st1 <> DOff \/ exists age, c_deb st1 = DTimer age).
      { destruct D as [D|[(_ & D0 & D)|[(age & _ & F2 & _)|(D1 & D)]]].
        - rewrite D. destruct U as [U|U]; [left; split; [lia|tauto]|now right].
        - apply I in D0. destruct U as [[? U]|[? U]]; congruence.
        - congruence.
        - left. rewrite D. split; [|discriminate].
          destruct U as [U|[? U]]; [lia|congruence]. }
      destruct (K U1) as [K1 K2].
      replace (match l with CTick d => _ | _ => 0%N end) with 0%N
        by (destruct l; try reflexivity; now edestruct X).
      split; [lia|]. intros Z age Da.
      destruct D as [D|[(_ & D0 & D)|[(age' & _ & F2 & _)|(D1 & D)]]]; try congruence.
      * rewrite <- (K2 ltac:(lia) age ltac:(congruence)) at 1. lia.
      * apply I in D0. congruence.
    + cbn in C. destruct D as [(age & D & D')|(X & D')].
      * unfold calm in C. rewrite D in C |- *. destruct C as [C1 C2].
        destruct (K (or_intror (ex_intro _ _ D'))) as [K1 K2].
        assert (T1' : c_trig st1 = 0) by lia. specialize (K2 T1' _ D').
        split; [lia|]. intros _ age' G. injection G as <-. lia.
      * destruct U as [[U U']|[a U]]; [|now apply X in U].
        assert (U1 : c_trig st1 > 0 /\ c_deb st1 <> DOff \/ exists age, c_deb st1 = DTimer age)
          by (left; split; [lia|congruence]).
        destruct (K U1) as [K1 K2].
        split; [|lia]. unfold calm in C. destruct (c_deb st); try lia; congruence.
    + discriminate.
Qed.

Lemma connected_on st ls : forall st' o, crun st ls = Some (Ok (st', o)) ->
  (c_disc st <> DcIdle /\ c_deb st <> DOff \/ In CConnected ls) ->
  c_disc st' <> DcIdle /\ c_deb st' <> DOff.
Proof.
  induction ls as [|l ls IH] using rev_ind; intros st' o E H.
  - injection E as <- _. destruct H as [H|[]]. exact H.
  - apply crun_snoc in E. destruct E as (st1 & o1 & o2 & A & B & ->).
    assert (G : l = CConnected \/ c_disc st1 <> DcIdle /\ c_deb st1 <> DOff).
    { destruct H as [H|H]; [right; now apply (IH _ _ A); left|].
      apply in_app_or in H. destruct H as [H|[H|[]]]; [|auto]. right. apply (IH _ _ A). now right. }
    apply cstep_inv in B. destruct B; cbn; destruct G as [G|[G1 G2]]; try discriminate G; try contradiction;
      try (split; congruence).
    + subst. contradiction.
    + match goal with |- context [pushes ?x ?y] => destruct (pushes_frame y x) as (_&_&_&X&Y&_) end.
      rewrite X, Y. auto.
Qed.
Lemma idle_off_run st ls st' o : crun st ls = Some (Ok (st', o)) ->
  (c_disc st = DcIdle -> c_deb st = DOff) -> c_disc st' = DcIdle -> c_deb st' = DOff.
Proof. intros E I. exact (proj1 (saves_bound _ _ _ _ E I)). Qed.


(** ** Nodes *)
Lemma step_node st l st' o id : cstep st l = Some (Ok (st', o)) -> ~ touches id l -> knows st id ->
  zlookup id (c_nodes st') = zlookup id (c_nodes st) /\
  (forall s, In (COSave s) o -> zlookup id s = zlookup id (c_nodes st)).
Proof.
  intros E T K. apply cstep_inv in E. unfold knows in K. rewrite zlookup_key in K.
  assert (X : forall s es, In (COSave s) (map (fun a => COPush (EUpdated a)) es) -> False).
  { intros s es H. apply in_map_iff in H. destruct H as (? & ? & _). discriminate. }
  destruct E; cbn in T; try (split; [reflexivity|]; intros s Hs; cbn in Hs;
    repeat match goal with H : _ \/ _ |- _ => destruct H end; try congruence; contradiction).
  - split; [|intros s []]. cbn. rewrite zlookup_set.
    destruct (Z.eqb_spec id (Z.of_nat i + 1)); [congruence|reflexivity].
  - match goal with |- context [pushes ?x ?y] => destruct (pushes_frame y x) as (_&G&_) end.
    rewrite G. cbn. split; [|intros s Hs; now apply X in Hs].
    rewrite zlookup_set. destruct (Z.eqb_spec id id0); [congruence|reflexivity].
Qed.
Lemma step_known st l st' o id : cstep st l = Some (Ok (st', o)) -> knows st id -> knows st' id.
Proof.
  intros E K. destruct (cstep_inv _ _ _ _ E); cbn in *; try assumption.
  - unfold knows in *. cbn. rewrite zset_keys. now right.
  - unfold knows in *. match goal with |- context [pushes ?x ?y] => destruct (pushes_frame y x) as (_&G&_) end.
    rewrite G. cbn. rewrite zset_keys. now right.
Qed.
Lemma run_node ls : forall st st' o id, crun st ls = Some (Ok (st', o)) ->
  (forall l, In l ls -> ~ touches id l) -> knows st id ->
  zlookup id (c_nodes st') = zlookup id (c_nodes st) /\
  (forall s, In (COSave s) o -> zlookup id s = zlookup id (c_nodes st)).
Proof.
  induction ls as [|l ls IH]; intros st st' o id R T K.
  - injection R as <- <-. split; [reflexivity|intros s []].
  - change (l :: ls) with ([l] ++ ls) in R. apply crun_app in R.
    destruct R as (s1 & a & b & R1 & R2 & ->). cbn in R1.
    destruct (cstep st l) as [[[x y]|?|]|] eqn:E; try discriminate. injection R1 as <- <-.
    rewrite app_nil_r.
    destruct (step_node _ _ _ _ id E) as [A B]; [apply T; now left|exact K|].
    destruct (IH x st' b id R2) as [C D].
    { intros l' I. apply T. now right. }
    { eapply step_known; eauto. }
    rewrite A in C, D. split; [exact C|]. intros s I. apply in_app_or in I. destruct I; auto.
Qed.

Lemma quiet_is_saved ns l1 st1 o1 l st ou l2 st2 o2 t :
  crun (loaded true ns) l1 = Some (Ok (st1, o1)) -> In CConnected l1 ->
  cstep st1 l = Some (Ok (st, ou)) -> updates ou > 0 ->
  crun st l2 = Some (Ok (st2, o2)) -> prompt st l2 -> idle_time st l2 t -> (10000 < t)%N ->
  updates o2 = 0 ->
  exists s, In (COSave s) o2 /\
    forall id, knows st id -> (forall x, In x l2 -> ~ touches id x) ->
      zlookup id s = zlookup id (c_nodes st).
Proof.
  intros R1 C E U R2 P T G N. destruct (load_trig true ns) as (L1 & L2 & L3 & L4 & _).
  destruct (connected_on _ _ _ _ R1 (or_intror C)) as [C1 C2].
  pose proof (run_file _ _ _ _ R1) as F. rewrite L4 in F.
  assert (E1 : crun st1 [l] = Some (Ok (st, ou ++ []))) by (cbn; rewrite E; reflexivity).
  destruct (connected_on _ _ _ _ E1 (or_introl (conj C1 C2))) as [C3 C4].
  destruct (step_deb _ _ _ _ E) as [F1 D]. rewrite F in F1.
  assert (U1 : c_trig st > 0) by (destruct D as [(_ & _ & X & _)|(X & _)]; lia).
  assert (S : exists s, In (COSave s) o2).
  { destruct (saves o2) as [|s r] eqn:S.
    - exfalso. destruct (quiet_bound _ _ _ _ _ F1 (or_introl (conj U1 C4)) R2 P T N S) as [B _]; [|lia].
      intros; contradiction.
    - exists s. assert (I : In s (saves o2)) by (rewrite S; now left).
      apply in_flat_map in I. destruct I as (x & I & J). destruct x; cbn in J; try contradiction.
      destruct J as [->|[]]. exact I. }
  destruct S as [s S]. exists s. split; [exact S|]. intros id K X.
  exact (proj2 (run_node _ _ _ _ _ R2 X K) s S).
Qed.

(** ** Invariants about nodes *)
Record cinv (st : cst) : Prop := mkCI {
  ci_ident : forall id, In id (c_ident st) -> In id (c_setup st);
  ci_setup : forall id, In id (c_setup st) -> knows st id;
  ci_known : forall id, knows st id -> In id (c_setup st) \/ half_discovered st id;
  ci_half : forall id, half_discovered st id -> knows st id;
  ci_win : forall id, In id (c_windows st) -> In id (c_setup st) }.
Lemma cinv_load file ns : cinv (loaded file ns).
Proof.
  destruct (load_trig file ns) as (_ & _ & Q & _ & I & W).
  assert (S : forall id, In id (c_setup (loaded file ns)) <-> knows (loaded file ns) id).
  { intros id. unfold loaded. rewrite load_known, load_setup. cbn. unfold knows. cbn. tauto. }
  split; try (rewrite I || rewrite W; intros id []).
  - intros id. now rewrite S.
  - intros id. rewrite S. auto.
  - intros id (i & r & [D|D] & _); congruence.
Qed.

Lemma remove_one_in x y l : In y (remove_one x l) -> In y l.
Proof.
  induction l as [|z l IH]; cbn; [auto|]. destruct (Z.eqb x z); cbn; intuition.
Qed.

(** The node-changing labels: where the step leaves the lists alone. *)
Lemma existsb_Z id l : existsb (Z.eqb id) l = true <-> In id l.
Proof.
  rewrite existsb_exists. split; [intros (x & I & E); apply Z.eqb_eq in E; now subst|].
  intros I. exists id. split; [exact I|apply Z.eqb_refl].
Qed.
Lemma windows_step st l st' o : cstep st l = Some (Ok (st', o)) ->
  forall id, In id (c_windows st') -> In id (c_windows st) \/ In id (c_setup st).
Proof.
  intros E id I. destruct l; unfold cstep in E;
   repeat match type of E with
    | context [match c_disc ?x with _ => _ end] => destruct (c_disc x)
    | context [match c_deb ?x with _ => _ end] => destruct (c_deb x)
    end; try discriminate; try (injection E as <- <-; left; exact I).
  all: try (destruct (c_queue st); [discriminate|]; injection E as <- <-; left; exact I).
  all: try (destruct (c_trig st); try discriminate; injection E as <- <-; left; exact I).
  - destruct m as [msg|]; [destruct (m_data msg) as [[?|?|?]|]|]; injection E as <- <-; left; exact I.
  - destruct rest as [|[|] rest]; cbn [negb] in E; try (injection E as <- <-; left; exact I).
    destruct (Nat.eqb i 0); try (injection E as <- <-; left; exact I).
    destruct (zlookup _ _); injection E as <- <-; left; exact I.
  - destruct (zlookup _ _) as [n|]; [|injection E as <- <-; left; exact I].
    destruct (process_event n r) as [[[n' evs] op]|?|] eqn:P; cbn [bind] in E; try discriminate.
    injection E as E.
    assert (EV : op = true -> evs <> []).
    { intros ->. destruct r; cbn in P;
        repeat match type of P with
        | context [if ?c then _ else _] => destruct c
        | context [set_bool ?a ?b ?c] => destruct (set_bool a b c); cbn [bind] in P
        | context [set_float ?a ?b ?c] => destruct (set_float a b c); cbn [bind] in P
        end; congruence. }
    unfold node_events in E. destruct evs as [|a evs].
    + injection E as <- <-. destruct op; [now specialize (EV eq_refl)|]. left; exact I.
    + destruct (existsb _ _) eqn:X in E; [|discriminate]. injection E as <- <-.
      match type of I with context [pushes ?x ?y] => destruct (pushes_frame y x) as (_&_&_&_&_&_&W&_) end.
      cbn [map pushes] in W. cbn [map pushes] in I. 
      apply existsb_Z in X. destruct op; cbn in X, W.
      * rewrite W in I. destruct I as [<-|I]; [right; exact X|left; exact I].
      * rewrite W in I. left; exact I.
  - destruct (existsb _ _) eqn:X; [|discriminate]. destruct (zlookup _ _); [|discriminate].
    destruct (alarm_window_end n) as [[n' evs]|?|] eqn:P; cbn [bind] in E; try discriminate.
    injection E as E. apply node_events_ok in E. destruct E as [-> ->].
    match type of I with context [pushes ?x ?y] => destruct (pushes_frame y x) as (_&_&_&_&_&_&W&_) end.
    rewrite W in I. left. now apply remove_one_in in I.
  - destruct (existsb _ _ && _); [|discriminate].
    injection E as E. apply node_events_ok in E. destruct E as [-> ->].
    match type of I with context [pushes ?x ?y] => destruct (pushes_frame y x) as (_&_&_&_&_&_&W&_) end.
    rewrite W in I. left. exact I.
  - destruct (_ <=? _)%N; [|discriminate]. destruct (c_file st); injection E as <- <-; left; exact I.
Qed.

Lemma half_frame st st' id : c_disc st' = c_disc st -> half_discovered st' id <-> half_discovered st id.
Proof. intros E. unfold half_discovered. rewrite E. reflexivity. Qed.
Lemma not_half st id : (forall i r, c_disc st <> DcAdded i r) -> (forall i r, c_disc st <> DcPushed i r) ->
  ~ half_discovered st id.
Proof. intros A B (i & r & [D|D] & _); [now apply A in D|now apply B in D]. Qed.

Lemma cinv_same st st' : cinv st -> c_ident st' = c_ident st -> c_setup st' = c_setup st ->
  c_disc st' = c_disc st -> (forall id, knows st' id <-> knows st id) ->
  (forall id, In id (c_windows st') -> In id (c_windows st) \/ In id (c_setup st)) -> cinv st'.
Proof.
  intros [A B C D E] I S Q K W. split; intros id; rewrite ?I, ?S, ?K, ?(half_frame st st' id Q); auto.
  intros H. apply W in H. destruct H; auto.
Qed.
Lemma cinv_disc st st' : cinv st -> c_ident st' = c_ident st -> c_setup st' = c_setup st ->
  c_nodes st' = c_nodes st -> c_windows st' = c_windows st ->
  (forall id, ~ half_discovered st id) -> (forall id, ~ half_discovered st' id) -> cinv st'.
Proof.
  intros [A B C D E] I S Q W H H'. unfold knows in *.
  split; intros id; unfold knows; rewrite ?I, ?S, ?Q, ?W; auto.
  - intros K. destruct (C id K) as [X|X]; [auto|]. now apply H in X.
  - intros X. now apply H' in X.
Qed.

Lemma cinv_step st l st' o : cinv st -> cstep st l = Some (Ok (st', o)) -> cinv st'.
Proof.
  intros I E. pose proof (windows_step _ _ _ _ E) as W. pose proof I as [A B C D F].
  destruct (cstep_inv _ _ _ _ E).
  all: try exact I.
  all: try (apply (cinv_same st); auto; reflexivity).
  all: try (apply (cinv_disc st); auto; intros id (x & y & [Z|Z] & _); cbn in Z; congruence).
  - (* known *)
    assert (NH : forall id, ~ half_discovered st id)
      by (intros id (x & y & [Z|Z] & _); congruence).
    assert (S : In (Z.of_nat i + 1)%Z (c_setup st)).
    { destruct (C (Z.of_nat i + 1)%Z) as [X|X]; [|exact X|now apply NH in X].
      unfold knows. rewrite zlookup_key. congruence. }
    split; cbn; auto.
    + intros id X. apply in_app_or in X. destruct X as [X|[<-|[]]]; auto.
    + intros id X. destruct (C id X) as [Y|Y]; [auto|now apply NH in Y].
    + intros id (x & y & [Z|Z] & _); cbn in Z; congruence.
  - (* new *)
    assert (NH : forall id, ~ half_discovered st id)
      by (intros id (x & y & [Z|Z] & _); congruence).
    assert (KK : forall id, knows (with_disc (add_node st (new_node (Z.of_nat i + 1))) (DcAdded i rest)) id <->
                  id = (Z.of_nat i + 1)%Z \/ knows st id).
    { intros id. unfold knows. cbn. apply zset_keys. }
    split; cbn [c_ident c_setup c_windows with_disc add_node with_nodes]; auto.
    + intros id X. rewrite KK. auto.
    + intros id. rewrite KK. intros [->|X].
      * right. exists i, rest. cbn. auto.
      * destruct (C id X) as [Y|Y]; [auto|now apply NH in Y].
    + intros id (x & y & [Z|Z] & ->); cbn in Z; [|congruence]. injection Z as <- <-. rewrite KK. auto.
  - (* announce *)
    assert (HH : forall id, half_discovered (with_disc (push st (EDiscovered (Z.of_nat i + 1))) (DcPushed i rest)) id
                 <-> half_discovered st id).
    { intros id. unfold half_discovered. cbn. split; intros (x & y & [Z|Z] & ->); try congruence.
      - injection Z as <- <-. exists i, rest. auto.
      - rewrite H in Z. injection Z as <- <-. exists i, rest. auto. }
    split; cbn [c_ident c_setup c_windows with_disc push]; auto.
    + intros id X. rewrite HH. apply C, X.
    + intros id. rewrite HH. apply D.
  - (* setup *)
    assert (KI : knows st (Z.of_nat i + 1)) by (apply D; exists i, rest; auto).
    split; cbn [c_ident c_setup c_windows with_disc with_setup with_ident In]; auto.
    + intros id X. apply in_app_or in X. destruct X as [X|[<-|[]]]; auto.
    + intros id [<-|X]; [exact KI|now apply B].
    + intros id X. left. destruct (C id X) as [Y|(x & y & [Z|Z] & ->)]; auto; [congruence|].
      rewrite H in Z. injection Z as <- <-. auto.
    + intros id (x & y & [Z|Z] & _); cbn in Z; congruence.
  - (* change *)
    match goal with |- cinv (pushes ?x ?y) => destruct (pushes_frame y x) as (_&P1&P2&_&P3&P4&P5&_) end.
    apply (cinv_same st); auto.
    intros k. unfold knows. rewrite P1. cbn. rewrite zset_keys.
    split; [intros [->|X]; [|exact X]|auto].
    destruct H0 as [H0|(a & _ & _ & H0)]; [rewrite zlookup_key; congruence|].
    apply B, A, H0.
Qed.
Lemma cinv_run file ns ls : forall st o, crun (loaded file ns) ls = Some (Ok (st, o)) -> cinv st.
Proof.
  induction ls as [|l ls IH] using rev_ind; intros st o E.
  - injection E as <- _. apply cinv_load.
  - apply crun_snoc in E. destruct E as (st1 & o1 & o2 & A & B & _). eapply cinv_step; eauto.
Qed.

Lemma cinv_runs st0 ls : cinv st0 -> forall st o, crun st0 ls = Some (Ok (st, o)) -> cinv st.
Proof.
  intros C. induction ls as [|l ls IH] using rev_ind; intros st o E.
  - injection E as <- _. exact C.
  - apply crun_snoc in E. destruct E as (st1 & o1 & o2 & A & B & _).
    eapply cinv_step; [eapply IH; exact A|exact B].
Qed.

(** ** Crashes (C73) *)
Lemma no_crash file ns ls st o l r : crun (loaded file ns) ls = Some (Ok (st, o)) ->
  cstep st l = Some r ->
  (forall id, touches id l -> ~ half_discovered st id /\
     forall n, zlookup id (c_nodes st) = Some n -> has_maps n) ->
  exists x, r = Ok x.
Proof.
  intros R E T. pose proof (cinv_run _ _ _ _ _ R) as [A B C D F].
  assert (NE : forall s id l', c_setup s = c_setup st -> (l' = [] \/ In id (c_setup st)) ->
                 exists x, node_events s id l' = Ok x).
  { intros s id l' S [->|X]; [cbn; eauto|]. unfold node_events. destruct l'; [eauto|].
    rewrite S. apply existsb_Z in X. rewrite X. eauto. }
  destruct l; unfold cstep in E;
   repeat match type of E with
    | context [match c_disc ?x with _ => _ end] => destruct (c_disc x)
    | context [match c_deb ?x with _ => _ end] => destruct (c_deb x)
    end; try discriminate; try (injection E as <-; eauto; fail).
  all: try (destruct (c_queue st); [discriminate|]; injection E as <-; eauto; fail).
  all: try (destruct (c_trig st); try discriminate; injection E as <-; eauto; fail).
  - destruct m as [msg|]; [destruct (m_data msg) as [[?|?|?]|]|]; injection E as <-; eauto.
  - destruct rest as [|[|] rest]; cbn [negb] in E; try (injection E as <-; eauto; fail).
    destruct (Nat.eqb i 0); try (injection E as <-; eauto; fail).
    destruct (zlookup _ _); injection E as <-; eauto.
  - destruct (zlookup _ _) as [n|] eqn:Z; [|injection E as <-; eauto].
    destruct (T (Z.of_N (b2N id)) eq_refl) as [H M]. specialize (M _ Z).
    destruct (process_event_total n r0 M) as (n' & evs & op & P & _). rewrite P in E. cbn [bind] in E.
    injection E as <-. apply NE; [destruct op; reflexivity|]. right.
    destruct (C (Z.of_N (b2N id))) as [X|X]; [|exact X|contradiction].
    unfold knows. rewrite zlookup_key. congruence.
  - destruct (existsb _ _) eqn:X; [|discriminate]. destruct (zlookup _ _) as [n|] eqn:Z; [|discriminate].
    destruct (T id eq_refl) as [H M]. specialize (M _ Z).
    destruct (window_end_effect n M) as (n' & P & _). rewrite P in E. cbn [bind] in E.
    injection E as <-. apply existsb_Z in X.
    exact (NE (with_windows (with_nodes st (zset id n' (c_nodes st))) (remove_one id (c_windows st)))
             id [n_id n] eq_refl (or_intror (F id X))).
  - destruct (existsb _ _) eqn:X; [|discriminate]. cbn [andb] in E.
    destruct (n_id n =? id)%Z; [|discriminate]. injection E as <-. apply NE; [reflexivity|].
    right. apply A. now apply existsb_Z.
  - destruct (_ <=? _)%N; [|discriminate]. destruct (c_file st); injection E as <-; eauto.
Qed.

(** ** Discovery (C42) *)
Lemma increasing_snoc l x : increasing (l ++ [x]) <-> increasing l /\ forall y, In y l -> (y < x)%Z.
Proof.
  induction l as [|a l IH]; cbn; [intuition|]. rewrite IH. split.
  - intros [A [B C]]. split; [split; [|exact B]|].
    + intros y Y. apply A. apply in_or_app. auto.
    + intros y [<-|Y]; [apply A, in_or_app; cbn; auto|auto].
  - intros [[A B] C]. split; [|auto]. intros y Y. apply in_app_or in Y.
    destruct Y as [Y|[<-|[]]]; auto.
Qed.

Section Discovery.
Variable bm : list bool.
Variable K0 : Z -> Prop.
Definition upto (k : nat) (id : Z) : Prop := (2 <= id <= Z.of_nat k)%Z /\ active_in bm id.
Definition KN (k : nat) (st : cst) : Prop := forall id, knows st id <-> K0 id \/ upto k id.
Definition ID (k : nat) (o : list cobs) : Prop :=
  increasing (identifies o) /\ forall id, In id (identifies o) <-> upto k id.
Definition DI (k : nat) (o : list cobs) : Prop :=
  increasing (discovered o) /\ forall id, In id (discovered o) <-> upto k id /\ ~ K0 id.
Definition dinv (st : cst) (o : list cobs) : Prop :=
  match c_disc st with
  | DcLoop i rest => rest = skipn i bm /\ KN i st /\ ID i o /\ DI i o
  | DcAdded i rest => rest = skipn (S i) bm /\ nth_error bm i = Some true /\ i <> 0 /\
      ~ K0 (Z.of_nat i + 1) /\ KN (S i) st /\ ID i o /\ DI i o
  | DcPushed i rest => rest = skipn (S i) bm /\ nth_error bm i = Some true /\ i <> 0 /\
      ~ K0 (Z.of_nat i + 1) /\ KN (S i) st /\ ID i o /\ DI (S i) o
  | DcDone => KN (List.length bm) st /\ ID (List.length bm) o /\ DI (List.length bm) o
  | _ => False
  end.

Lemma upto_S i id : upto (S i) id <-> upto i id \/
  (id = Z.of_nat i + 1)%Z /\ i <> 0 /\ nth_error bm i = Some true.
Proof.
  unfold upto, active_in. split.
  - intros [A [B C]]. destruct (Z.eq_dec id (Z.of_nat i + 1)) as [->|N].
    + right. replace (Z.to_nat (Z.of_nat i + 1 - 1)) with i in C by lia. repeat split; auto; lia.
    + left. repeat split; auto; lia.
  - intros [[A [B C]]|(-> & A & B)].
    + repeat split; auto; lia.
    + replace (Z.to_nat (Z.of_nat i + 1 - 1)) with i by lia. repeat split; auto; lia.
Qed.
Lemma upto_end i id : skipn i bm = [] -> (upto i id <-> upto (List.length bm) id).
Proof.
  intros E. assert (L : List.length bm <= i).
  { pose proof (skipn_length i bm) as H. rewrite E in H. cbn in H. lia. }
  unfold upto, active_in. split; intros [A [B C]]; (split; [|auto]); [|lia].
  assert (Z.to_nat (id - 1) < List.length bm) by (apply nth_error_Some; congruence). lia.
Qed.
Lemma skipn_S i x rest : x :: rest = skipn i bm -> rest = skipn (S i) bm /\ nth_error bm i = Some x.
Proof.
  revert i. induction bm as [|b l IH]; intros [|i] E; cbn in E; try discriminate.
  - injection E as -> ->. auto.
  - apply IH in E. exact E.
Qed.
Lemma not_upto i : ~ upto i (Z.of_nat i + 1).
Proof. unfold upto. lia. Qed.
Lemma KN_frame k st st' : KN k st -> (forall id, knows st' id <-> knows st id) -> KN k st'.
Proof. intros H E id. rewrite E. apply H. Qed.

Lemma dinv_step st l st' o o2 : cinv st -> dinv st o -> cstep st l = Some (Ok (st', o2)) ->
  dinv st' (o ++ o2).
Proof.
  intros CI H E. unfold dinv in *.
  assert (NO : forall a, identifies a = [] -> forall k, ID k o -> ID k (o ++ a))
    by (intros a Z k; unfold ID; rewrite identifies_app, Z, app_nil_r; auto).
  assert (ND : forall a, discovered a = [] -> forall k, DI k o -> DI k (o ++ a))
    by (intros a Z k; unfold DI; rewrite discovered_app, Z, app_nil_r; auto).
  destruct (cstep_inv _ _ _ _ E) as [Q|Q|msg act Q M|m Q M|i Q|i a rest Q M|i rest n Q Z L|i rest Q Z L
    |i rest Q|i rest Q|b r L|l id n n' w evs T L P|e q Q|t Q D|age D A F|age D A F|D|age d D|d D].
  - rewrite Q in H. contradiction.
  - destruct (c_disc st); intuition.
  - rewrite Q in H. contradiction.
  - rewrite Q in H. contradiction.
  - rewrite Q in H. cbn. destruct H as (R & K & I & D). symmetry in R.
    rewrite app_nil_r.
    split; [intros id; rewrite <- (upto_end i id R); apply K|].
    split; (split; [apply I || apply D|]); intros id; rewrite <- (upto_end i id R); [apply I|apply D].
  - rewrite Q in H. cbn. destruct H as (R & K & I & D). apply skipn_S in R. destruct R as [R N].
    assert (U : forall id, upto (S i) id <-> upto i id).
    { intros id. rewrite upto_S. rewrite N. intuition congruence. }
    rewrite app_nil_r. split; [exact R|]. split; [intros id; rewrite U; apply K|].
    split; (split; [apply I || apply D|]); intros id; rewrite U; [apply I|apply D].
  - rewrite Q in H. cbn. destruct H as (R & K & I & D). apply skipn_S in R. destruct R as [R N].
    set (x := (Z.of_nat i + 1)%Z) in *.
    assert (KX : K0 x).
    { assert (KX : knows st x) by (unfold knows; rewrite zlookup_key; congruence).
      apply K in KX. destruct KX as [KX|KX]; [exact KX|]. now apply not_upto in KX. }
    assert (U : forall id, upto (S i) id <-> upto i id \/ id = x).
    { intros id. rewrite upto_S. intuition. }
    split; [exact R|]. split.
    { intros id. rewrite U. change (knows (with_ident (with_disc st (DcLoop (S i) rest)) x) id) with (knows st id).
      rewrite (K id). intuition congruence. }
    split.
    + unfold ID. rewrite identifies_app. cbn [identifies flat_map app]. destruct I as [I1 I2].
      split; [apply increasing_snoc; split; [exact I1|]; intros y Y; apply I2 in Y; unfold upto in Y; lia|].
      intros id. rewrite U, in_app_iff, I2. cbn. intuition.
    + apply ND; [reflexivity|]. destruct D as [D1 D2]. split; [exact D1|].
      intros id. rewrite D2, U. intuition congruence.
  - rewrite Q in H. cbn. destruct H as (R & K & I & D). apply skipn_S in R. destruct R as [R N].
    set (x := (Z.of_nat i + 1)%Z) in *.
    assert (NX : ~ knows st x) by (unfold knows; rewrite zlookup_key; congruence).
    rewrite app_nil_r. split; [exact R|]. split; [exact N|]. split; [exact Z|].
    split; [intros X; apply NX, K; auto|]. split; [|auto].
    intros id. unfold knows. cbn [with_disc add_node with_nodes c_nodes list_all list_add new_node n_id].
    rewrite zset_keys. change (In id (map fst (c_nodes st))) with (knows st id). rewrite (K id), upto_S.
    subst x. intuition.
  - rewrite Q in H. cbn. destruct H as (R & N & Z & X & K & I & D).
    split; [exact R|]. split; [exact N|]. split; [exact Z|]. split; [exact X|]. split; [exact K|].
    split; [apply NO; [reflexivity|exact I]|].
    unfold DI. rewrite discovered_app. cbn [discovered flat_map app]. destruct D as [D1 D2].
    split; [apply increasing_snoc; split; [exact D1|]; intros y Y; apply D2 in Y; unfold upto in Y; lia|].
    intros id. rewrite upto_S, in_app_iff, D2. cbn. intuition; subst; auto.
  - rewrite Q in H. cbn. destruct H as (R & N & Z & X & K & I & D).
    split; [exact R|]. split; [exact K|]. split; [|apply ND; [reflexivity|exact D]].
    unfold ID. rewrite identifies_app. cbn [identifies flat_map app]. destruct I as [I1 I2].
    split; [apply increasing_snoc; split; [exact I1|]; intros y Y; apply I2 in Y; unfold upto in Y; lia|].
    intros id. rewrite upto_S, in_app_iff, I2. cbn. intuition.
  - rewrite app_nil_r. exact H.
  - match goal with |- context [pushes ?x ?y] => destruct (pushes_frame y x) as (_&P1&_&_&P3&_); set (st2 := pushes x y) in * end.
    rewrite P3. cbn [with_windows with_nodes c_disc].
    assert (KK : forall k, knows st2 k <-> knows st k).
    { intros k. unfold knows. rewrite P1. cbn. rewrite zset_keys.
      split; [intros [->|X]; [|exact X]|auto].
      destruct L as [L|(a & _ & _ & L)]; [rewrite zlookup_key; congruence|].
      apply (ci_setup _ CI), (ci_ident _ CI), L. }
    pose proof (NO _ (identifies_events evs)) as NO'. pose proof (ND _ (discovered_events evs)) as ND'.
    destruct (c_disc st); try exact H; intuition; eauto using KN_frame.
  - assert (KK : forall k, knows (with_queue st q) k <-> knows st k) by reflexivity.
    cbn [with_queue c_disc]. pose proof (NO [CORead e] eq_refl) as NO'. pose proof (ND [CORead e] eq_refl) as ND'.
    destruct (c_disc st); try exact H; intuition; eauto using KN_frame.
  - rewrite app_nil_r. exact H.
  - cbn [with_deb c_disc]. pose proof (NO [COSave (c_nodes st)] eq_refl) as NO'. pose proof (ND [COSave (c_nodes st)] eq_refl) as ND'.
    destruct (c_disc st); try exact H; intuition; eauto using KN_frame.
  - rewrite app_nil_r. exact H.
  - rewrite app_nil_r. exact H.
  - rewrite app_nil_r. exact H.
  - rewrite app_nil_r. exact H.
Qed.
Lemma dinv_run st0 ls : cinv st0 -> dinv st0 [] -> forall st o, crun st0 ls = Some (Ok (st, o)) ->
  cinv st /\ dinv st o.
Proof.
  intros C0 D0. induction ls as [|l ls IH] using rev_ind; intros st o E.
  - injection E as <- <-. auto.
  - apply crun_snoc in E. destruct E as (st1 & o1 & o2 & A & B & ->).
    destruct (IH _ _ A) as [C D]. split; [eapply cinv_step; eauto|eapply dinv_step; eauto].
Qed.
End Discovery.

Lemma discovery_result file ns l1 st1 o1 m bm st2 o2 l2 st3 o3 :
  crun (loaded file ns) l1 = Some (Ok (st1, o1)) ->
  m_data m = Some (PNodes bm) -> cstep st1 (CAnswer (Some m)) = Some (Ok (st2, o2)) ->
  crun st2 l2 = Some (Ok (st3, o3)) -> c_disc st3 = DcDone ->
  (forall id, knows st3 id <-> knows st1 id \/ (2 <= id)%Z /\ active_in bm id) /\
  increasing (identifies o3) /\
  (forall id, In id (identifies o3) <-> (2 <= id)%Z /\ active_in bm id) /\
  increasing (discovered o3) /\
  (forall id, In id (discovered o3) <-> (2 <= id)%Z /\ active_in bm id /\ ~ knows st1 id) /\
  (forall id, knows st1 id -> (forall l, In l l2 -> ~ touches id l) ->
     zlookup id (c_nodes st3) = zlookup id (c_nodes st1)).
Proof.
  intros R1 M E R2 D. pose proof (cinv_run _ _ _ _ _ R1) as CI.
  pose proof (cinv_step _ _ _ _ CI E) as CI2.
  assert (S : st2 = with_disc st1 (DcLoop 0 bm)).
  { unfold cstep in E. destruct (c_disc st1); try discriminate. rewrite M in E. now injection E as <- _. }
  assert (U0 : forall k id, k = 0 -> ~ upto bm k id) by (intros k id ->; unfold upto; lia).
  assert (DI0 : dinv bm (knows st1) st2 []).
  { subst st2. unfold dinv. cbn. split; [reflexivity|]. split.
    - intros id. change (knows (with_disc st1 (DcLoop 0 bm)) id) with (knows st1 id).
      split; [auto|]. intros [X|X]; [exact X|]. now apply U0 in X.
    - split; (split; [exact I|]); intros id; (split; [intros []|]); [|intros [X _]; revert X]; intros X; now apply U0 in X. }
  destruct (dinv_run bm (knows st1) st2 l2 CI2 DI0 _ _ R2) as [_ H]. unfold dinv in H. rewrite D in H.
  destruct H as (K & [I1 I2] & [D1 D2]).
  assert (U : forall id, upto bm (List.length bm) id <-> (2 <= id)%Z /\ active_in bm id).
  { intros id. unfold upto, active_in. split; [intros [A B]; split; [lia|exact B]|].
    intros [A [B C]]. split; [|auto].
    assert (Z.to_nat (id - 1) < List.length bm) by (apply nth_error_Some; congruence). lia. }
  split; [intros id; rewrite (K id), U; reflexivity|]. split; [exact I1|].
  split; [intros id; rewrite (I2 id), U; reflexivity|]. split; [exact D1|].
  split; [intros id; rewrite (D2 id), U; tauto|].
  intros id KI T. assert (KI2 : knows st2 id) by (subst st2; exact KI).
  destruct (run_node _ _ _ _ _ R2 T KI2) as [X _]. rewrite X. subst st2. reflexivity.
Qed.

(** Discovery gets to its end on its own. *)
Lemma discovery_ends : forall rest st i, c_disc st = DcLoop i rest ->
  exists k st' o, k <= 3 * List.length rest + 1 /\
    crun st (repeat CDisc k) = Some (Ok (st', o)) /\ c_disc st' = DcDone.
Proof.
  induction rest as [|a rest IH]; intros st i E.
  - exists 1. cbn. rewrite E. eexists _, _. split; [lia|]. split; reflexivity.
  - assert (ONE : forall st1 o1, cstep st CDisc = Some (Ok (st1, o1)) -> c_disc st1 = DcLoop (S i) rest ->
       exists k st' o, k <= 3 * List.length (a :: rest) + 1 /\
         crun st (repeat CDisc k) = Some (Ok (st', o)) /\ c_disc st' = DcDone).
    { intros st1 o1 S0 D. destruct (IH _ _ D) as (k & st' & o & L & R & F).
      exists (S k), st', (o1 ++ o). cbn [List.length repeat crun]. rewrite S0, R.
      split; [lia|]. split; [reflexivity|exact F]. }
    destruct a.
    2: { eapply ONE; [unfold cstep; rewrite E; reflexivity|reflexivity]. }
    destruct (Nat.eqb i 0) eqn:Z.
    { eapply ONE; [unfold cstep; rewrite E; cbn [negb]; rewrite Z; reflexivity|reflexivity]. }
    destruct (zlookup (Z.of_nat i + 1) (c_nodes st)) eqn:L.
    { eapply ONE; [unfold cstep; rewrite E; cbn [negb]; rewrite Z, L; reflexivity|reflexivity]. }
    set (st1 := with_disc (add_node st (new_node (Z.of_nat i + 1))) (DcAdded i rest)).
    set (st2 := with_disc (push st1 (EDiscovered (Z.of_nat i + 1))) (DcPushed i rest)).
    set (st3 := with_ident (with_setup (with_disc st2 (DcLoop (S i) rest)) (Z.of_nat i + 1)) (Z.of_nat i + 1)).
    assert (S1 : cstep st CDisc = Some (Ok (st1, []))).
    { unfold cstep. rewrite E. cbn [negb]. rewrite Z, L. reflexivity. }
    assert (S2 : cstep st1 CDisc = Some (Ok (st2, [COPush (EDiscovered (Z.of_nat i + 1))]))) by reflexivity.
    assert (S3 : cstep st2 CDisc = Some (Ok (st3, [COIdentify (Z.of_nat i + 1)]))) by reflexivity.
    destruct (IH st3 (S i) eq_refl) as (k & st' & o & K & R & F).
    exists (S (S (S k))), st'. eexists. cbn [repeat crun]. rewrite S1, S2, S3, R.
    cbn [List.length]. split; [lia|]. split; [reflexivity|exact F].
Qed.

(** Once getNodes has returned, no node ever appears (C72). *)
Lemma discovery_over ls : forall st st' o, cinv st -> c_disc st = DcDone ->
  crun st ls = Some (Ok (st', o)) ->
  c_disc st' = DcDone /\ (forall id, knows st' id <-> knows st id) /\ identifies o = [].
Proof.
  induction ls as [|l ls IH] using rev_ind; intros st st' o CI D E.
  - injection E as <- <-. cbn. intuition.
  - apply crun_snoc in E. destruct E as (st1 & o1 & o2 & A & B & ->).
    destruct (IH _ _ _ CI D A) as (D1 & K1 & I1). rewrite identifies_app, I1.
    assert (CI1 : cinv st1).
    { eapply cinv_runs; eauto. }
    destruct (cstep_inv _ _ _ _ B); try congruence; try (split; [exact D1|split; [exact K1|reflexivity]]).
    match goal with |- context [pushes ?x ?y] => destruct (pushes_frame y x) as (_&P1&_&_&P3&_); set (st2 := pushes x y) in * end.
    rewrite P3. split; [exact D1|]. split; [|apply identifies_events].
    intros k. rewrite <- (K1 k). unfold knows. rewrite P1. cbn. rewrite zset_keys.
    split; [intros [->|X]; [|exact X]|auto].
    destruct H0 as [L|(a & _ & _ & L)]; [rewrite zlookup_key; congruence|].
    apply (ci_setup _ CI1), (ci_ident _ CI1), L.
Qed.

(** ** Start-up *)
Lemma srun_app st l1 l2 st' o : srun st (l1 ++ l2) = Some (st', o) <->
  exists st1 o1 o2, srun st l1 = Some (st1, o1) /\ srun st1 l2 = Some (st', o2) /\ o = o1 ++ o2.
Proof.
  revert st o. induction l1 as [|l l1 IH]; intros st o; cbn [app srun].
  - split; [intros E; exists st, [], o; auto|].
    intros (st1 & o1 & o2 & A & B & ->). injection A as <- <-. exact B.
  - destruct (sstep st l) as [[st1 o1]|] eqn:E.
    2: split; [discriminate|intros (? & ? & ? & A & _); discriminate].
    split.
    + destruct (srun st1 (l1 ++ l2)) as [[st2 o2]|] eqn:R; try discriminate.
      intros K. injection K as <- <-. apply IH in R. destruct R as (a & b & c & R1 & R2 & ->).
      exists a, (o1 ++ b), c. rewrite R1. rewrite app_assoc. auto.
    + intros (a & b & c & R1 & R2 & ->).
      destruct (srun st1 l1) as [[st2 o2]|] eqn:R; try discriminate. injection R1 as <- <-.
      assert (K : srun st1 (l1 ++ l2) = Some (st', o2 ++ c)) by (apply IH; exists st2, o2, c; auto).
      rewrite K. rewrite app_assoc. reflexivity.
Qed.
Lemma srun_snoc st ls l st' o : srun st (ls ++ [l]) = Some (st', o) <->
  exists st1 o1 o2, srun st ls = Some (st1, o1) /\ sstep st1 l = Some (st', o2) /\ o = o1 ++ o2.
Proof.
  rewrite srun_app. split; intros (st1 & o1 & o2 & A & B & ->); exists st1, o1, o2; split; auto.
  - cbn in B. destruct (sstep st1 l) as [[a b]|]; try discriminate.
    injection B as <- <-. rewrite app_nil_r. auto.
  - cbn. rewrite B. rewrite app_nil_r. auto.
Qed.
(** What has been returned so far, and what it took. *)
Lemma sinv ls : forall st o, srun sinit ls = Some (st, o) ->
  (s_notices st > 0 -> In SOOpened o) /\
  (match s_main st with
   | MOk => exists a b, o = a ++ SOReturned true :: b /\ In SOOpened a /\ (forall x, ~ In (SOReturned x) (a ++ b))
   | MErr => exists a b, o = a ++ SOReturned false :: b /\ In SOpenFails ls /\ (forall x, ~ In (SOReturned x) (a ++ b))
   | _ => forall x, ~ In (SOReturned x) o
   end).
Proof.
  induction ls as [|l ls IH] using rev_ind; intros st o E.
  - injection E as <- <-. cbn. split; [lia|auto].
  - apply srun_snoc in E. destruct E as (st1 & o1 & o2 & A & B & ->).
    destruct (IH _ _ A) as [N M].
    assert (KEEP : forall m, (forall x, ~ In (SOReturned x) o2) -> m = s_main st1 ->
      match m with
      | MOk => exists a b, o1 ++ o2 = a ++ SOReturned true :: b /\ In SOOpened a /\ (forall x, ~ In (SOReturned x) (a ++ b))
      | MErr => exists a b, o1 ++ o2 = a ++ SOReturned false :: b /\ In SOpenFails (ls ++ [l]) /\ (forall x, ~ In (SOReturned x) (a ++ b))
      | _ => forall x, ~ In (SOReturned x) (o1 ++ o2)
      end).
    { intros m Q ->. destruct (s_main st1).
      1,2: intros x X; apply in_app_or in X; destruct X as [X|X]; [now apply M in X|now apply Q in X].
      all: destruct M as (a & b & -> & P & R); exists a, (b ++ o2); rewrite <- app_assoc;
        (split; [reflexivity|]); (split; [auto using in_or_app|]);
        intros x X; rewrite app_assoc in X; apply in_app_or in X; destruct X as [X|X]; [now apply R in X|now apply Q in X]. }
    assert (FRESH : forall k ok, offer (s_main st1) ok = k ->
       (fst k = s_main st1 /\ snd k = []) \/ (s_main st1 = MWaiting /\ fst k = (if ok then MOk else MErr) /\ snd k = [SOReturned ok])).
    { intros k ok <-. destruct (s_main st1); cbn; auto. }
    destruct l; cbn in B.
    + destruct (s_main st1) eqn:Q; try discriminate. injection B as <- <-. cbn. rewrite app_nil_r. auto.
    + destruct (s_port st1); try discriminate. injection B as <- <-. cbn [s_notices s_main].
      split; [intros _; apply in_or_app; cbn; auto|]. apply KEEP; [|reflexivity].
      intros x [X|[]]; discriminate.
    + destruct (s_port st1); try discriminate. destruct (offer (s_main st1) false) as [m o] eqn:F.
      injection B as <- <-. cbn [s_notices s_main].
      split; [intros Z; apply in_or_app; left; auto|].
      destruct (FRESH _ _ F) as [[G1 G2]|(G & G1 & G2)]; cbn in G1, G2; subst.
      * apply KEEP; [intros x []|reflexivity].
      * rewrite G in M. exists o1, []. split; [reflexivity|]. rewrite app_nil_r.
        split; [apply in_or_app; cbn; auto|exact M].
    + destruct (s_notices st1) as [|k] eqn:K; [discriminate|].
      destruct (offer (s_main st1) true) as [m o] eqn:F. injection B as <- <-. cbn [s_notices s_main].
      assert (O : In SOOpened o1) by (apply N; lia).
      split; [intros Z; apply in_or_app; left; auto|].
      destruct (FRESH _ _ F) as [[G1 G2]|(G & G1 & G2)]; cbn in G1, G2; subst.
      * apply KEEP; [intros x []|reflexivity].
      * rewrite G in M. exists o1, []. split; [reflexivity|]. rewrite app_nil_r. auto.
    + destruct (s_port st1); try discriminate. injection B as <- <-. cbn [s_notices s_main].
      split; [intros Z; apply in_or_app; left; auto|]. apply KEEP; [|reflexivity].
      intros x [X|[]]; discriminate.
Qed.
Lemma app_mid_unique {A} (a b a' b' : list A) x y : a ++ x :: b = a' ++ y :: b' ->
  ~ In x (a' ++ b') -> x = y /\ a = a' /\ b = b'.
Proof.
  revert a'. induction a as [|z a IH]; intros [|z' a'] E N; cbn in E.
  - injection E as -> ->. auto.
  - injection E as -> ->. exfalso. apply N. now left.
  - injection E as -> <-. exfalso. apply N. cbn. apply in_or_app. right. now left.
  - injection E as -> E. apply IH in E; [|intros X; apply N; now right].
    destruct E as (-> & -> & ->). auto.
Qed.
Lemma start_result ls st o a b r : srun sinit ls = Some (st, o) -> o = a ++ SOReturned r :: b ->
  (forall x, ~ In (SOReturned x) (a ++ b)) /\
  (r = true -> In SOOpened a) /\ (r = false -> In SOpenFails ls).
Proof.
  intros E ->. destruct (sinv _ _ _ E) as [_ M].
  assert (I : In (SOReturned r) (a ++ SOReturned r :: b)) by (apply in_or_app; cbn; auto).
  destruct (s_main st).
  1,2: now apply M in I.
  all: destruct M as (a' & b' & Q & P & R).
  all: apply app_mid_unique in Q; [|apply R]; destruct Q as (Q & -> & ->); injection Q as ->.
  all: split; [exact R|]; split; intros; auto; discriminate.
Qed.
