(** Lemmas for C122. *)
From Verif Require Import ModelBase ModelReports ModelSerial ModelNodes ModelList ModelDatabase ModelIdentify.
From Verif Require Import ModelController ModelConnection ModelSystem.
From Verif Require Import SpecNodes SpecController SpecSystem SpecAnnounce.
From Verif Require Import ProofNodes ProofController ProofSystem.
Local Open Scope list_scope.

Record ann (old : list Z) (st : cst) (o : list cobs) : Prop := mkAnn {
  an_once : NoDup (discovered o);
  an_new : forall id, In id (discovered o) -> knows st id /\ ~ In id old;
  an_known : forall id, knows st id -> In id old \/ In id (discovered o) \/ just_added st id;
  an_just : forall id, just_added st id -> knows st id /\ ~ In id old /\ ~ In id (discovered o);
  an_pushed : forall i rest, c_disc st = DcPushed i rest -> In (Z.of_nat i + 1)%Z (discovered o);
  an_setup : forall id, In id (c_setup st) -> In id old \/ In id (discovered o);
  an_ident : forall id, In id (c_ident st) -> knows st id;
  an_old : forall id, In id old -> knows st id;
  an_first : forall a id b, pushed o = a ++ EUpdated id :: b -> In id old \/ In (EDiscovered id) a }.

Lemma discovered_pushed o id : In id (discovered o) <-> In (EDiscovered id) (pushed o).
Proof.
  unfold discovered, pushed. rewrite !in_flat_map. split; intros (x & I & H); exists x; split; try exact I;
    destruct x as [[a|a]| | |]; cbn in H; try destruct H as [H|[]]; try contradiction; subst; cbn; auto.
  - injection H as ->. left. reflexivity.
  - discriminate H.
Qed.
(** The updates that a step publishes are about nodes that were set up. *)
Lemma step_updates st l st' o id : keyed st -> cstep st l = Some (Ok (st', o)) -> In (EUpdated id) (pushed o) ->
  In id (c_setup st) /\ forall e, In e (pushed o) -> e = EUpdated id.
Proof.
  intros K E I.
  assert (Ev : forall st1 i evs, node_events st1 i evs = Ok (st', o) -> c_setup st1 = c_setup st -> (forall x, In x evs -> x = i) ->
    In id (c_setup st) /\ forall e, In e (pushed o) -> e = EUpdated id).
  { intros st1 i evs H Q A. pose proof (node_events_ok _ _ _ _ _ H) as [_ ->]. rewrite pushed_events in *.
    apply in_map_iff in I. destruct I as (x & X & I). injection X as ->. pose proof (A _ I) as ->. split.
    - destruct evs; [destruct I|]. cbn [node_events] in H. destruct (existsb (Z.eqb i) (c_setup st1)) eqn:S; [|discriminate].
      apply existsb_exists in S. destruct S as (y & Y & S). apply Z.eqb_eq in S. subst y. congruence.
    - intros e J. apply in_map_iff in J. destruct J as (y & <- & J). f_equal. exact (A _ J). }
  destruct l as [| |m| |b r|i|i x annc| | | | |d]; cbn [cstep] in E.
  - destruct (c_disc st); try discriminate. injection E as <- <-. destruct I.
  - destruct (c_disc st); try discriminate; injection E as <- <-; destruct I.
  - destruct (c_disc st); try discriminate. destruct m as [m|]; [destruct (m_data m) as [[]|]|]; injection E as <- <-; destruct I.
  - destruct (c_disc st) as [| |i [|a rest]|i rest|i rest|]; try discriminate.
    + injection E as <- <-. destruct I.
    + destruct a; cbn [negb] in E; [|injection E as <- <-; destruct I].
      destruct (Nat.eqb i 0); [injection E as <- <-; destruct I|].
      destruct (zlookup _ _); injection E as <- <-; destruct I.
    + injection E as <- <-. destruct I as [I|[]]. discriminate I.
    + injection E as <- <-. destruct I.
  - destruct (zlookup (Z.of_N (b2N b)) (c_nodes st)) as [n|] eqn:L; [|injection E as <- <-; destruct I].
    destruct (process_event n r) as [[[n' evs] op]| |] eqn:P; cbn [bind] in E; try discriminate. injection E as E.
    apply (Ev _ _ _ E); [destruct op; reflexivity|]. intros x X. rewrite <- (K _ _ L). destruct (process_event_events _ _ _ _ _ P) as [-> _].
    destruct (reported _); [destruct X as [X|[]]; congruence|destruct X].
  - destruct (existsb (Z.eqb i) (c_windows st)); [|discriminate].
    destruct (zlookup i (c_nodes st)) as [n|] eqn:L; [|discriminate].
    destruct (alarm_window_end n) as [[n' evs]| |] eqn:P; cbn [bind] in E; try discriminate. injection E as E.
    apply (Ev _ _ _ E); [reflexivity|]. intros x X. rewrite <- (K _ _ L).
    unfold alarm_window_end in P. destruct (set_bool _ _ _) as [n1| |]; cbn [bind] in P; try discriminate.
    destruct (set_float _ _ _) as [n2| |]; cbn [bind] in P; try discriminate. injection P as _ <-.
    destruct X as [X|[]]. congruence.
  - destruct (_ && _); [|discriminate]. injection E as E. apply (Ev _ _ _ E); [reflexivity|].
    intros y Y. destruct annc; [destruct Y as [Y|[]]; congruence|destruct Y].
  - destruct (c_queue st); try discriminate. injection E as <- <-. destruct I.
  - destruct (c_trig st), (c_deb st); try discriminate; injection E as <- <-; destruct I.
  - destruct (c_deb st) as [| |age|]; try discriminate. destruct (save_delay <=? age)%N; [|discriminate].
    destruct (c_file st); injection E as <- <-; destruct I.
  - destruct (c_deb st); try discriminate. injection E as <- <-. destruct I.
  - destruct (c_deb st); injection E as <- <-; destruct I.
Qed.
Lemma first_app old st o o1 : ann old st o ->
  (forall id, In (EUpdated id) (pushed o1) -> In id (c_setup st)) ->
  forall a id b, pushed (o ++ o1) = a ++ EUpdated id :: b -> In id old \/ In (EDiscovered id) a.
Proof.
  intros A U a id b H. rewrite pushed_app in H. apply app_eq_app in H. destruct H as (m & [[E1 E2]|[E1 E2]]).
  - destruct m as [|x m].
    + rewrite app_nil_r in E1. cbn in E2. destruct (an_setup _ _ _ A id) as [X|X].
      * apply U. rewrite <- E2. left. reflexivity.
      * left. exact X.
      * right. apply discovered_pushed in X. congruence.
    + injection E2 as <- E2. exact (an_first _ _ _ A _ _ _ E1).
  - destruct (an_setup _ _ _ A id) as [X|X].
    + apply U. rewrite E2. apply in_or_app. right. left. reflexivity.
    + left. exact X.
    + right. apply discovered_pushed in X. rewrite E1. apply in_or_app. left. exact X.
Qed.
(** Steps that leave discovery where it is, or move it where nothing is announced. *)
Definition calm_disc (d : disc) : Prop := match d with DcAdded _ _ | DcPushed _ _ => False | _ => True end.
Lemma ann_frame old st o st' o1 : ann old st o -> (forall id, In (EUpdated id) (pushed o1) -> In id (c_setup st)) ->
  (forall id, knows st' id <-> knows st id) -> c_setup st' = c_setup st -> (forall id, In id (c_ident st') -> knows st id) ->
  discovered o1 = [] -> (c_disc st' = c_disc st \/ calm_disc (c_disc st) /\ calm_disc (c_disc st')) -> ann old st' (o ++ o1).
Proof.
  intros A U K S I D C.
  assert (J : forall id, just_added st' id <-> just_added st id).
  { intros id. unfold just_added. destruct C as [->|[C1 C2]]; [reflexivity|].
    split; intros (i & r & E & _); rewrite E in *; contradiction. }
  assert (DO : discovered (o ++ o1) = discovered o) by (rewrite discovered_app, D; apply app_nil_r).
  constructor; rewrite ?DO.
  - exact (an_once _ _ _ A).
  - intros id X. rewrite K. exact (an_new _ _ _ A id X).
  - intros id X. rewrite J. apply (an_known _ _ _ A). apply K. exact X.
  - intros id X. rewrite K. apply (an_just _ _ _ A). apply J. exact X.
  - intros i r E. destruct C as [C|[_ C]]; [|rewrite E in C; contradiction]. apply (an_pushed _ _ _ A i r). congruence.
  - rewrite S. exact (an_setup _ _ _ A).
  - intros id X. apply K. exact (I id X).
  - intros id X. apply K. exact (an_old _ _ _ A id X).
  - exact (first_app _ _ _ _ A U).
Qed.
Lemma ann_step old st o l st' o1 : ann old st o -> keyed st -> cstep st l = Some (Ok (st', o1)) -> ann old st' (o ++ o1).
Proof.
  intros A K E.
  assert (U : forall id, In (EUpdated id) (pushed o1) -> In id (c_setup st)).
  { intros id I. exact (proj1 (step_updates _ _ _ _ _ K E I)). }
  pose proof (fun id => an_ident _ _ _ A id) as ID.
  apply cstep_inv in E. destruct E as [D|D|msg act D M|m D M|i D|i a rest D C|i rest n D I L|i rest D I L|i rest D|i rest D
    |b r L|l id n n' w evs T L P|e q Q|t Q C|age Q C F|age Q C F|Q|age d Q|d Q].
  all: try (apply (ann_frame _ _ _ _ _ A U); try reflexivity; try (intros ? ?; exact (ID _ H)); try (left; reflexivity);
    try (right; rewrite D; split; exact Logic.I); exact ID).
  - (* known *) apply (ann_frame _ _ _ _ _ A U); try reflexivity.
    + intros id X. apply in_app_or in X. destruct X as [X|[<-|[]]]; [exact (ID _ X)|]. apply zlookup_key. congruence.
    + right. rewrite D. split; exact Logic.I.
  - (* new *)
    set (id0 := (Z.of_nat i + 1)%Z) in *.
    assert (NK : ~ knows st id0) by (unfold knows; rewrite zlookup_key; congruence).
    assert (KN : forall id, knows (with_disc (add_node st (new_node id0)) (DcAdded i rest)) id <-> id = id0 \/ knows st id).
    { intros id. unfold knows. cbn. apply zset_keys. }
    assert (JN : forall id, ~ just_added st id) by (intros id (x & y & X & _); congruence).
    rewrite app_nil_r. constructor.
    + exact (an_once _ _ _ A).
    + intros id X. rewrite KN. destruct (an_new _ _ _ A id X); auto.
    + intros id X. apply KN in X. destruct X as [->|X].
      * right. right. exists i, rest. split; reflexivity.
      * destruct (an_known _ _ _ A id X) as [Y|[Y|Y]]; auto. destruct (JN _ Y).
    + intros id (x & y & X & ->). injection X as <- <-. split; [apply KN; left; reflexivity|]. split.
      * intros O. exact (NK (an_old _ _ _ A _ O)).
      * intros O. exact (NK (proj1 (an_new _ _ _ A _ O))).
    + intros x y X. discriminate X.
    + exact (an_setup _ _ _ A).
    + intros id X. apply KN. right. exact (ID _ X).
    + intros id X. apply KN. right. exact (an_old _ _ _ A _ X).
    + exact (an_first _ _ _ A).
  - (* announce *)
    set (id0 := (Z.of_nat i + 1)%Z) in *.
    assert (J : just_added st id0) by (exists i, rest; split; [exact D|reflexivity]).
    destruct (an_just _ _ _ A _ J) as (J1 & J2 & J3).
    assert (DO : discovered (o ++ [COPush (EDiscovered id0)]) = discovered o ++ [id0]) by apply discovered_app.
    constructor; rewrite ?DO.
    + apply (Permutation.Permutation_NoDup (l := id0 :: discovered o)).
      * apply Permutation.Permutation_cons_append.
      * constructor; [exact J3|exact (an_once _ _ _ A)].
    + intros id X. apply in_app_or in X. destruct X as [X|[<-|[]]]; [exact (an_new _ _ _ A id X)|]. split; [exact J1|exact J2].
    + intros id X. destruct (an_known _ _ _ A id X) as [Y|[Y|(x & y & X1 & ->)]]; [auto|right; left; apply in_or_app; auto|].
      rewrite D in X1. injection X1 as <- <-. right. left. apply in_or_app. right. left. reflexivity.
    + intros id (x & y & X & _). discriminate X.
    + intros x y X. injection X as <- <-. apply in_or_app. right. left. reflexivity.
    + intros id X. destruct (an_setup _ _ _ A id X) as [Y|Y]; [auto|right; apply in_or_app; auto].
    + exact ID.
    + exact (an_old _ _ _ A).
    + apply (first_app _ _ _ _ A). exact U.
  - (* setup *)
    set (id0 := (Z.of_nat i + 1)%Z) in *.
    pose proof (an_pushed _ _ _ A _ _ D) as X0. fold id0 in X0.
    assert (DO : discovered (o ++ [COIdentify id0]) = discovered o) by (rewrite discovered_app; apply app_nil_r).
    constructor; rewrite ?DO.
    + exact (an_once _ _ _ A).
    + exact (an_new _ _ _ A).
    + intros id X. destruct (an_known _ _ _ A id X) as [Y|[Y|(x & y & X1 & _)]]; auto. congruence.
    + intros id (x & y & X & _). discriminate X.
    + intros x y X. discriminate X.
    + intros id [<-|X]; [right; exact X0|]. exact (an_setup _ _ _ A id X).
    + intros id X. apply in_app_or in X. destruct X as [X|[<-|[]]]; [exact (ID _ X)|]. exact (proj1 (an_new _ _ _ A _ X0)).
    + exact (an_old _ _ _ A).
    + apply (first_app _ _ _ _ A). exact U.
  - (* change *)
    destruct (pushes_frame (map EUpdated evs) (with_windows (with_nodes st (zset id n' (c_nodes st))) w)) as (_ & G1 & G2 & _ & G4 & G5 & _).
    apply (ann_frame _ _ _ _ _ A U).
    + intros x. unfold knows. rewrite G1. cbn. rewrite zset_keys. split; [intros [->|X]|]; auto.
      destruct L as [L|(a & _ & _ & L)]; [apply zlookup_key; congruence|exact (ID _ L)].
    + rewrite G2. reflexivity.
    + rewrite G5. exact ID.
    + apply discovered_events.
    + left. rewrite G4. reflexivity.
Qed.
Lemma ann_start file ns : ann (map n_id ns) (loaded file ns) [].
Proof.
  pose proof (load_rest ns (new_controller file)) as R. cbn zeta in R. fold (loaded file ns) in R.
  assert (D : c_disc (loaded file ns) = DcIdle) by apply R.
  constructor.
  - constructor.
  - intros id [].
  - intros id X. left. unfold loaded in X. rewrite load_known in X. destruct X as [X|X]; [exact X|destruct X] || (destruct X as [[]|X]; exact X).
  - intros id (x & y & X & _). congruence.
  - intros x y X. congruence.
  - intros id X. left. unfold loaded in X. rewrite load_setup in X. destruct X as [X|X]; [exact X|destruct X] || (destruct X as [[]|X]; exact X).
  - intros id X. exfalso. assert (c_ident (loaded file ns) = []) as Y by apply R. rewrite Y in X. destruct X.
  - intros id X. unfold loaded. rewrite load_known. auto.
  - intros a id b H. destruct a; discriminate H.
Qed.
Lemma ann_run file ns ls : forall st o, crun (loaded file ns) ls = Some (Ok (st, o)) -> ann (map n_id ns) st o.
Proof.
  induction ls as [|l ls IH] using rev_ind; intros st o R.
  - injection R as <- <-. apply ann_start.
  - apply crun_snoc in R. destruct R as (s1 & o1 & o2 & R & S & ->).
    exact (ann_step _ _ _ _ _ _ (IH _ _ R) (keyed_run _ _ _ _ (keyed_start file ns) R) S).
Qed.
