(** Proofs about the whole program: does a wait of Identify end? *)
From Verif Require Import ModelBase ModelReports ModelSerial ModelCommands ModelNodes ModelList DataDevices ModelDatabase.
From Verif Require Import ModelIdentify ModelController ModelConnection ModelSystem ModelWhole.
From Verif Require Import SpecFrame SpecDecode SpecMessage SpecConnection SpecIdentify SpecController SpecNodes SpecSystem SpecWhole.
From Verif Require Import ProofBase ProofSerial ProofMessage ProofConnection ProofLink ProofReader ProofContent ProofIdentify ProofController ProofSystem ProofDiscovery ProofDelivery ProofWhole.
From Coq Require Import Lia Permutation.

(** ** What a step does to one goroutine *)
Lemma wstep_job w l w' ev o : wstep w l = Some (Ok (w', ev, o)) ->
  (exists yl, l = WSys yl /\ plain yl = true /\ ystep (w_sys w) yl = Some (Ok (w_sys w', ev, o)) /\
    w_jobs w' = started o (hears ev (w_jobs w))) \/
  (exists id j n il st io, (l = WGo id \/ l = WTimer id \/ l = WAnswer id) /\
    zlookup id (w_jobs w) = Some j /\ zlookup id (c_nodes (y_ctl (w_sys w))) = Some n /\ job_label l j = Some il /\
    istep (mkI (j_pc j) n (j_chan j) (j_fresh j)) il = Some (st, io) /\
    yrun (w_sys w) (job_effect id st io) = Some (Ok (w_sys w', ev, o)) /\
    w_jobs w' = zset id (job_after w j st io) (w_jobs w)).
Proof.
  intros H.
  assert (G : forall id, (l = WGo id \/ l = WTimer id \/ l = WAnswer id) ->
    match zlookup id (w_jobs w), zlookup id (c_nodes (y_ctl (w_sys w))) with
      | Some j, Some n =>
          match job_label l j with
          | Some il =>
              match istep (mkI (j_pc j) n (j_chan j) (j_fresh j)) il with
              | Some (st, o) =>
                  match yrun (w_sys w) (job_effect id st o) with
                  | Some (Ok (y, ev, o')) =>
                      Some (Ok (mkW y (zset id (job_after w j st o) (w_jobs w)), ev, o'))
                  | Some (Fail e) => Some (Fail e)
                  | Some Panic => Some Panic
                  | None => None
                  end
              | None => None
              end
          | None => None
          end
      | _, _ => None
      end = Some (Ok (w', ev, o)) ->
    exists id j n il st io, (l = WGo id \/ l = WTimer id \/ l = WAnswer id) /\
    zlookup id (w_jobs w) = Some j /\ zlookup id (c_nodes (y_ctl (w_sys w))) = Some n /\ job_label l j = Some il /\
    istep (mkI (j_pc j) n (j_chan j) (j_fresh j)) il = Some (st, io) /\
    yrun (w_sys w) (job_effect id st io) = Some (Ok (w_sys w', ev, o)) /\
    w_jobs w' = zset id (job_after w j st io) (w_jobs w)).
  { intros id L E. destruct (zlookup id (w_jobs w)) as [j|] eqn:J; [|discriminate].
    destruct (zlookup id (c_nodes (y_ctl (w_sys w)))) as [n|] eqn:N; [|discriminate].
    destruct (job_label l j) as [il|] eqn:JL; [|discriminate]. destruct (istep _ il) as [[st io]|] eqn:IS; [|discriminate].
    destruct (yrun _ _) as [[[[y e] o']| |]|] eqn:R; try discriminate. injection E as <- <- <-.
    exists id, j, n, il, st, io. repeat (split; [assumption|]). reflexivity. }
  unfold wstep in H. destruct l as [yl|id|id|id]; try (right; apply (G id); [auto|exact H]).
  left. destruct (plain yl) eqn:PL; [|discriminate].
  destruct (ystep (w_sys w) yl) as [[[[y e] o']| |]|] eqn:S; try discriminate. injection H as <- <- <-.
  exists yl. auto.
Qed.

(** Identify changes only its own node. *)
Lemma effect_nodes id st io y y' ev o : yrun y (job_effect id st io) = Some (Ok (y', ev, o)) ->
  forall i, i <> id -> zlookup i (c_nodes (y_ctl y')) = zlookup i (c_nodes (y_ctl y)).
Proof.
  intros R i NE. apply Z.eqb_neq in NE. unfold job_effect in R. destruct (commands_of io) as [|m r].
  - destruct (events_of io) as [|e es].
    + rewrite (proj2 (ident_nodes _ _ _ _ _ _ R)), NE. reflexivity.
    + rewrite (proj2 (idents_nodes id (i_node st) (e :: es) _ _ _ _ R)), NE. reflexivity.
  - destruct (request_kind (i_pc st)) as [[wt t] er]. destruct (call_effect _ _ _ _ _ _ _ _ R) as [-> _]. reflexivity.
Qed.
Lemma effect_events id st io y y' ev o : yrun y (job_effect id st io) = Some (Ok (y', ev, o)) ->
  match commands_of io with
  | [] => ev = []
  | m :: _ => let '(wt, t, er) := request_kind (i_pc st) in
              ev = [EvCall (c_next (y_conn y)) m wt t er; EvQueue (c_next (y_conn y)) false]
  end.
Proof.
  intros R. unfold job_effect in R. destruct (commands_of io) as [|m r].
  - destruct (events_of io) as [|e es].
    + exact (proj1 (ident_nodes _ _ _ _ _ _ R)).
    + exact (proj1 (idents_nodes id (i_node st) (e :: es) _ _ _ _ R)).
  - destruct (request_kind (i_pc st)) as [[wt t] er]. cbn [yrun ystep] in R. unfold step in R.
    destruct (c_crashed (y_conn y)); [discriminate|]. cbn [follow react hold] in R.
    destruct (y_ask y) as [[a []]|]; cbn in R; injection R as <- <- <-; reflexivity.
Qed.

(** ** Channels: fetched at most once *)
Lemma step_unfetched s l s' ev i : step s l = Some (s', ev) -> (i < c_next s)%nat -> ~ In i (unfetched s) ->
  (i < c_next s')%nat /\ ~ In i (unfetched s') /\ ~ In (EvGot i) ev.
Proof.
  intros H L U.
  assert (Same : unfetched s' = unfetched s -> c_next s' = c_next s -> ~ In (EvGot i) ev ->
    (i < c_next s')%nat /\ ~ In i (unfetched s') /\ ~ In (EvGot i) ev) by (intros -> ->; auto).
  assert (F : forall (P : event -> Prop) ev, Forall P ev -> (P (EvGot i) -> False) -> ~ In (EvGot i) ev).
  { intros P e0 V NP X. rewrite Forall_forall in V. exact (NP (V _ X)). }
  apply step_inv in H. destruct H as
  [M|k T|data w t er|i0 Fi|w p again q W Q|w i0 W|w i0 W|k i0 s' ev T E|k loop p T A|k n r T|stale chunk room M|M
  |o a s' ev M IC|i0 rcv b m0 pr vi lo p s' ev M Ip Ep Iv VC|b m0 pr vi lo s1 ev1 M FA SP];
  try (apply Same; [reflexivity|reflexivity|intros X; cbn in X; intuition discriminate]).
  - clear Same. unfold unfetched, firsts in *. conn_simpl. rewrite flat_map_app. cbn [flat_map snd fst app].
    split; [lia|]. split; [|intros X; cbn in X; intuition discriminate].
    intros X. rewrite <- app_assoc in X. apply in_app_iff in X. destruct X as [X|[X|X]].
    + apply U, in_or_app. left. exact X.
    + cbn in X. lia.
    + apply U, in_or_app. right. exact X.
  - clear Same. unfold unfetched in *. conn_simpl. split; [exact L|]. split.
    + intros X. apply U. apply in_app_iff in X. apply in_or_app. destruct X as [X|X]; [left; exact X|right].
      unfold remove_id in X. apply filter_In in X. tauto.
    + intros X. destruct (mem i0 (c_open s)); cbn in X; destruct X as [X|[]]; [|discriminate].
      injection X as ->. apply U, in_or_app. right. exact Fi.
  - clear Same. unfold unfetched in *. conn_simpl. rewrite Q in U. unfold firsts in U. cbn [flat_map snd fst] in U. fold (firsts q) in U.
    split; [exact L|]. split; [|intros X; cbn in X; intuition discriminate].
    intros X. apply U. rewrite <- app_assoc. apply in_app_iff in X. destruct X as [X|X].
    + apply in_or_app. right. apply in_or_app. left. exact X.
    + assert (Y : In i (c_fetch s) \/ again = false /\ i = p_id p).
      { destruct (p_want p); [left; exact X| |]; destruct again; auto; destruct X as [X|X]; auto. }
      destruct Y as [Y|[-> ->]]; apply in_or_app; [right; apply in_or_app; right; exact Y|left; left; reflexivity].
  - apply expire_fields in E. destruct E as (E & _ & V). apply Same; [rewrite E; reflexivity|rewrite E; reflexivity|].
    exact (F _ _ V (fun x => x)).
  - apply Same; [|reflexivity|intros X; cbn in X; intuition discriminate].
    unfold unfetched. conn_simpl. unfold firsts. rewrite flat_map_app. cbn [flat_map snd app]. rewrite app_nil_r. reflexivity.
  - apply iter_fields in IC. destruct IC as (E & _ & V). apply Same; [rewrite E; reflexivity|rewrite E; reflexivity|].
    exact (F _ _ V (fun x => x)).
  - apply visit_fields in VC. destruct VC as (E & _ & V). apply Same; [rewrite E; reflexivity|rewrite E; reflexivity|].
    exact (F _ _ V (fun x => x)).
  - apply spawn_callback_fields in SP. destruct SP as [-> X]. apply Same; [reflexivity|reflexivity|].
    intros Y. apply in_app_iff in Y. destruct X as [->|(n & r & ->)]; cbn in Y; intuition discriminate.
Qed.
Lemma run_unfetched ls : forall s s' ev i, run s ls = Some (s', ev) -> (i < c_next s)%nat -> ~ In i (unfetched s) ->
  (i < c_next s')%nat /\ ~ In i (unfetched s') /\ ~ In (EvGot i) ev.
Proof.
  induction ls as [|l ls IH]; intros s s' ev i R L U; cbn [run] in R.
  - injection R as <- <-. auto.
  - destruct (step s l) as [[s1 e1]|] eqn:S; [|discriminate]. destruct (run s1 ls) as [[s2 e2]|] eqn:R2; [|discriminate].
    injection R as <- <-. destruct (step_unfetched _ _ _ _ _ S L U) as (L1 & U1 & G1).
    destruct (IH _ _ _ _ R2 L1 U1) as (L2 & U2 & G2). split; [exact L2|]. split; [exact U2|].
    intros X. apply in_app_iff in X. tauto.
Qed.

(** ** A wait on a channel that was not there *)
Definition deaf (i : nat) (j : job) : Prop :=
  j_pc j = IInfo /\ j_req j = Some i /\ j_holds j = false /\ j_ans j = None.
Lemma hear_deaf id i j e : deaf i j -> e <> EvGot i -> deaf i (hear id j e).
Proof.
  intros (P & Q & H & A) NE.
  destruct e as [| |k b| | |k| |k m|k| | | | | | | |b r|]; cbn [hear]; try (repeat split; assumption).
  - destruct (own_request j k); repeat split; assumption.
  - destruct (own_request j k) eqn:O; [|repeat split; assumption]. apply own_request_eq in O. congruence.
  - rewrite H, andb_false_r. repeat split; assumption.
  - rewrite H, andb_false_r. repeat split; assumption.
  - destruct r; try (repeat split; assumption). destruct (id =? Z.of_N (b2N b))%Z; [|repeat split; assumption].
    cbn [istep i_pc i_node i_chan i_fresh]. rewrite P. destruct (j_chan j) as [c|]; cbn; repeat split; assumption.
Qed.
Lemma hear_all_deaf id i ev : forall j, deaf i j -> ~ In (EvGot i) ev -> deaf i (fold_left (hear id) ev j).
Proof.
  induction ev as [|e ev IH]; intros j D N; [exact D|]. cbn [fold_left]. apply IH; [|intros X; apply N; right; exact X].
  apply hear_deaf; [exact D|]. intros ->. apply N. left. reflexivity.
Qed.

Record stuck (w : whole) (id : Z) (i : nat) : Prop := mkStuck {
  sk_job : exists j, zlookup id (w_jobs w) = Some j /\ deaf i j;
  sk_node : exists n, zlookup id (c_nodes (y_ctl (w_sys w))) = Some n /\ n_info n = None;
  sk_disc : c_disc (y_ctl (w_sys w)) = DcDone;
  sk_ctl : cinv (y_ctl (w_sys w));
  sk_next : (i < c_next (y_conn (w_sys w)))%nat;
  sk_gone : ~ In i (unfetched (y_conn (w_sys w))) }.

Lemma stuck_step w id i l w' ev o : stuck w id i -> wstep w l = Some (Ok (w', ev, o)) -> stuck w' id i.
Proof.
  intros [(j & J & D) (n & N & NI) SD SC SN SG] H. destruct (wstep_yrun _ _ _ _ _ H) as [yls YR].
  destruct (yrun_spec _ _ _ _ _ YR) as [CR (cls & CC & _)].
  destruct (run_unfetched _ _ _ _ _ CR SN SG) as (SN' & SG' & NG).
  destruct (discovery_over _ _ _ _ SC SD CC) as (SD' & KN & NI').
  pose proof (cinv_runs _ _ SC _ _ CC) as SC'.
  destruct (wstep_job _ _ _ _ _ H) as [(yl & -> & PL & YS & WJ)|(id' & j' & n' & il & st & io & L & J' & N' & JL & IS & YR' & WJ)].
  - split; try assumption.
    + rewrite WJ. exists (fold_left (hear id) ev j). split; [|apply hear_all_deaf; assumption].
      assert (ST : forall o jobs, identifies o = [] -> started o jobs = jobs).
      { clear. unfold started. induction o as [|x o IH]; intros jobs E; [reflexivity|]. cbn [fold_left].
        destruct x; try (apply IH; exact E). discriminate. }
      rewrite ST by exact NI'. unfold hears. rewrite (zlookup_map (fun i j => fold_left (hear i) ev j)), J. reflexivity.
    + destruct (plain_nodes _ _ _ _ _ YS PL) as [PN _].
      assert (K : knows (y_ctl (w_sys w')) id) by (apply KN; unfold knows; apply zlookup_key; congruence).
      unfold knows in K. apply zlookup_key in K. destruct (zlookup id (c_nodes (y_ctl (w_sys w')))) as [n'|] eqn:N'; [|congruence].
      exists n'. split; [reflexivity|]. destruct (PN _ _ N') as [(n0 & N0 & S)|[N0 _]]; [|congruence].
      rewrite N in N0. injection N0 as <-. rewrite <- NI. destruct S as (mb & mf & ->). reflexivity.
  - assert (NE : id <> id').
    { intros <-. rewrite J in J'. injection J' as <-. destruct D as (P & _ & _ & A). rewrite P in IS.
      destruct L as [->|[->| ->]]; cbn [job_label] in JL.
      - destruct (j_busy j); [discriminate|]. injection JL as <-. discriminate.
      - injection JL as <-. discriminate.
      - rewrite A in JL. discriminate. }
    split; try assumption.
    + rewrite WJ. exists j. split; [|exact D]. rewrite zlookup_set. apply Z.eqb_neq in NE. rewrite NE. exact J.
    + exists n. split; [|exact NI]. rewrite (effect_nodes _ _ _ _ _ _ _ YR' _ NE). exact N.
Qed.
Lemma stuck_run ls : forall w id i w' ev o, stuck w id i -> wrun w ls = Some (Ok (w', ev, o)) -> stuck w' id i.
Proof.
  induction ls as [|l ls IH]; intros w id i w' ev o S R; cbn [wrun] in R.
  - injection R as <- <- <-. exact S.
  - destruct (wstep w l) as [[[[w1 e1] o1]| |]|] eqn:E; try discriminate.
    destruct (wrun w1 ls) as [[[[w2 e2] o2]| |]|] eqn:R2; try discriminate. injection R as <- <- <-.
    exact (IH _ _ _ _ _ _ (stuck_step _ _ _ _ _ _ _ S E) R2).
Qed.

(** ** A wait on a channel that was there *)
(** Where Identify stands while it has a request of its own that is answered. *)
Definition pauses (pc : ipc) : bool :=
  match pc with IInfo | IAwait SMs | IAwait SEp | IAwaitState _ => true | _ => false end.
Lemma hear_pauses id ev : forall j, pauses (j_pc j) = true -> j_pc (fold_left (hear id) ev j) = j_pc j.
Proof.
  intros j P. destruct (hear_all_pc ev id j) as [E|(s & c & E & _)]; [exact E|]. rewrite E in P. discriminate.
Qed.
Lemma write_pauses st il st' io m r wt t er : istep st il = Some (st', io) -> commands_of io = m :: r ->
  request_kind (i_pc st') = (wt, t, er) -> wt <> NoWait -> t = true /\ pauses (i_pc st') = true.
Proof.
  intros E CO K NW.
  assert (AM : forall n pc o, after_ms n = (pc, o) -> commands_of o = []).
  { intros n pc o H. unfold after_ms in H. destruct (n_endpoints n); [destruct (n_states_ok n)|]; injection H as <- <-; reflexivity. }
  assert (AI : forall n pi pc n' o, after_info n pi = (pc, n', o) -> commands_of o = []).
  { intros n pi pc n' o H. unfold after_info in H. cbv zeta in H.
    destruct (n_ms (set_classes n _)); [|injection H as <- <- <-; reflexivity].
    destruct (after_ms _) as [pc0 o0] eqn:S. injection H as <- <- <-. exact (AM _ _ _ S). }
  assert (EV : forall l, commands_of (map OEvent l) = []) by (intros l; induction l; [reflexivity|assumption]).
  assert (X : pauses (i_pc st') = true \/ exists l, i_pc st' = IStates l).
  { unfold istep in E. cbv zeta in E. destruct il as [| |x|x|x|].
    - destruct (i_pc st) as [| | |s|s|s c|s|s|l|l| | |]; try discriminate.
      + destruct (n_info (i_node st)) as [pi|]; [|injection E as <- <-; left; reflexivity].
        destruct (after_info _ pi) as [[pc n'] o] eqn:A. injection E as <- <-. rewrite (AI _ _ _ _ _ A) in CO. discriminate.
      + destruct (n_awake (i_node st)); [injection E as <- <-; discriminate|]. destruct (i_chan st); injection E as <- <-; discriminate.
      + injection E as <- <-. discriminate.
      + destruct s; [injection E as <- <-; left; reflexivity| |injection E as <- <-; discriminate].
        destruct (n_classes (i_node st)); injection E as <- <-; [left; reflexivity|discriminate].
      + destruct l as [|c l]; [injection E as <- <-; discriminate|]. destruct (state_request (i_node st) c); injection E as <- <-; [|discriminate].
        cbn [i_pc]. destruct (state_waits c); [left; reflexivity|right; eauto].
      + injection E as <- <-. discriminate.
    - destruct (i_pc st); try discriminate. injection E as <- <-. discriminate.
    - destruct (i_pc st); try discriminate. destruct x as [m0|]; [|injection E as <- <-; discriminate].
      destruct (m_data m0) as [[a b c|a|pi]|]; try (injection E as <- <-; discriminate).
      destruct (after_info _ pi) as [[pc n'] o] eqn:A. injection E as <- <-. cbn [commands_of flat_map app] in CO.
      change (commands_of o = m :: r) in CO. rewrite (AI _ _ _ _ _ A) in CO. discriminate.
    - destruct (i_pc st) as [| | |s|s|s c|s|s|l|l| | |]; try discriminate.
      + destruct s; try discriminate; destruct x as [x|]; try (injection E as <- <-; discriminate);
          destruct x; try (injection E as <- <-; discriminate).
        destruct (after_ms _) as [pc o] eqn:A. injection E as <- <-. change (commands_of o = m :: r) in CO.
        rewrite (AM _ _ _ A) in CO. discriminate.
      + injection E as <- <-. discriminate.
    - exfalso. destruct (i_pc st); try discriminate; destruct x; try discriminate;
        try (destruct (process_event _ _) as [[[n' evs] op]| |]; injection E as <- <-; rewrite ?EV in CO; discriminate);
        destruct (i_chan st); injection E as <- <-; discriminate.
    - exfalso. destruct (i_pc st); try discriminate; destruct (alarm_window_end _) as [[n' evs]| |];
        injection E as <- <-; rewrite ?EV in CO; discriminate. }
  destruct X as [X|[l X]]; [|rewrite X in K; injection K as <- <- <-; congruence]. split; [|exact X].
  destruct (i_pc st') as [| | |s|s|s c|s|[| |]|x|x| | |]; cbn in K; injection K as <- <- <-; congruence.
Qed.
Definition hinv (tr : list event) (j : job) : Prop :=
  (forall i, j_req j = Some i -> exists data wt t er, In (EvCall i data wt t er) tr /\
    (wt <> NoWait -> t = true /\ pauses (j_pc j) = true)) /\
  (j_holds j = true -> exists i, j_req j = Some i /\ In (EvGot i) tr /\ (j_ans j = None -> ~ In Closed (replies i tr))).

Lemma in_replies_closed i tr : In Closed (replies i tr) -> In (EvClose i) tr.
Proof.
  unfold replies. intros H. apply in_flat_map in H. destruct H as (e & I & X). destruct e; try destruct X;
  match type of X with context [Nat.eqb ?a ?b] => destruct (Nat.eqb_spec a b) as [<-|_]; [|destruct X] end;
  destruct X as [X|[]]; [discriminate|exact I].
Qed.
Lemma hear_req id ev : forall j, j_req (fold_left (hear id) ev j) = j_req j.
Proof. induction ev as [|e ev IH]; intros j; [reflexivity|]. cbn [fold_left]. rewrite IH. apply hear_pc. Qed.
Lemma hear_ans id j e : (j_ans j <> None -> j_ans (hear id j e) <> None) /\ (j_holds j = true -> j_holds (hear id j e) = true).
Proof.
  destruct e as [| |k b| | |k| |k m|k| | | | | | | |b r|]; cbn [hear]; try (split; auto; fail).
  - destruct (own_request j k); split; auto.
  - destruct (own_request j k); split; auto.
  - destruct (_ && _); [|split; auto]. destruct (is_info (j_pc j)); [split; [discriminate|auto]|].
    destruct m as [m|]; [|split; auto]. destruct (m_data m) as [[]|]; split; auto; discriminate.
  - destruct (_ && _); split; auto; discriminate.
  - destruct r; try (split; auto; fail). destruct (id =? Z.of_N (b2N b))%Z; [|split; auto].
    destruct (istep _ _) as [[st o]|]; split; auto.
Qed.
Lemma hear_all_ans id ev : forall j, (j_ans j <> None -> j_ans (fold_left (hear id) ev j) <> None).
Proof. induction ev as [|e ev IH]; intros j H; [exact H|]. cbn [fold_left]. apply IH, hear_ans, H. Qed.
Lemma hear_holds id i ev : forall j, ~ In (EvGot i) ev -> j_req j = Some i ->
  j_holds (fold_left (hear id) ev j) = true -> j_holds j = true.
Proof.
  induction ev as [|e ev IH]; intros j N R H; [exact H|]. cbn [fold_left] in H. apply IH in H.
  - clear IH. destruct e as [| |k b| | |k| |k m|k| | | | | | | |b r|]; cbn [hear] in H; try exact H.
    + destruct (own_request j k); exact H.
    + destruct (own_request j k) eqn:O; [|exact H]. apply own_request_eq in O. rewrite O in R. injection R as ->.
      destruct N. left. reflexivity.
    + destruct (_ && _); [|exact H]. destruct (is_info (j_pc j)); [exact H|]. destruct m as [m|]; [|exact H].
      destruct (m_data m) as [[]|]; exact H.
    + destruct (_ && _); exact H.
    + destruct r; try exact H. destruct (id =? Z.of_N (b2N b))%Z; [|exact H]. destruct (istep _ _) as [[st o]|]; exact H.
  - intros X. apply N. right. exact X.
  - rewrite (proj1 (hear_pc id j e)). exact R.
Qed.
Lemma hear_closed id i ev : forall j, j_holds j = true -> j_req j = Some i -> In (EvClose i) ev ->
  j_ans (fold_left (hear id) ev j) <> None.
Proof.
  induction ev as [|e ev IH]; intros j H R I; [destruct I|]. cbn [fold_left]. destruct I as [->|I].
  - apply hear_all_ans. cbn [hear]. unfold own_request. rewrite R, Nat.eqb_refl, H. cbn [andb].
    unfold answered. destruct (j_ans j) eqn:A; cbn [negb]; [congruence|]. discriminate.
  - apply IH; [apply hear_ans, H| |exact I]. rewrite (proj1 (hear_pc id j e)). exact R.
Qed.

Lemma got_alone s l s' ev i : step s l = Some (s', ev) -> In (EvGot i) ev -> ev = [EvGot i] /\ In i (c_open s) /\ In i (c_fetch s).
Proof.
  intros H I. assert (G : forall P ev, Forall P ev -> (P (EvGot i) -> False) -> In (EvGot i) ev -> False).
  { intros P e0 V NP X. rewrite Forall_forall in V. exact (NP (V _ X)). }
  apply step_inv in H.
  destruct H; try (exfalso; cbn in I; intuition discriminate).
  - destruct (mem i0 (c_open s)) eqn:M; cbn in I; destruct I as [I|[]]; [|discriminate]. injection I as ->.
    split; [reflexivity|]. split; [apply mem_In; exact M|assumption].
  - exfalso. apply expire_fields in H0. destruct H0 as (_ & _ & V). exact (G _ _ V (fun x => x) I).
  - exfalso. apply iter_fields in H0. destruct H0 as (_ & _ & V). exact (G _ _ V (fun x => x) I).
  - exfalso. apply visit_fields in H3. destruct H3 as (_ & _ & V). exact (G _ _ V (fun x => x) I).
  - exfalso. apply spawn_callback_fields in H1. apply in_app_iff in I.
    destruct H1 as [_ [->|[n [rr ->]]]]; cbn in I; intuition discriminate.
Qed.
Lemma fetch_written ls s tr : run init ls = Some (s, tr) -> forall i, In i (c_fetch s) -> In i (written tr).
Proof.
  revert ls s tr. apply (run_ind_from init (fun ls s tr => forall i, In i (c_fetch s) -> In i (written tr))); [intros i []|].
  intros ls s tr l s' ev R IH H i F. rewrite written_app. apply in_or_app.
  assert (X : In i (c_fetch s) \/ In i (written ev)).
  { apply step_inv in H. destruct H as
    [M|k T|data w t er|i0 Fi|w p again q W Q|w i0 W|w i0 W|k i0 s' ev T E|k loop p T A|k n r T|stale chunk room M|M
    |o a s' ev M IC|i0 rcv b m0 pr vi lo p s' ev M Ip Ep Iv VC|b m0 pr vi lo s1 ev1 M FA SP];
    try (left; exact F).
    - left. conn_simpl_in F. unfold remove_id in F. apply filter_In in F. tauto.
    - conn_simpl_in F. destruct (p_want p); auto; destruct again; auto; destruct F as [<-|F]; auto; right; left; reflexivity.
    - apply expire_fields in E. destruct E as (E & _). rewrite E in F. left. exact F.
    - apply iter_fields in IC. destruct IC as (E & _). rewrite E in F. left. exact F.
    - apply visit_fields in VC. destruct VC as (E & _). rewrite E in F. left. exact F.
    - apply spawn_callback_fields in SP. destruct SP as [-> _]. left. exact F. }
  destruct X as [X|X]; [left; apply IH; exact X|right; exact X].
Qed.
Lemma got_ready ls s tr i : run init ls = Some (s, tr) -> In (EvGot i) tr ->
  In i (written tr) /\ exists data wt t er, In (EvCall i data wt t er) tr /\ wt <> NoWait.
Proof.
  revert ls s tr. apply (run_ind_from init (fun ls s tr => In (EvGot i) tr ->
    In i (written tr) /\ exists data wt t er, In (EvCall i data wt t er) tr /\ wt <> NoWait)); [intros []|].
  intros ls s tr l s' ev R IH H I. apply in_app_iff in I.
  assert (X : In i (written tr) /\ exists data wt t er, In (EvCall i data wt t er) tr /\ wt <> NoWait).
  { destruct I as [I|I]; [exact (IH I)|]. destruct (got_alone _ _ _ _ _ H I) as (_ & _ & F).
    split; [exact (fetch_written _ _ _ R _ F)|exact (fetch_called _ _ _ R _ F)]. }
  destruct X as (X1 & d & wt & t & er & X2 & X3). rewrite written_app. split; [apply in_or_app; left; exact X1|].
  exists d, wt, t, er. split; [apply in_or_app; left; exact X2|exact X3].
Qed.

Lemma hinv_quiet tr ev j : hinv tr j -> (forall i, ~ In (EvClose i) ev) -> hinv (tr ++ ev) j.
Proof.
  intros [A B] Q. split.
  - intros i R. destruct (A i R) as (d & wt & t & er & X & Y). exists d, wt, t, er. split; [apply in_or_app; left; exact X|exact Y].
  - intros H. destruct (B H) as (i & R & G & C). exists i. split; [exact R|]. split; [apply in_or_app; left; exact G|].
    intros N X. apply in_replies_closed, in_app_iff in X. destruct X as [X|X]; [|exact (Q _ X)]. apply (C N), in_closed, X.
Qed.

Lemma got_or_not i ev : In (EvGot i) ev \/ ~ In (EvGot i) ev.
Proof.
  induction ev as [|e ev IH]; [right; intros []|]. destruct IH as [I|I]; [left; right; exact I|].
  destruct e as [| |k b| | |k| |k m|k| | | | | | | |b r|]; try (right; intros [X|X]; [discriminate|exact (I X)]).
  destruct (Nat.eq_dec i k) as [->|N]; [left; left; reflexivity|right]. intros [X|X]; [congruence|exact (I X)].
Qed.
Lemma hinv_hear cl s l s' tr ev id j : run init cl = Some (s, tr) -> step s l = Some (s', ev) -> hinv tr j ->
  hinv (tr ++ ev) (fold_left (hear id) ev j).
Proof.
  intros R S [A B]. split; [rewrite hear_req|].
  - intros i Q. destruct (A i Q) as (d & wt & t & er & X & Y). exists d, wt, t, er. split; [apply in_or_app; left; exact X|].
    intros NW. destruct (Y NW) as [Y1 Y2]. split; [exact Y1|]. rewrite (hear_pauses id ev j Y2). exact Y2.
  - intros H. destruct (j_req j) as [i|] eqn:Q.
    + exists i. rewrite hear_req. split; [exact Q|]. destruct (got_or_not i ev) as [I|I].
      * destruct (got_alone _ _ _ _ _ S I) as (-> & O & _). split; [apply in_or_app; right; exact I|].
        intros _ X. rewrite replies_app in X. cbn in X. rewrite app_nil_r in X.
        destruct (replied_once _ _ _ i R) as [_ N]; [intros E; rewrite E in X; destruct X|contradiction].
      * apply (hear_holds _ _ _ _ I Q) in H. destruct (B H) as (i' & Q' & G & C). injection Q' as <-.
        split; [apply in_or_app; left; exact G|]. intros N X. apply in_replies_closed, in_app_iff in X. destruct X as [X|X].
        -- apply C; [|apply in_closed; exact X]. destruct (j_ans j) eqn:E; [|reflexivity]. exfalso.
           apply (hear_all_ans id ev j); [congruence|exact N].
        -- exact (hear_closed id i ev j H Q X N).
    + exfalso. assert (X : j_holds j = true).
      { clear - Q H. revert j Q H. induction ev as [|e ev IH]; intros j Q H; [exact H|]. cbn [fold_left] in H. apply IH in H.
        - destruct e as [| |k b| | |k| |k m|k| | | | | | | |b r|]; cbn [hear] in H; unfold own_request in H; rewrite ?Q in H; cbn [andb] in H; try exact H.
          destruct r; try exact H. destruct (id =? Z.of_N (b2N b))%Z; [|exact H]. destruct (istep _ _) as [[st o]|]; exact H.
        - rewrite (proj1 (hear_pc id j e)). exact Q. }
      destruct (B X) as (i & Q' & _). discriminate.
Qed.

Lemma hinv_step cl w tr l w' ev o : run init cl = Some (y_conn (w_sys w), tr) ->
  (forall id j, zlookup id (w_jobs w) = Some j -> hinv tr j) -> wstep w l = Some (Ok (w', ev, o)) ->
  forall id j, zlookup id (w_jobs w') = Some j -> hinv (tr ++ ev) j.
Proof.
  intros R W H id j J.
  destruct (wstep_job _ _ _ _ _ H) as [(yl & -> & PL & YS & WJ)|(id' & j' & n' & il & st & io & L & J' & N' & JL & IS & YR' & WJ)].
  - rewrite WJ in J. destruct (started_jobs _ _ _ _ J) as [X|[-> X]]; [|split; [discriminate|discriminate]].
    unfold hears in X. rewrite (zlookup_map (fun i j => fold_left (hear i) ev j)) in X.
    destruct (zlookup id (w_jobs w)) as [j0|] eqn:J0; [|discriminate]. injection X as <-. specialize (W _ _ J0).
    destruct yl as [yl| |yl]; cbn [ystep] in YS.
    + destruct (step (y_conn (w_sys w)) yl) as [[s e]|] eqn:S; [|discriminate].
      destruct (follow _ _ e) as [[[[a c] o3]| |]|]; try discriminate. injection YS as _ <- _. exact (hinv_hear _ _ _ _ _ _ _ _ R S W).
    + destruct (step (y_conn (w_sys w)) _) as [[s e]|] eqn:S; [|discriminate].
      destruct (cstep _ _) as [[[c o3]| |]|]; try discriminate. injection YS as _ <- _. exact (hinv_hear _ _ _ _ _ _ _ _ R S W).
    + destruct (own_step yl); [|discriminate].
      destruct (cstep _ _) as [[[c o3]| |]|]; try discriminate. injection YS as _ <- _. rewrite app_nil_r. exact W.
  - pose proof (effect_events _ _ _ _ _ _ _ YR') as EV. rewrite WJ, zlookup_set in J.
    assert (Q : forall i, ~ In (EvClose i) ev).
    { intros i. destruct (commands_of io) as [|m r]; [rewrite EV; intros []|].
      destruct (request_kind (i_pc st)) as [[wt t] er]. rewrite EV. intros [X|[X|[]]]; discriminate. }
    destruct (id =? id')%Z; [|apply hinv_quiet; [exact (W _ _ J)|exact Q]]. injection J as <-. unfold job_after.
    destruct (commands_of io) as [|m r] eqn:CO; (split; cbn [j_req j_holds]; [|discriminate]); [discriminate|].
    intros i X. injection X as <-. destruct (request_kind (i_pc st)) as [[wt t] er] eqn:K. rewrite EV. exists m, wt, t, er.
    split; [apply in_or_app; right; left; reflexivity|]. cbn [j_pc]. exact (write_pauses _ _ _ _ _ _ _ _ _ IS CO K).
Qed.
Lemma wrun_conn file ns ls w tr o : wrun (wstart file ns) ls = Some (Ok (w, tr, o)) ->
  exists cl, run init cl = Some (y_conn (w_sys w), tr).
Proof. intros R. destruct (wrun_yrun _ _ _ _ _ R) as [yl Y]. destruct (yrun_spec _ _ _ _ _ Y) as [X _]. eauto. Qed.
Lemma wrun_snoc ls l : forall w0 w tr o, wrun w0 (ls ++ [l]) = Some (Ok (w, tr, o)) ->
  exists w1 t1 o1 t2 o2, wrun w0 ls = Some (Ok (w1, t1, o1)) /\ wstep w1 l = Some (Ok (w, t2, o2)) /\ tr = t1 ++ t2 /\ o = o1 ++ o2.
Proof.
  induction ls as [|l0 ls IH]; intros w0 w tr o R; cbn [app wrun] in R.
  - destruct (wstep w0 l) as [[[[w1 e1] o1]| |]|] eqn:S; try discriminate. injection R as <- <- <-.
    exists w0, [], [], e1, o1. rewrite !app_nil_r. auto.
  - destruct (wstep w0 l0) as [[[[w1 e1] o1]| |]|] eqn:S; try discriminate.
    destruct (wrun w1 _) as [[[[w2 e2] o2]| |]|] eqn:R2; try discriminate. injection R as <- <- <-.
    destruct (IH _ _ _ _ R2) as (w3 & t1 & p1 & t2 & p2 & A & B & -> & ->). exists w3, (e1 ++ t1), (o1 ++ p1), t2, p2.
    cbn [wrun]. rewrite S, A, !app_assoc. auto.
Qed.
Lemma hinv_run file ns ls : forall w tr o, wrun (wstart file ns) ls = Some (Ok (w, tr, o)) ->
  forall id j, zlookup id (w_jobs w) = Some j -> hinv tr j.
Proof.
  induction ls as [|l ls IH] using rev_ind; intros w tr o R.
  - injection R as <- <- <-. intros id j J. discriminate.
  - apply wrun_snoc in R. destruct R as (w1 & t1 & o1 & t2 & o2 & R & S & -> & ->).
    destruct (wrun_conn _ _ _ _ _ _ R) as [cl C]. exact (hinv_step _ _ _ _ _ _ _ C (IH _ _ _ R) S).
Qed.

(** Identify runs only on nodes it was started on. *)
Lemma cstep_ident st l st' o : cstep st l = Some (Ok (st', o)) ->
  (forall id, In id (c_ident st) -> In id (c_ident st')) /\ (forall id, In (COIdentify id) o -> In id (c_ident st')).
Proof.
  intros H. apply cstep_inv in H. destruct H; try (split; [auto|intros ? []]; fail);
    try (split; [auto|intros ? [X|[]]; discriminate]; fail).
  - split; cbn [with_ident c_ident].
    + intros id I. apply in_or_app. left. exact I.
    + intros id [X|[]]. injection X as <-. apply in_or_app. right. left. reflexivity.
  - split; cbn [with_ident c_ident].
    + intros id I. apply in_or_app. left. exact I.
    + intros id [X|[]]. injection X as <-. apply in_or_app. right. left. reflexivity.
  - match goal with |- context [pushes ?x ?e] => destruct (pushes_frame e x) as (_&_&_&_&_&G&_) end. rewrite G.
    split; [auto|]. intros i X. apply in_map_iff in X. destruct X as (? & X & _). discriminate.
Qed.
Lemma crun_ident ls : forall st st' o, crun st ls = Some (Ok (st', o)) ->
  (forall id, In id (c_ident st) -> In id (c_ident st')) /\ (forall id, In (COIdentify id) o -> In id (c_ident st')).
Proof.
  induction ls as [|l ls IH]; intros st st' o R; cbn [crun] in R.
  - injection R as <- <-. split; [auto|intros id []].
  - destruct (cstep st l) as [[[s1 o1]| |]|] eqn:S; try discriminate.
    destruct (crun s1 ls) as [[[s2 o2]| |]|] eqn:R2; try discriminate. injection R as <- <-.
    destruct (cstep_ident _ _ _ _ S) as [A B]. destruct (IH _ _ _ R2) as [A2 B2]. split; [auto|].
    intros id I. apply in_app_iff in I. destruct I; auto.
Qed.
Lemma job_ident file ns ls : forall w tr o, wrun (wstart file ns) ls = Some (Ok (w, tr, o)) ->
  forall id j, zlookup id (w_jobs w) = Some j -> In id (c_ident (y_ctl (w_sys w))).
Proof.
  induction ls as [|l ls IH] using rev_ind; intros w tr o R.
  - injection R as <- <- <-. intros id j J. discriminate.
  - apply wrun_snoc in R. destruct R as (w1 & t1 & o1 & t2 & o2 & R & S & -> & ->). intros id j J.
    destruct (wstep_yrun _ _ _ _ _ S) as [yls YR]. destruct (yrun_spec _ _ _ _ _ YR) as [_ (cls & CC & _)].
    destruct (crun_ident _ _ _ _ CC) as [A B]. specialize (IH _ _ _ R).
    destruct (wstep_job _ _ _ _ _ S) as [(yl & -> & PL & YS & WJ)|(id' & j' & n' & il & st & io & L & J' & N' & JL & IS & YR' & WJ)].
    + rewrite WJ in J. destruct (started_jobs _ _ _ _ J) as [X|[-> X]]; [|exact (B _ X)].
      unfold hears in X. rewrite (zlookup_map (fun i j => fold_left (hear i) t2 j)) in X.
      destruct (zlookup id (w_jobs w1)) as [j0|] eqn:J0; [|discriminate]. exact (A _ (IH _ _ J0)).
    + rewrite WJ, zlookup_set in J. destruct (Z.eqb_spec id id') as [->|_]; [exact (A _ (IH _ _ J'))|exact (A _ (IH _ _ J))].
Qed.

Lemma wait_ends file ns ls w tr o id j : wrun (wstart file ns) ls = Some (Ok (w, tr, o)) ->
  c_crashed (y_conn (w_sys w)) = false -> zlookup id (w_jobs w) = Some j -> j_holds j = true -> j_ans j = None ->
  exists k w' ev o' j', wstep w (WSys (YConn (LTimer k))) = Some (Ok (w', ev, o')) /\
    zlookup id (w_jobs w') = Some j' /\ pauses (j_pc j') = true /\
    j_ans j' = Some (if is_info (j_pc j') then AMessage None else AReport None).
Proof.
  intros R C J H A. destruct (hinv_run _ _ _ _ _ _ R _ _ J) as [RQ HD]. destruct (HD H) as (i & Q & G & NC).
  destruct (wrun_conn _ _ _ _ _ _ R) as [cl CR]. destruct (got_ready _ _ _ _ CR G) as (WR & d & wt & t & er & CA & NW).
  destruct (RQ _ Q) as (d' & wt' & t' & er' & CA' & T). destruct (call_unique _ _ _ _ _ _ _ _ _ _ _ _ CR CA CA') as (<- & <- & <- & <-).
  destruct (T NW) as [-> PS]. destruct (timer_closes _ _ _ _ _ _ _ CR C CA NW WR (NC A)) as (k & s' & ev & ST & CL).
  assert (EV : ev = [EvClose i]).
  { revert ST CL. unfold step. rewrite C. destruct (nth_error _ k) as [i0|]; [|discriminate]. unfold expire, close_pkg.
    intros ST CL. destruct (find_pkg i0 _) as [q|] eqn:F.
    - destruct (mem i0 _); injection ST as <- <-; [destruct CL as [X|[]]; congruence|destruct CL].
    - injection ST as <- <-. destruct CL. }
  subst ev. exists k. cbn [wstep plain ystep]. rewrite ST.
  assert (FO : exists a c o', follow (y_ask (w_sys w)) (y_ctl (w_sys w)) [EvClose i] = Some (Ok (a, c, o')) /\ identifies o' = []).
  { cbn [follow react]. destruct (y_ask (w_sys w)) as [[a []]|]; cbn [hold]; try (do 3 eexists; split; [reflexivity|reflexivity]).
    destruct (c_disc (y_ctl (w_sys w))) eqn:D; try (do 3 eexists; split; [reflexivity|reflexivity]).
    destruct (i =? a)%nat; [|do 3 eexists; split; [reflexivity|reflexivity]]. cbn [cstep]. rewrite D.
    do 3 eexists; split; [reflexivity|reflexivity]. }
  destruct FO as (a & c & o' & -> & NI). do 4 eexists. split; [reflexivity|]. cbn [w_jobs].
  assert (ST' : forall o jobs, identifies o = [] -> started o jobs = jobs).
  { clear. unfold started. induction o as [|x o IH]; intros jobs E; [reflexivity|]. cbn [fold_left].
    destruct x; try (apply IH; exact E). discriminate. }
  rewrite ST' by exact NI. unfold hears.
  rewrite (zlookup_map (fun i0 j0 => fold_left (hear i0) [EvClose i] j0)), J.
  split; [reflexivity|]. cbn [fold_left hear]. unfold own_request, answered. rewrite Q, Nat.eqb_refl, H, A. cbn [andb negb].
  split; [exact PS|reflexivity].
Qed.
Lemma wait_over file ns ls w tr o id j : wrun (wstart file ns) ls = Some (Ok (w, tr, o)) ->
  c_crashed (y_conn (w_sys w)) = false -> zlookup id (w_jobs w) = Some j -> j_holds j = true -> j_ans j = None ->
  exists k w' ev o' j', wrun w [WSys (YConn (LTimer k)); WAnswer id] = Some (Ok (w', ev, o')) /\
    zlookup id (w_jobs w') = Some j' /\ (j_pc j' = IPause \/ exists l, j_pc j' = IStates l).
Proof.
  intros R C J H A. destruct (wait_ends _ _ _ _ _ _ _ _ R C J H A) as (k & w1 & e1 & o1 & j1 & S & J1 & P1 & A1).
  assert (R1 : wrun (wstart file ns) (ls ++ [WSys (YConn (LTimer k))]) = Some (Ok (w1, tr ++ e1, o ++ o1))).
  { clear - R S. revert R. generalize (wstart file ns) tr o. induction ls as [|l ls IH]; intros w0 t0 p0 R; cbn [app wrun] in *.
    - injection R as -> <- <-. rewrite S. rewrite app_nil_r, app_nil_r. reflexivity.
    - destruct (wstep w0 l) as [[[[w2 e2] o2]| |]|]; try discriminate.
      destruct (wrun w2 ls) as [[[[w3 e3] o3]| |]|] eqn:E; try discriminate. injection R as -> <- <-.
      rewrite (IH _ _ _ E), !app_assoc. reflexivity. }
  pose proof (winv_run _ _ _ _ _ _ R1) as WI. pose proof (wi_known _ _ _ WI _ _ J1) as K. unfold knows in K.
  apply zlookup_key in K. destruct (zlookup id (c_nodes (y_ctl (w_sys w1)))) as [n|] eqn:N; [|congruence]. clear K.
  pose proof (pv_id _ _ _ _ (wi_nodes _ _ _ WI _ _ N)) as ID.
  pose proof (job_ident _ _ _ _ _ _ R1 _ _ J1) as IDT.
  exists k. cbn [wrun]. rewrite S. cbn [wstep]. rewrite J1, N.
  assert (X : exists st, (exists il, job_label (WAnswer id) j1 = Some il /\
      istep (mkI (j_pc j1) n (j_chan j1) (j_fresh j1)) il = Some (st, [])) /\ i_node st = n /\
      (i_pc st = IPause \/ exists l, i_pc st = IStates l)).
  { cbn [job_label]. rewrite A1. destruct (j_pc j1) as [| | |s|s|s c|s|[| |]|x|x| | |] eqn:PC; try discriminate; cbn [is_info];
      eexists; (split; [eexists; split; [reflexivity|reflexivity]|]); (split; [reflexivity|]); cbn [i_pc]; eauto. }
  destruct X as (st & (il & -> & IS) & NN & PC). rewrite IS. unfold job_effect, job_after. cbn [commands_of events_of flat_map].
  rewrite NN. cbn [yrun ystep own_step cstep]. rewrite ID, Z.eqb_refl.
  assert (EX : existsb (Z.eqb id) (c_ident (y_ctl (w_sys w1))) = true)
    by (apply existsb_exists; exists id; split; [exact IDT|apply Z.eqb_refl]).
  rewrite EX. cbn [andb node_events]. do 4 eexists. split; [reflexivity|]. cbn [w_jobs]. rewrite zlookup_set, Z.eqb_refl.
  split; [reflexivity|]. exact PC.
Qed.
Lemma wait_over_node file ns ls w tr o b : wrun (wstart file ns) ls = Some (Ok (w, tr, o)) ->
  c_crashed (y_conn (w_sys w)) = false -> awaiting w b ->
  exists k w' ev o', wrun w [WSys (YConn (LTimer k)); WAnswer (address b)] = Some (Ok (w', ev, o')) /\ moved_on w' b.
Proof.
  intros R C (j & J & H & A). destruct (wait_over _ _ _ _ _ _ _ _ R C J H A) as (k & w' & ev & o' & j' & S & J' & P).
  exists k, w', ev, o'. split; [exact S|]. exists j'. auto.
Qed.
