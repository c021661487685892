(** Proofs about what is known about the nodes. *)
From Verif Require Import ModelBase ModelReports ModelSerial ModelCommands ModelNodes ModelList DataDevices ModelDatabase.
From Verif Require Import ModelIdentify ModelController ModelConnection ModelSystem ModelWhole.
From Verif Require Import SpecFrame SpecDecode SpecMessage SpecConnection SpecIdentify SpecController SpecNodes SpecSystem SpecWhole SpecComplete SpecKnown.
From Verif Require Import ProofBase ProofIdentify ProofController ProofSystem ProofDiscovery ProofWhole.
From Coq Require Import Lia.
Local Arguments device_new : simpl never.
Local Arguments get_mandatory : simpl never.

Lemma grows_refl n : grows n n.
Proof. split; auto. split; [|split]; auto. Qed.
Lemma grows_trans a b c : grows a b -> grows b c -> grows a c.
Proof.
  intros [A1 (A2 & A3 & A4) A5 A6 A7 A8 A9 A10] [B1 (B2 & B3 & B4) B5 B6 B7 B8 B9 B10].
  assert (I : is_set (n_info a) -> is_set (n_info b))
    by (unfold is_set; destruct (n_info a) as [x|]; [intros _; rewrite (A2 x eq_refl); discriminate|congruence]).
  assert (M : is_set (n_ms a) -> is_set (n_ms b))
    by (unfold is_set; destruct (n_ms a) as [x|]; [intros _; rewrite (A3 x eq_refl); discriminate|congruence]).
  split; try (intros; auto; fail).
  - congruence.
  - split; [|split]; intros x H; auto.
  - intros H. rewrite (B5 (I H)). auto.
  - intros H. rewrite (B6 (M H)). auto.
Qed.

(** ** Reports *)
Lemma alookup_aset {V} k x (v : V) l : alookup k (aset x v l) = if String.eqb k x then Some v else alookup k l.
Proof.
  induction l as [|[y u] l IH]; cbn [aset alookup].
  - destruct (String.eqb k x); reflexivity.
  - destruct (String.eqb_spec x y) as [->|N]; cbn [alookup].
    + destruct (String.eqb_spec k y) as [->|_]; reflexivity.
    + rewrite IH. destruct (String.eqb_spec k y) as [->|_]; [|reflexivity].
      destruct (String.eqb_spec y x) as [->|_]; [congruence|reflexivity].
Qed.
Lemma mset_keeps {V} x (v : V) m m' k : mset x v m = Ok m' -> is_set (mget k m) -> is_set (mget k m').
Proof.
  destruct m as [l|]; [|discriminate]. cbn. intros H. injection H as <-. cbn. rewrite alookup_aset.
  unfold is_set. destruct (String.eqb k x); [discriminate|auto].
Qed.
Lemma states_grow n mb mf : (forall k, is_set (mget k (n_bool n)) -> is_set (mget k mb)) ->
  (forall k, is_set (mget k (n_float n)) -> is_set (mget k mf)) -> grows n (with_states n mb mf).
Proof. intros A B. split; cbn; auto. split; [|split]; auto. Qed.
Lemma set_bool_grows n k v n' : set_bool n k v = Ok n' -> grows n n'.
Proof.
  unfold set_bool. destruct (mset k v (n_bool n)) as [m| |] eqn:E; cbn; intros H; inversion H. subst n'.
  apply states_grow; auto. intros x. exact (mset_keeps _ _ _ _ _ E).
Qed.
Lemma set_float_grows n k v n' : set_float n k v = Ok n' -> grows n n'.
Proof.
  unfold set_float. destruct (mset k v (n_float n)) as [m| |] eqn:E; cbn; intros H; inversion H. subst n'.
  apply states_grow; auto. intros x. exact (mset_keeps _ _ _ _ _ E).
Qed.
Ltac sets := repeat match goal with
  | H : context [set_bool ?a ?b ?c] |- _ =>
      let E := fresh "E" in destruct (set_bool a b c) as [? | ? |] eqn:E; cbn [bind] in H; try discriminate H; apply set_bool_grows in E
  | H : context [set_float ?a ?b ?c] |- _ =>
      let E := fresh "E" in destruct (set_float a b c) as [? | ? |] eqn:E; cbn [bind] in H; try discriminate H; apply set_float_grows in E
  end.
Lemma process_event_grows n r n' evs op : process_event n r = Ok (n', evs, op) -> grows n n'.
Proof.
  intros H. destruct r as [t| | | | | | | |]; cbn [process_event] in H.
  all: try (injection H as <- _ _; apply grows_refl).
  1: destruct (beq _ xff); [|injection H as <- _ _; apply grows_refl].
  1: destruct (beq t x00).
  all: sets; try (injection H as <- _ _); eauto using grows_trans.
Qed.
Lemma window_end_grows n n' evs : alarm_window_end n = Ok (n', evs) -> grows n n'.
Proof. unfold alarm_window_end. intros H. sets. injection H as <- _. eauto using grows_trans. Qed.

Lemma cstep_grows st l st' o id n : cstep st l = Some (Ok (st', o)) -> not_ident l ->
  zlookup id (c_nodes st) = Some n -> exists n', zlookup id (c_nodes st') = Some n' /\ grows n n'.
Proof.
  intros E NI N.
  assert (Same : forall st1, c_nodes st1 = c_nodes st -> exists n', zlookup id (c_nodes st1) = Some n' /\ grows n n')
    by (intros st1 ->; exists n; split; [exact N|apply grows_refl]).
  assert (Ev : forall st1 i a a' evs, node_events st1 i evs = Ok (st', o) -> c_nodes st1 = zset i a' (c_nodes st) ->
    zlookup i (c_nodes st) = Some a -> grows a a' -> exists n', zlookup id (c_nodes st') = Some n' /\ grows n n').
  { intros st1 i a a' evs H M L G. destruct (keyed_node_events _ _ _ _ _ H) as [-> _]. rewrite M, zlookup_set.
    destruct (Z.eqb_spec id i) as [->|_]; [exists a'; split; [reflexivity|]|exists n; split; [exact N|apply grows_refl]].
    rewrite N in L. injection L as <-. exact G. }
  destruct l as [| |m| |b r|i|i x ann| | | | |d]; cbn [cstep] in E; try destruct NI.
  - destruct (c_disc st); try discriminate. injection E as <- <-. apply Same. reflexivity.
  - destruct (c_disc st); try discriminate; injection E as <- <-; apply Same; reflexivity.
  - destruct (c_disc st); try discriminate. destruct m as [m|]; [destruct (m_data m) as [[]|]|];
      injection E as <- <-; apply Same; reflexivity.
  - destruct (c_disc st) as [| |i [|a rest]|i rest|i rest|]; try discriminate.
    + injection E as <- <-. apply Same. reflexivity.
    + destruct a; cbn [negb] in E; [|injection E as <- <-; apply Same; reflexivity].
      destruct (Nat.eqb i 0); [injection E as <- <-; apply Same; reflexivity|].
      destruct (zlookup _ _) eqn:L; injection E as <- <-; [apply Same; reflexivity|].
      cbn. rewrite zlookup_set.
      destruct (Z.eqb_spec id (Z.of_nat i + 1)) as [->|_]; [congruence|]. exists n. split; [exact N|apply grows_refl].
    + injection E as <- <-. match goal with |- context [push ?x ?e] => destruct (pushes_frame [e] x) as (_ & G & _) end.
      cbn [pushes] in G. apply Same. cbn. exact G.
    + injection E as <- <-. apply Same. reflexivity.
  - destruct (zlookup (Z.of_N (b2N b)) (c_nodes st)) as [a|] eqn:L; [|injection E as <- <-; apply Same; reflexivity].
    destruct (process_event a r) as [[[a' evs] op]| |] eqn:P; cbn [bind] in E; try discriminate.
    injection E as E. apply (Ev _ _ a a' _ E); [destruct op; reflexivity|exact L|exact (process_event_grows _ _ _ _ _ P)].
  - destruct (existsb (Z.eqb i) (c_windows st)); [|discriminate].
    destruct (zlookup i (c_nodes st)) as [a|] eqn:L; [|discriminate].
    destruct (alarm_window_end a) as [[a' evs]| |] eqn:P; cbn [bind] in E; try discriminate.
    injection E as E. apply (Ev _ _ a a' _ E); [reflexivity|exact L|exact (window_end_grows _ _ _ P)].
  - destruct (c_queue st); try discriminate. injection E as <- <-. apply Same. reflexivity.
  - destruct (c_trig st), (c_deb st); try discriminate; injection E as <- <-; apply Same; reflexivity.
  - destruct (c_deb st) as [| |age|]; try discriminate. destruct (save_delay <=? age)%N; [|discriminate].
    destruct (c_file st); injection E as <- <-; apply Same; reflexivity.
  - destruct (c_deb st); try discriminate. injection E as <- <-. apply Same. reflexivity.
  - destruct (c_deb st); injection E as <- <-; apply Same; reflexivity.
Qed.
Lemma crun_grows cls : forall st st' o id n, crun st cls = Some (Ok (st', o)) -> Forall not_ident cls ->
  zlookup id (c_nodes st) = Some n -> exists n', zlookup id (c_nodes st') = Some n' /\ grows n n'.
Proof.
  induction cls as [|l cls IH]; intros st st' o id n R F N.
  - injection R as <- _. exists n. split; [exact N|apply grows_refl].
  - apply crun_cons in R. destruct R as (s1 & o1 & o2 & S & R & _). inversion F as [|? ? F1 F2]; subst.
    destruct (cstep_grows _ _ _ _ _ _ S F1 N) as (n1 & N1 & G1). destruct (IH _ _ _ _ _ R F2 N1) as (n2 & N2 & G2).
    exists n2. split; [exact N2|exact (grows_trans _ _ _ G1 G2)].
Qed.
Lemma plain_grows y l y' ev o id n : ystep y l = Some (Ok (y', ev, o)) -> plain l = true ->
  zlookup id (c_nodes (y_ctl y)) = Some n -> exists n', zlookup id (c_nodes (y_ctl y')) = Some n' /\ grows n n'.
Proof.
  intros S P. destruct (ystep_spec _ _ _ _ _ S) as [_ (cls & R & _ & O)]. apply (crun_grows cls _ _ _ _ _ R).
  apply Forall_forall. intros c I. destruct c; try exact Logic.I. destruct (O _ I eq_refl) as [X|[]]. subst l. discriminate.
Qed.

(** ** Identify *)
(** The states are being asked for, or have been. *)
Definition pc_states (pc : ipc) (n : node) : Prop :=
  match pc with
  | IEnter SSt | IFetch SSt | IWait SSt _ | ISend SSt | IStates _ | IAwaitState _ => n_states_ok n = false
  | IFinal | IDone => n_states_ok n = true
  | _ => True
  end.
Lemma after_ms_states n pc o : after_ms n = (pc, o) -> pc_states pc n.
Proof.
  unfold after_ms. destruct (n_endpoints n); [destruct (n_states_ok n) eqn:E|]; intros H; injection H as <- _; cbn; auto.
Qed.
Lemma after_info_grows n pi pc n' o : after_info n pi = (pc, n', o) -> grows n n' /\ pc_states pc n'.
Proof.
  unfold after_info. cbv zeta. intros H.
  assert (G : forall cs, grows n (set_classes n cs)) by (intros cs; split; cbn; auto; split; [|split]; auto).
  destruct (n_ms _) eqn:M; [destruct (after_ms _) as [pc0 o0] eqn:A|]; injection H as <- <- _; (split; [apply G|]).
  - exact (after_ms_states _ _ _ A).
  - exact I.
Qed.
Lemma istep_known pc n ch fr il st o : istep (mkI pc n ch fr) il = Some (st, o) -> pc_ok pc n -> pc_states pc n ->
  match il with IReport _ | IWindow => False | _ => True end ->
  grows n (i_node st) /\ pc_states (i_pc st) (i_node st) /\
  (forall m, In m (commands_of o) -> exists k, request_stage m = Some k /\ request_node m = Some (Z2b (n_id n)) /\ unknown k n).
Proof.
  intros E PC PS IL.
  assert (Nothing : forall P : list byte -> Prop, forall m, In m (commands_of []) -> P m) by (intros P m []).
  destruct il as [| |m|r|r|]; try destruct IL; cbn [istep i_pc i_node i_chan i_fresh] in E.
  - destruct pc as [| | |s|s|s c|s|s|lc|lc| | |]; try discriminate.
    + destruct (n_info n) as [pi|] eqn:NI.
      * destruct (after_info n pi) as [[pc n'] o'] eqn:A. injection E as <- <-. cbn [i_node i_pc].
        destruct (after_info_grows _ _ _ _ _ A) as [G S]. split; [exact G|]. split; [exact S|].
        assert (C : commands_of o' = []).
        { unfold after_info in A. cbv zeta in A. destruct (n_ms _); [|injection A as _ _ <-; reflexivity].
          destruct (after_ms _) as [pc0 o0] eqn:M. injection A as _ _ <-. unfold after_ms in M.
          destruct (n_endpoints _); [destruct (n_states_ok _)|]; injection M as _ <-; reflexivity. }
        rewrite C. intros m [].
      * injection E as <- <-. cbn [i_node i_pc]. split; [apply grows_refl|]. split; [exact I|].
        intros m [<-|[]]. exists 0. split; [reflexivity|]. split; [reflexivity|exact NI].
    + destruct (n_awake n); [injection E as <- <-|destruct ch; injection E as <- <-]; cbn [i_node i_pc];
        (split; [apply grows_refl|]; split; [exact PS|apply Nothing]).
    + injection E as <- <-. cbn [i_node i_pc]. split; [apply grows_refl|]. split; [exact PS|apply Nothing].
    + destruct s.
      * injection E as <- <-. cbn [i_node i_pc]. split; [apply grows_refl|]. split; [exact I|].
        intros m [<-|[]]. exists 1. split; [reflexivity|]. split; [reflexivity|]. exact (proj2 PC).
      * destruct PC as [T [M EP]]. destruct (n_classes n) as [cs|]; injection E as <- <-; cbn [i_node i_pc].
        -- split; [apply grows_refl|]. split; [exact I|].
           intros m [<-|[]]. exists 2. split; [reflexivity|]. split; [reflexivity|exact EP].
        -- split; [|split; [exact I|apply Nothing]]. split; cbn; auto. split; [|split]; cbn; auto. intros x H. congruence.
      * injection E as <- <-. cbn [i_node i_pc]. split; [apply grows_refl|]. split; [exact PS|apply Nothing].
    + destruct lc as [|c r].
      * injection E as <- <-. cbn [i_node i_pc]. split; [|split; [exact I|apply Nothing]].
        split; cbn; auto. split; [|split]; auto.
      * destruct (state_request n c) as [m|] eqn:SR; injection E as <- <-; cbn [i_node i_pc].
        -- split; [apply grows_refl|]. split; [destruct (state_waits c); exact PS|].
           intros x [<-|[]]. exists 3. unfold state_request in SR.
           destruct (cc_id c); try discriminate SR; injection SR as <-; (split; [reflexivity|]; split; [reflexivity|exact PS]).
        -- split; [apply grows_refl|]. split; [exact PS|apply Nothing].
    + injection E as <- <-. cbn [i_node i_pc]. split; [|split; [exact PS|apply Nothing]]. split; cbn; auto. split; [|split]; auto.
  - destruct pc; try discriminate. injection E as <- <-. cbn [i_node i_pc]. split; [apply grows_refl|]. split; [exact I|apply Nothing].
  - destruct pc as [| | |s|s|s c|s|s|lc|lc| | |]; try discriminate.
    assert (Fails : Some (mkI IPause n ch fr, []) = Some (st, o) -> grows n (i_node st) /\ pc_states (i_pc st) (i_node st) /\
      (forall m, In m (commands_of o) -> exists k, request_stage m = Some k /\ request_node m = Some (Z2b (n_id n)) /\ unknown k n)).
    { intros H. injection H as <- <-. cbn [i_node i_pc]. split; [apply grows_refl|]. split; [exact I|apply Nothing]. }
    destruct m as [m|]; [|exact (Fails E)]. destruct (m_data m) as [[a b r|act|pi]|]; try exact (Fails E). clear Fails.
    destruct (after_info (set_info n pi) pi) as [[pc n'] o'] eqn:A. injection E as <- <-. cbn [i_node i_pc].
    destruct (after_info_grows _ _ _ _ _ A) as [G S]. split; [|split; [exact S|]].
    + apply (grows_trans _ (set_info n pi)); [|exact G]. cbn in PC.
      split; cbn; auto; unfold is_set; try congruence. split; [|split]; cbn; auto. intros x H. congruence.
    + assert (C : commands_of o' = []).
      { unfold after_info in A. cbv zeta in A. destruct (n_ms _); [|injection A as _ _ <-; reflexivity].
        destruct (after_ms _) as [pc0 o0] eqn:M. injection A as _ _ <-. unfold after_ms in M.
        destruct (n_endpoints _); [destruct (n_states_ok _)|]; injection M as _ <-; reflexivity. }
      change (commands_of (OEvent (n_id n) :: o')) with (commands_of o'). rewrite C. intros x [].
  - assert (Fails : Some (mkI IPause n ch fr, []) = Some (st, o) -> grows n (i_node st) /\ pc_states (i_pc st) (i_node st) /\
      (forall m, In m (commands_of o) -> exists k, request_stage m = Some k /\ request_node m = Some (Z2b (n_id n)) /\ unknown k n)).
    { intros H. injection H as <- <-. cbn [i_node i_pc]. split; [apply grows_refl|]. split; [exact I|apply Nothing]. }
    destruct pc as [| | |s|s|s c|s|s|lc|lc| | |]; try discriminate.
    + destruct s; [| |discriminate].
      * destruct r as [[|m t i| | | | | | |]|]; try exact (Fails E). clear Fails.
        set (n1 := set_manufacturer n (mkMS m t i)) in *. destruct (after_ms n1) as [pc o'] eqn:A. injection E as <- <-. cbn [i_node i_pc].
        pose proof (after_ms_states _ _ _ A) as S. destruct PC as [_ PC]. cbn in PC. split; [|split; [exact S|]].
        -- unfold n1. split; cbn; auto; unfold is_set; try congruence. split; [|split]; cbn; auto. intros x H. congruence.
        -- assert (C : commands_of o' = []).
           { unfold after_ms in A. destruct (n_endpoints _); [destruct (n_states_ok _)|]; injection A as _ <-; reflexivity. }
           change (commands_of (OEvent (n_id n) :: o')) with (commands_of o'). rewrite C. intros x [].
      * destruct r as [[| |x y count| | | | | |]|]; try exact (Fails E). clear Fails.
        injection E as <- <-. cbn [i_node i_pc]. split; [|split; [exact I|apply Nothing]].
        destruct PC as [_ [_ PC]]. split; cbn; auto. split; [|split]; cbn; auto. intros z H. congruence.
    + injection E as <- <-. cbn [i_node i_pc]. split; [apply grows_refl|]. split; [exact PS|apply Nothing].
Qed.

(** ** Every run *)
Definition sinv (w : whole) : Prop := forall id j n,
  zlookup id (w_jobs w) = Some j -> zlookup id (c_nodes (y_ctl (w_sys w))) = Some n -> pc_states (j_pc j) n.
Lemma pc_states_same pc n n' : same_but_states n n' -> pc_states pc n -> pc_states pc n'.
Proof. intros (mb & mf & ->). destruct pc as [| | |s|s|s c|s|s|l|l| | |]; try destruct s; cbn; auto. Qed.
Definition asks (b : byte) (n : node) (e : event) : Prop :=
  match e with
  | EvCall _ data _ _ _ => exists k, request_stage data = Some k /\ request_node data = Some b /\ unknown k n
  | _ => True
  end.

Lemma call_events y m w t er y' ev o : yrun y [YConn (LCall m w t er)] = Some (Ok (y', ev, o)) ->
  forall i d w' t' er', In (EvCall i d w' t' er') ev -> d = m.
Proof.
  intros R. cbn [yrun ystep] in R. unfold step in R. destruct (c_crashed (y_conn y)); [discriminate|].
  cbn [follow react hold] in R. destruct (y_ask y) as [[a []]|]; cbn in R; injection R as _ <- _;
    intros i d w' t' er' H; cbn in H; intuition congruence.
Qed.

Lemma job_known ns w tr id j n l il st o y ev o' : winv ns w tr -> sinv w ->
  zlookup id (w_jobs w) = Some j -> zlookup id (c_nodes (y_ctl (w_sys w))) = Some n -> job_label l j = Some il ->
  istep (mkI (j_pc j) n (j_chan j) (j_fresh j)) il = Some (st, o) ->
  yrun (w_sys w) (job_effect id st o) = Some (Ok (y, ev, o')) ->
  sinv (mkW y (zset id (job_after w j st o) (w_jobs w))) /\
  (forall i a, zlookup i (c_nodes (y_ctl (w_sys w))) = Some a -> exists a', zlookup i (c_nodes (y_ctl y)) = Some a' /\ grows a a') /\
  Forall (asks (Z2b id) n) ev.
Proof.
  intros [IJ IP IN IK IC] SI J N JL IS R.
  destruct (job_step_ok ns tr id n j l il st o (IJ _ _ J) (IP _ _ _ J N) (IN _ _ N) JL IS) as (Q1 & Q2 & Q3 & Q4).
  assert (IL : match il with IReport _ | IWindow => False | _ => True end).
  { destruct l as [yl|i|i|i]; cbn in JL; [discriminate|destruct (j_busy j); [discriminate|]|..]; try (injection JL as <-; exact I).
    destruct (j_ans j) as [[m|r]|]; injection JL as <- || discriminate JL; exact I. }
  destruct (istep_known _ _ _ _ _ _ _ IS (IP _ _ _ J N) (SI _ _ _ J N) IL) as (G & S & Q).
  rewrite (pv_id _ _ _ _ (IN _ _ N)) in Q.
  assert (NODES : (forall i, zlookup i (c_nodes (y_ctl y)) = if (i =? id)%Z then Some (i_node st) else zlookup i (c_nodes (y_ctl (w_sys w)))) /\
    Forall (asks (Z2b id) n) ev).
  { unfold job_effect in R. destruct (commands_of o) as [|m r] eqn:CO.
    - destruct (events_of o) as [|e es].
      + destruct (ident_nodes _ _ _ _ _ _ R) as [-> X]. split; [exact X|constructor].
      + destruct (idents_nodes id (i_node st) (e :: es) _ _ _ _ R) as [-> X]. split; [exact X|constructor].
    - destruct (request_kind (i_pc st)) as [[wt t] er]. split.
      + destruct (call_effect _ _ _ _ _ _ _ _ R) as [-> _].
        destruct (Q3 _ _ eq_refl) as [-> _]. intros i. destruct (Z.eqb_spec i id) as [->|_]; [exact N|reflexivity].
      + apply Forall_forall. intros e I. destruct e; try exact Logic.I.
        pose proof (call_events _ _ _ _ _ _ _ _ R _ _ _ _ _ I) as ->. cbn [asks]. apply Q. left. reflexivity. }
  destruct NODES as [NODES EV]. split; [|split; [|exact EV]].
  - intros i j' n'. cbn [w_jobs w_sys]. rewrite NODES, zlookup_set. destruct (Z.eqb_spec i id) as [->|_]; [|apply SI].
    intros H1 H2. injection H1 as <-. injection H2 as <-. unfold job_after. destruct (commands_of o); exact S.
  - intros i a A. rewrite NODES. destruct (Z.eqb_spec i id) as [->|_]; [|exists a; split; [exact A|apply grows_refl]].
    exists (i_node st). split; [reflexivity|]. rewrite N in A. injection A as <-. exact G.
Qed.

Lemma wstep_known ns w tr l w' ev o : winv ns w tr -> sinv w -> wstep w l = Some (Ok (w', ev, o)) ->
  sinv w' /\
  (forall i a, zlookup i (c_nodes (y_ctl (w_sys w))) = Some a -> exists a', zlookup i (c_nodes (y_ctl (w_sys w'))) = Some a' /\ grows a a') /\
  forall b, identifies_node b l -> exists n, node_of (w_sys w) b = Some n /\ Forall (asks b n) ev.
Proof.
  intros W SI H. unfold wstep in H.
  assert (G : forall id, match zlookup id (w_jobs w), zlookup id (c_nodes (y_ctl (w_sys w))) with
      | Some j, Some n =>
          match job_label l j with
          | Some il =>
              match istep (mkI (j_pc j) n (j_chan j) (j_fresh j)) il with
              | Some (st, o) =>
                  match yrun (w_sys w) (job_effect id st o) with
                  | Some (Ok (y, ev, o')) =>
                      Some (Ok (mkW y (zset id (job_after w j st o) (w_jobs w)), ev, o'))
                  | Some (Fail e) => Some (Fail e)
                  | Some Panic => Some Panic
                  | None => None
                  end
              | None => None
              end
          | None => None
          end
      | _, _ => None
      end = Some (Ok (w', ev, o)) -> sinv w' /\
      (forall i a, zlookup i (c_nodes (y_ctl (w_sys w))) = Some a -> exists a', zlookup i (c_nodes (y_ctl (w_sys w'))) = Some a' /\ grows a a') /\
      forall b, id = address b -> exists n, node_of (w_sys w) b = Some n /\ Forall (asks b n) ev).
  { intros id E. destruct (zlookup id (w_jobs w)) as [j|] eqn:J; [|discriminate].
    destruct (zlookup id (c_nodes (y_ctl (w_sys w)))) as [n|] eqn:N; [|discriminate].
    destruct (job_label l j) as [il|] eqn:JL; [|discriminate]. destruct (istep _ il) as [[st io]|] eqn:IS; [|discriminate].
    destruct (yrun _ _) as [[[[y e] o']| |]|] eqn:R; try discriminate. injection E as <- <- <-.
    destruct (job_known _ _ _ _ _ _ _ _ _ _ _ _ _ W SI J N JL IS R) as (A & B & C). split; [exact A|]. split; [exact B|].
    intros b ->. exists n. rewrite Z2b_address in C. split; [exact N|exact C]. }
  destruct l as [yl|id|id|id]; try exact (G id H). clear G.
  destruct (plain yl) eqn:PL; [|discriminate].
  destruct (ystep (w_sys w) yl) as [[[[y e] o']| |]|] eqn:S; try discriminate. injection H as <- <- <-.
  split; [|split; [intros i a A; exact (plain_grows _ _ _ _ _ _ _ S PL A)|intros b []]].
  destruct (plain_nodes _ _ _ _ _ S PL) as [PN _]. destruct W as [_ _ _ IK _].
  intros id j n X N. cbn [w_jobs w_sys] in *. destruct (started_jobs _ _ _ _ X) as [Y|[-> Y]]; [|exact I].
  unfold hears in Y. rewrite (zlookup_map (fun i j => fold_left (hear i) e j)) in Y.
  destruct (zlookup id (w_jobs w)) as [j0|] eqn:J; [|discriminate]. injection Y as <-.
  assert (P0 : pc_states (j_pc j0) n).
  { destruct (PN _ _ N) as [(n0 & N0 & Q)|[N0 Q]]; [exact (pc_states_same _ _ _ Q (SI _ _ _ J N0))|].
    specialize (IK _ _ J). unfold knows in IK. apply zlookup_key in IK. contradiction. }
  destruct (hear_all_pc e id j0) as [->|(s & c & P & ->)]; [exact P0|]. rewrite P in P0. exact P0.
Qed.

Lemma wrun_known ns ls : forall w tr w' ev o, winv ns w tr -> sinv w -> wrun w ls = Some (Ok (w', ev, o)) ->
  winv ns w' (tr ++ ev) /\ sinv w' /\
  forall i a, zlookup i (c_nodes (y_ctl (w_sys w))) = Some a -> exists a', zlookup i (c_nodes (y_ctl (w_sys w'))) = Some a' /\ grows a a'.
Proof.
  induction ls as [|l ls IH]; intros w tr w' ev o W S R; cbn [wrun] in R.
  - injection R as <- <- <-. rewrite app_nil_r. split; [exact W|]. split; [exact S|]. intros i a A. exists a. split; [exact A|apply grows_refl].
  - destruct (wstep w l) as [[[[w1 e1] o1]| |]|] eqn:E; try discriminate.
    destruct (wrun w1 ls) as [[[[w2 e2] o2]| |]|] eqn:R2; try discriminate. injection R as <- <- <-.
    rewrite app_assoc. destruct (wstep_known _ _ _ _ _ _ _ W S E) as (S1 & G1 & _).
    destruct (IH _ _ _ _ _ (winv_step _ _ _ _ _ _ _ W E) S1 R2) as (W2 & S2 & G2). split; [exact W2|]. split; [exact S2|].
    intros i a A. destruct (G1 i a A) as (a1 & A1 & X1). destruct (G2 i a1 A1) as (a2 & A2 & X2).
    exists a2. split; [exact A2|exact (grows_trans _ _ _ X1 X2)].
Qed.
Lemma start_known file ns ls w tr o : wrun (wstart file ns) ls = Some (Ok (w, tr, o)) -> winv ns w tr /\ sinv w.
Proof.
  intros R. assert (S0 : sinv (wstart file ns)) by (intros id j n H; discriminate H).
  destruct (wrun_known ns _ _ [] _ _ _ (winv_start file ns) S0 R) as (A & B & _). auto.
Qed.

Lemma knowledge_grows file ns ls w tr o ls' w' tr' o' b n :
  wrun (wstart file ns) ls = Some (Ok (w, tr, o)) -> wrun w ls' = Some (Ok (w', tr', o')) ->
  node_of (w_sys w) b = Some n -> exists n', node_of (w_sys w') b = Some n' /\ grows n n'.
Proof.
  intros R R' N. destruct (start_known _ _ _ _ _ _ R) as [W S]. destruct (wrun_known ns _ _ _ _ _ _ W S R') as (_ & _ & G).
  exact (G _ _ N).
Qed.
Lemma unknown_before k n n' : grows n n' -> unknown k n' -> unknown k n.
Proof.
  intros [_ (A & B & C) _ _ D _ _ _]. destruct k as [|[|[|k]]]; cbn.
  - destruct (n_info n) as [x|]; [rewrite (A x eq_refl); discriminate|reflexivity].
  - destruct (n_ms n) as [x|]; [rewrite (B x eq_refl); discriminate|reflexivity].
  - destruct (n_endpoints n) as [x|]; [rewrite (C x eq_refl); discriminate|reflexivity].
  - destruct (n_states_ok n); [intros H; rewrite (D eq_refl) in H; discriminate|reflexivity].
Qed.
Lemma asked_is_unknown file ns ls w tr o ls' w1 tr1 o1 l w2 ev o2 b n i data wt t er :
  wrun (wstart file ns) ls = Some (Ok (w, tr, o)) -> node_of (w_sys w) b = Some n ->
  wrun w ls' = Some (Ok (w1, tr1, o1)) -> wstep w1 l = Some (Ok (w2, ev, o2)) -> identifies_node b l ->
  In (EvCall i data wt t er) ev ->
  exists k, request_stage data = Some k /\ request_node data = Some b /\ unknown k n.
Proof.
  intros R N R' E L I. destruct (start_known _ _ _ _ _ _ R) as [W S]. destruct (wrun_known ns _ _ _ _ _ _ W S R') as (W1 & S1 & G).
  destruct (G _ _ N) as (n1 & N1 & X). destruct (wstep_known _ _ _ _ _ _ _ W1 S1 E) as (_ & _ & A).
  destruct (A b L) as (m & M & F). unfold node_of in M. rewrite N1 in M. injection M as <-.
  rewrite Forall_forall in F. destruct (F _ I) as (k & K1 & K2 & K3). exists k. split; [exact K1|]. split; [exact K2|].
  exact (unknown_before _ _ _ X K3).
Qed.
Lemma returned_knows ns w tr b n k : winv ns w tr -> sinv w -> returned w b -> node_of (w_sys w) b = Some n -> ~ unknown k n.
Proof.
  intros W S (j & J & D) N U. pose proof (wi_pc _ _ _ W _ _ _ J N) as PC. pose proof (S _ _ _ J N) as PS. rewrite D in PC, PS.
  cbn in PC, PS. destruct PC as ((pi & TI & _) & M & E). destruct k as [|[|[|k]]]; cbn in U; congruence.
Qed.

(** ** Identify is started once *)
Definition past (d : disc) (id : Z) : Prop :=
  match d with
  | DcIdle | DcAsked => False
  | DcLoop i _ | DcAdded i _ | DcPushed i _ => (id <= Z.of_nat i)%Z
  | DcDone => True
  end.
Definition once (st : cst) : Prop := forall id, In id (c_ident st) -> past (c_disc st) id.
Lemma cstep_once st l st' o : cstep st l = Some (Ok (st', o)) -> once st ->
  once st' /\ incl (c_ident st) (c_ident st') /\
  forall id, In (COIdentify id) o -> ~ In id (c_ident st) /\ In id (c_ident st').
Proof.
  intros E B.
  assert (Same : forall s, c_disc s = c_disc st -> c_ident s = c_ident st -> once s /\ incl (c_ident st) (c_ident s))
    by (intros s D I; unfold once; rewrite D, I; split; [exact B|apply incl_refl]).
  assert (Move : forall s, (forall id, past (c_disc st) id -> past (c_disc s) id) -> c_ident s = c_ident st ->
    once s /\ incl (c_ident st) (c_ident s))
    by (intros s D I; unfold once; rewrite I; split; [intros id X; apply D, B, X|apply incl_refl]).
  assert (None_ : forall id, In (COIdentify id) [] -> ~ In id (c_ident st) /\ In id (c_ident st')) by (intros id []).
  assert (New : forall s i rest, (c_disc st = DcPushed i rest \/ exists a, c_disc st = DcLoop i (a :: rest)) ->
    c_disc s = DcLoop (S i) rest -> c_ident s = c_ident st ++ [(Z.of_nat i + 1)%Z] ->
    once s /\ incl (c_ident st) (c_ident s) /\
    forall id, In (COIdentify id) [COIdentify (Z.of_nat i + 1)] -> ~ In id (c_ident st) /\ In id (c_ident s)).
  { intros s i rest D D' I. assert (P : forall id, In id (c_ident st) -> (id <= Z.of_nat i)%Z).
    { intros id X. specialize (B id X). destruct D as [D|[a D]]; rewrite D in B; exact B. }
    split; [|split].
    - intros id X. rewrite I in X. rewrite D'. cbn [past]. apply in_app_or in X. destruct X as [X|[<-|[]]]; [specialize (P _ X); lia|lia].
    - rewrite I. intros id X. apply in_or_app. left. exact X.
    - intros id [X|[]]. injection X as <-. split; [intros X; specialize (P _ X); lia|]. rewrite I. apply in_or_app. right. left. reflexivity. }
  destruct (cstep_inv _ _ _ _ E) as [D|D|msg act D M|m D M|i D|i a rest D A|i rest n D A L|i rest D A L|i rest D|i rest D|b r L|l0 id n n' wd evs T L R|e q Q|t T Db|age Db A F|age Db A F|Db|age d Db|d Db].
  all: try (cbn [In]; split; [|split]; [apply Same; reflexivity|apply incl_refl|exact None_]).
  all: try (match goal with |- once ?s /\ _ /\ _ => destruct (Move s) as [M1 M2]; [intros id; rewrite D; cbn; try contradiction; try lia; auto|reflexivity|] end;
    split; [exact M1|]; split; [exact M2|exact None_]).
  - eapply New; [right; eexists; exact D|reflexivity|reflexivity].
  - match goal with |- once ?s /\ _ /\ _ => destruct (Move s) as [M1 M2] end.
    + intros id. rewrite D. cbn. auto.
    + cbn [with_disc c_ident]. destruct (pushes_frame [EDiscovered (Z.of_nat i + 1)] st) as (_&_&_&_&_&X&_). cbn [pushes] in X. exact X.
    + split; [exact M1|]. split; [exact M2|]. intros id [X|[]]. discriminate X.
  - eapply New; [left; exact D|reflexivity|reflexivity].
  - match goal with |- once ?s /\ _ /\ _ => destruct (Same s) as [M1 M2] end.
    + match goal with |- context [pushes ?x ?e] => destruct (pushes_frame e x) as (_&_&_&_&X&_) end. rewrite X. reflexivity.
    + match goal with |- context [pushes ?x ?e] => destruct (pushes_frame e x) as (_&_&_&_&_&X&_) end. rewrite X. reflexivity.
    + split; [exact M1|]. split; [exact M2|]. intros i X. apply in_map_iff in X. destruct X as (x & X & _). discriminate X.
  - destruct (Same (with_queue st q) eq_refl eq_refl) as [M1 M2]. split; [exact M1|]. split; [exact M2|]. intros i [X|[]]. discriminate X.
  - destruct (Same (with_deb st (c_trig st) DSaving) eq_refl eq_refl) as [M1 M2]. split; [exact M1|]. split; [exact M2|]. intros i [X|[]]. discriminate X.
Qed.

Lemma crun_once cls : forall st st' o, crun st cls = Some (Ok (st', o)) -> once st ->
  once st' /\ incl (c_ident st) (c_ident st') /\
  forall id, In (COIdentify id) o -> ~ In id (c_ident st) /\ In id (c_ident st').
Proof.
  induction cls as [|l cls IH]; intros st st' o R B.
  - injection R as <- <-. split; [exact B|]. split; [apply incl_refl|intros id []].
  - apply crun_cons in R. destruct R as (s1 & o1 & o2 & S & R & ->). destruct (cstep_once _ _ _ _ S B) as (B1 & I1 & N1).
    destruct (IH _ _ _ R B1) as (B2 & I2 & N2). split; [exact B2|]. split; [exact (incl_tran I1 I2)|].
    intros id X. apply in_app_or in X. destruct X as [X|X].
    + destruct (N1 id X) as [X1 X2]. split; [exact X1|exact (I2 _ X2)].
    + destruct (N2 id X) as [X1 X2]. split; [intros X3; exact (X1 (I1 _ X3))|exact X2].
Qed.
Lemma started_other o : forall jobs id, ~ In (COIdentify id) o -> zlookup id (started o jobs) = zlookup id jobs.
Proof.
  induction o as [|x o IH]; intros jobs id H; [reflexivity|]. unfold started. cbn [fold_left].
  assert (H' : ~ In (COIdentify id) o) by (intros X; apply H; right; exact X).
  destruct x as [e|e|n|i]; try exact (IH jobs id H'). unfold started in IH. rewrite (IH _ _ H'), zlookup_set.
  destruct (Z.eqb_spec id i) as [->|_]; [exfalso; apply H; left; reflexivity|reflexivity].
Qed.

Definition oinv (w : whole) : Prop := once (y_ctl (w_sys w)) /\
  forall id j, zlookup id (w_jobs w) = Some j -> In id (c_ident (y_ctl (w_sys w))).
(** A step keeps this, and an identification that has returned. *)
Lemma wstep_once w l w' ev o : wstep w l = Some (Ok (w', ev, o)) -> oinv w ->
  oinv w' /\ (forall b, returned w b -> returned w' b) /\
  (forall id, In (COIdentify id) o -> ~ In id (c_ident (y_ctl (w_sys w))) /\ In id (c_ident (y_ctl (w_sys w')))) /\
  incl (c_ident (y_ctl (w_sys w))) (c_ident (y_ctl (w_sys w'))).
Proof.
  intros H [B J0]. unfold wstep in H.
  assert (G : forall id, match zlookup id (w_jobs w), zlookup id (c_nodes (y_ctl (w_sys w))) with
      | Some j, Some n =>
          match job_label l j with
          | Some il =>
              match istep (mkI (j_pc j) n (j_chan j) (j_fresh j)) il with
              | Some (st, o) =>
                  match yrun (w_sys w) (job_effect id st o) with
                  | Some (Ok (y, ev, o')) =>
                      Some (Ok (mkW y (zset id (job_after w j st o) (w_jobs w)), ev, o'))
                  | Some (Fail e) => Some (Fail e)
                  | Some Panic => Some Panic
                  | None => None
                  end
              | None => None
              end
          | None => None
          end
      | _, _ => None
      end = Some (Ok (w', ev, o)) -> oinv w' /\ (forall b, returned w b -> returned w' b) /\
      (forall id, In (COIdentify id) o -> ~ In id (c_ident (y_ctl (w_sys w))) /\ In id (c_ident (y_ctl (w_sys w')))) /\
      incl (c_ident (y_ctl (w_sys w))) (c_ident (y_ctl (w_sys w')))).
  { intros id E. destruct (zlookup id (w_jobs w)) as [j|] eqn:J; [|discriminate].
    destruct (zlookup id (c_nodes (y_ctl (w_sys w)))) as [n|] eqn:N; [|discriminate].
    destruct (job_label l j) as [il|] eqn:JL; [|discriminate]. destruct (istep _ il) as [[st io]|] eqn:IS; [|discriminate].
    destruct (yrun _ _) as [[[[y e] o']| |]|] eqn:R; try discriminate. injection E as <- <- <-.
    destruct (yrun_spec _ _ _ _ _ R) as [_ (cls & CR & _)]. destruct (crun_once _ _ _ _ CR B) as (B1 & I1 & N1).
    split; [split; [exact B1|]|split; [|split; [exact N1|exact I1]]]; cbn [w_jobs w_sys].
    - intros i j'. rewrite zlookup_set. destruct (Z.eqb_spec i id) as [->|_]; intros X; apply I1; [exact (J0 _ _ J)|exact (J0 _ _ X)].
    - intros b (jb & JB & D). exists jb. split; [|exact D]. cbn [w_jobs]. rewrite zlookup_set.
      destruct (Z.eqb_spec (address b) id) as [X|_]; [exfalso|exact JB]. subst id. rewrite J in JB. injection JB as <-. rewrite D in IS.
      destruct l as [yl|i|i|i]; cbn in JL; [discriminate|destruct (j_busy j); [discriminate|]|..]; try (injection JL as <-; discriminate IS).
      destruct (j_ans j) as [[m|r]|]; injection JL as <- || discriminate JL; discriminate IS. }
  destruct l as [yl|id|id|id]; try exact (G id H). clear G.
  destruct (plain yl) eqn:PL; [|discriminate].
  destruct (ystep (w_sys w) yl) as [[[[y e] o']| |]|] eqn:S; try discriminate. injection H as <- <- <-.
  destruct (ystep_spec _ _ _ _ _ S) as [_ (cls & CR & _)]. destruct (crun_once _ _ _ _ CR B) as (B1 & I1 & N1).
  split; [split; [exact B1|]|split; [|split; [exact N1|exact I1]]]; cbn [w_jobs w_sys].
  - intros id j X. destruct (started_jobs _ _ _ _ X) as [Y|[-> Y]]; [|exact (proj2 (N1 _ Y))].
    unfold hears in Y. rewrite (zlookup_map (fun i j => fold_left (hear i) e j)) in Y.
    destruct (zlookup id (w_jobs w)) as [j0|] eqn:J; [|discriminate]. exact (I1 _ (J0 _ _ J)).
  - intros b (jb & JB & D). exists (fold_left (hear (address b)) e jb). split.
    + cbn [w_jobs]. rewrite started_other.
      * unfold hears. rewrite (zlookup_map (fun i j => fold_left (hear i) e j)), JB. reflexivity.
      * intros X. exact (proj1 (N1 _ X) (J0 _ _ JB)).
    + destruct (hear_all_pc e (address b) jb) as [->|(s & c & P & _)]; [exact D|congruence].
Qed.
Lemma wrun_once ls : forall w w' ev o, wrun w ls = Some (Ok (w', ev, o)) -> oinv w ->
  oinv w' /\ forall b, returned w b -> returned w' b.
Proof.
  induction ls as [|l ls IH]; intros w w' ev o R O; cbn [wrun] in R.
  - injection R as <- <- <-. split; [exact O|auto].
  - destruct (wstep w l) as [[[[w1 e1] o1]| |]|] eqn:E; try discriminate.
    destruct (wrun w1 ls) as [[[[w2 e2] o2]| |]|] eqn:R2; try discriminate. injection R as <- <- <-.
    destruct (wstep_once _ _ _ _ _ E O) as (O1 & K1 & _). destruct (IH _ _ _ _ R2 O1) as (O2 & K2).
    split; [exact O2|auto].
Qed.
Lemma oinv_start file ns : oinv (wstart file ns).
Proof.
  destruct (load_trig file ns) as (_ & _ & _ & _ & I & _). split; [|intros id j H; discriminate H].
  intros id H. change (In id (c_ident (loaded file ns))) in H. rewrite I in H. destruct H.
Qed.
Lemma returned_for_good file ns ls w tr o ls' w1 tr1 o1 b :
  wrun (wstart file ns) ls = Some (Ok (w, tr, o)) -> returned w b -> wrun w ls' = Some (Ok (w1, tr1, o1)) ->
  returned w1 b /\ forall l, identifies_node b l -> wstep w1 l = None.
Proof.
  intros R D R'. destruct (wrun_once _ _ _ _ _ R (oinv_start file ns)) as [O _].
  destruct (wrun_once _ _ _ _ _ R' O) as [_ K]. specialize (K b D). split; [exact K|].
  destruct K as (j & J & P). intros l I. destruct l as [yl|i|i|i]; [destruct I|..]; cbn in I; subst i; unfold wstep;
    rewrite J; destruct (zlookup _ (c_nodes _)) as [n|]; try reflexivity; cbn [job_label].
  - destruct (j_busy j); [reflexivity|]. rewrite P. reflexivity.
  - rewrite P. reflexivity.
  - destruct (j_ans j) as [[m|r]|]; try rewrite P; reflexivity.
Qed.
