(** Proofs about the whole program. *)
From Verif Require Import ModelBase ModelReports ModelSerial ModelCommands ModelNodes ModelList DataDevices ModelDatabase.
From Verif Require Import ModelIdentify ModelController ModelConnection ModelSystem ModelWhole.
From Verif Require Import SpecFrame SpecDecode SpecMessage SpecConnection SpecIdentify SpecController SpecNodes SpecSystem SpecWhole.
From Verif Require Import ProofBase ProofSerial ProofMessage ProofConnection ProofLink ProofReader ProofContent ProofIdentify ProofController ProofSystem ProofDiscovery.
From Coq Require Import Lia.

(** ** Every run is one of the controller on its connection *)
Lemma wstep_yrun w l w' ev o : wstep w l = Some (Ok (w', ev, o)) ->
  exists ls, yrun (w_sys w) ls = Some (Ok (w_sys w', ev, o)).
Proof.
  unfold wstep. intros H.
  assert (G : forall id, match zlookup id (w_jobs w), zlookup id (c_nodes (y_ctl (w_sys w))) with
      | Some j, Some n =>
          match job_label l j with
          | Some il =>
              match istep (mkI (j_pc j) n (j_chan j) (j_fresh j)) il with
              | Some (st, o) =>
                  match yrun (w_sys w) (job_effect id st o) with
                  | Some (Ok (y, ev, o')) =>
                      Some (Ok (mkW y (zset id (job_after w j st o) (w_jobs w)), ev, o'))
                  | Some (Fail e) => Some (Fail e)
                  | Some Panic => Some Panic
                  | None => None
                  end
              | None => None
              end
          | None => None
          end
      | _, _ => None
      end = Some (Ok (w', ev, o)) -> exists ls, yrun (w_sys w) ls = Some (Ok (w_sys w', ev, o))).
  { intros id E. destruct (zlookup id (w_jobs w)) as [j|]; [|discriminate].
    destruct (zlookup id (c_nodes (y_ctl (w_sys w)))) as [n|]; [|discriminate].
    destruct (job_label l j) as [il|]; [|discriminate]. destruct (istep _ il) as [[st io]|]; [|discriminate].
    destruct (yrun _ _) as [[[[y e] o']| |]|] eqn:R; try discriminate. injection E as <- <- <-.
    eexists. exact R. }
  destruct l as [yl|id|id|id]; try exact (G id H).
  destruct (plain yl); [|discriminate].
  destruct (ystep (w_sys w) yl) as [[[[y e] o']| |]|] eqn:S; try discriminate. injection H as <- <- <-.
  exists [yl]. cbn [yrun]. rewrite S. cbn [w_sys]. rewrite !app_nil_r. reflexivity.
Qed.
Lemma wrun_yrun ls : forall w w' ev o, wrun w ls = Some (Ok (w', ev, o)) ->
  exists yl, yrun (w_sys w) yl = Some (Ok (w_sys w', ev, o)).
Proof.
  induction ls as [|l ls IH]; intros w w' ev o H; cbn [wrun] in H.
  - injection H as <- <- <-. exists []. reflexivity.
  - destruct (wstep w l) as [[[[w1 e1] o1]| |]|] eqn:S; try discriminate.
    destruct (wrun w1 ls) as [[[[w2 e2] o2]| |]|] eqn:R; try discriminate. injection H as <- <- <-.
    destruct (wstep_yrun _ _ _ _ _ S) as [l1 Y1]. destruct (IH _ _ _ _ R) as [l2 Y2].
    exists (l1 ++ l2). exact (yrun_app _ _ _ _ _ _ _ _ _ Y1 Y2).
Qed.

(** ** From a delivery to the frame *)
Lemma deliver_answer ls s tr l s' ev i m data w t er : run init ls = Some (s, tr) -> step s l = Some (s', ev) ->
  c_crashed s' = false -> In (EvDeliver i m) ev -> Forall self_contained (frames_taken ev) ->
  In (EvCall i data w t er) tr ->
  exists f tail, In f (frames_taken ev) /\ m = message_of f /\ answered_by data er (cleared f ++ tail).
Proof.
  intros R H C I SC CA. destruct (delivery_answers _ _ _ _ _ _ _ _ R H I) as (data' & w' & t' & er' & r & d & CL & DD & M & AB & _).
  destruct (call_unique _ _ _ _ _ _ _ _ _ _ _ _ R CA CL) as (<- & _ & _ & <-).
  destruct (deliver_label _ _ _ _ _ _ H I) as (o & a & ->).
  pose proof (step_reader _ _ _ _ H C) as RC. inversion RC; subst; try discriminate; try contradiction.
  - destruct I as [I|[]]. discriminate.
  - match goal with X : decode (c_buf s) = Ok (_, d0) |- _ => rewrite DD in X; injection X as <- <- end.
    rewrite !frames_taken_app in *.
    assert (If : In f (frames_taken ev2 ++ frames_taken ev3 ++ frames_taken [EvFrame f (d_msg r); EvAck]))
      by (apply in_or_app; right; apply in_or_app; right; left; reflexivity).
    match goal with X : els (c_buf s) = f ++ ?tl |- _ => rename X into BF; exists f, tl end.
    split; [exact If|]. rewrite Forall_forall in SC. specialize (SC f If).
    destruct (c_buf s) as [e sp]. cbn [els] in BF. subst e. rewrite (decode_content f _ sp SC) in DD.
    injection DD as <- <-. split; [reflexivity|]. exact AB.
Qed.

Lemma deliver_answer_run ls : forall s tr i m data w t er, run init ls = Some (s, tr) -> c_crashed s = false ->
  In (EvDeliver i m) tr -> Forall self_contained (frames_taken tr) -> In (EvCall i data w t er) tr ->
  exists t1 t2 f tail, tr = t1 ++ t2 /\ In (EvCall i data w t er) t1 /\ In f (frames_taken t2) /\
    m = message_of f /\ answered_by data er (cleared f ++ tail).
Proof.
  induction ls as [|l ls IH] using rev_ind; intros s tr i m data w t er R C I SC CA; [injection R as _ <-; destruct I|].
  rewrite run_app in R. destruct (run init ls) as [[s1 t1]|] eqn:R1; [|discriminate].
  cbn [run] in R. destruct (step s1 l) as [[s2 e]|] eqn:S; [|discriminate]. injection R as <- <-.
  rewrite app_nil_r in *. rewrite frames_taken_app in *. apply Forall_app in SC. destruct SC as [SC1 SC2].
  assert (C1 : c_crashed s1 = false) by (unfold step in S; destruct (c_crashed s1); [discriminate|reflexivity]).
  assert (LT : In (EvCall i data w t er) t1).
  { apply in_app_or in I. destruct I as [I|I].
    - destruct (replied_once _ _ _ i R1) as [Y _].
      + intros Z. apply in_split in I. destruct I as (a & b & ->). rewrite replies_app in Z. apply app_eq_nil in Z.
        destruct Z as [_ Z]. cbn in Z. rewrite Nat.eqb_refl in Z. discriminate.
      + unfold called in Y. apply in_flat_map in Y. destruct Y as (x & Y & Z).
        destruct x as [j d' w' t' e'| | | | | | | | | | | | | | | | |]; cbn in Z; try contradiction. destruct Z as [->|[]].
        assert (R' : run init (ls ++ [l]) = Some (s2, t1 ++ e))
          by (rewrite run_app, R1; cbn [run]; rewrite S, app_nil_r; reflexivity).
        destruct (call_unique _ _ _ _ _ _ _ _ _ _ _ _ R' CA (in_or_app _ _ _ (or_introl Y))) as (-> & -> & -> & ->).
        exact Y.
    - destruct (delivery_answers _ _ _ _ _ _ _ _ R1 S I) as (data' & w' & t' & er' & r & d & CL & _).
      assert (R' : run init (ls ++ [l]) = Some (s2, t1 ++ e))
        by (rewrite run_app, R1; cbn [run]; rewrite S, app_nil_r; reflexivity).
      destruct (call_unique _ _ _ _ _ _ _ _ _ _ _ _ R' CA (in_or_app _ _ _ (or_introl CL))) as (-> & -> & -> & ->).
      exact CL. }
  apply in_app_or in I. destruct I as [I|I].
  - destruct (IH _ _ _ _ _ _ _ _ eq_refl C1 I SC1 LT) as (u1 & u2 & f & tail & -> & A & F & X).
    exists u1, (u2 ++ e), f, tail. split; [symmetry; apply app_assoc|]. split; [exact A|]. split; [|exact X].
    rewrite frames_taken_app. apply in_or_app. left. exact F.
  - destruct (deliver_answer _ _ _ _ _ _ _ _ _ _ _ _ R1 S C I SC2 LT) as (f & tail & F & X).
    exists t1, e, f, tail. auto.
Qed.

(** ** What other steps do to a node *)
Lemma link_new id : link_node (new_node id) = new_node id.
Proof. reflexivity. Qed.
Definition not_ident (l : clabel) : Prop := match l with CIdent _ _ _ => False | _ => True end.
Lemma cstep_nodes st l st' o : cstep st l = Some (Ok (st', o)) -> not_ident l ->
  forall id n', zlookup id (c_nodes st') = Some n' ->
    (exists n, zlookup id (c_nodes st) = Some n /\ same_but_states n n') \/
    zlookup id (c_nodes st) = None /\ n' = new_node id.
Proof.
  intros E NI.
  assert (Same : forall st1, c_nodes st1 = c_nodes st -> forall id n', zlookup id (c_nodes st1) = Some n' ->
    (exists n, zlookup id (c_nodes st) = Some n /\ same_but_states n n') \/ zlookup id (c_nodes st) = None /\ n' = new_node id).
  { intros st1 -> id n' H. left. exists n'. split; [exact H|apply same_refl]. }
  assert (Ev : forall st1 id n n' evs, node_events st1 id evs = Ok (st', o) -> c_nodes st1 = zset id n' (c_nodes st) ->
    zlookup id (c_nodes st) = Some n -> same_but_states n n' -> forall i m, zlookup i (c_nodes st') = Some m ->
    (exists n, zlookup i (c_nodes st) = Some n /\ same_but_states n m) \/ zlookup i (c_nodes st) = None /\ m = new_node i).
  { intros st1 id n n' evs H N L S i m. destruct (keyed_node_events _ _ _ _ _ H) as [-> _]. rewrite N, zlookup_set.
    destruct (Z.eqb_spec i id) as [->|_]; intros X; left; [injection X as <-; exists n; auto|exists m; split; [exact X|apply same_refl]]. }
  destruct l as [| |m| |b r|i|i n ann| | | | |d]; cbn [cstep] in E; try destruct NI.
  - destruct (c_disc st); try discriminate. injection E as <- <-. apply Same. reflexivity.
  - destruct (c_disc st); try discriminate; injection E as <- <-; apply Same; reflexivity.
  - destruct (c_disc st); try discriminate. destruct m as [m|]; [destruct (m_data m) as [[]|]|];
      injection E as <- <-; apply Same; reflexivity.
  - destruct (c_disc st) as [| |i [|a rest]|i rest|i rest|]; try discriminate.
    + injection E as <- <-. apply Same. reflexivity.
    + destruct a; cbn [negb] in E; [|injection E as <- <-; apply Same; reflexivity].
      destruct (Nat.eqb i 0); [injection E as <- <-; apply Same; reflexivity|].
      destruct (zlookup _ _) eqn:L; injection E as <- <-; [apply Same; reflexivity|].
      cbn. intros id n'. rewrite zlookup_set.
      destruct (Z.eqb_spec id (Z.of_nat i + 1)) as [->|_]; intros X; [right|left; exists n'; split; [exact X|apply same_refl]].
      injection X as <-. split; [exact L|reflexivity].
    + injection E as <- <-. match goal with |- context [push ?x ?e] => destruct (pushes_frame [e] x) as (_ & G & _) end.
      cbn [pushes] in G. apply Same. cbn. exact G.
    + injection E as <- <-. apply Same. reflexivity.
  - destruct (zlookup (Z.of_N (b2N b)) (c_nodes st)) as [n|] eqn:L; [|injection E as <- <-; apply Same; reflexivity].
    destruct (process_event n r) as [[[n' evs] op]| |] eqn:P; cbn [bind] in E; try discriminate.
    injection E as E. apply (Ev _ _ n n' _ E); [destruct op; reflexivity|exact L|exact (proj1 (process_event_same _ _ _ _ _ P))].
  - destruct (existsb (Z.eqb i) (c_windows st)); [|discriminate].
    destruct (zlookup i (c_nodes st)) as [n|] eqn:L; [|discriminate].
    destruct (alarm_window_end n) as [[n' evs]| |] eqn:P; cbn [bind] in E; try discriminate.
    injection E as E. apply (Ev _ _ n n' _ E); [reflexivity|exact L|exact (proj1 (window_end_same _ _ _ P))].
  - destruct (c_queue st); try discriminate. injection E as <- <-. apply Same. reflexivity.
  - destruct (c_trig st), (c_deb st); try discriminate; injection E as <- <-; apply Same; reflexivity.
  - destruct (c_deb st) as [| |age|]; try discriminate. destruct (save_delay <=? age)%N; [|discriminate].
    destruct (c_file st); injection E as <- <-; apply Same; reflexivity.
  - destruct (c_deb st); try discriminate. injection E as <- <-. apply Same. reflexivity.
  - destruct (c_deb st); injection E as <- <-; apply Same; reflexivity.
Qed.
Lemma cstep_starts st l st' o id : cstep st l = Some (Ok (st', o)) -> In (COIdentify id) o -> (1 <= id)%Z.
Proof.
  intros E I. destruct (cstep_inv _ _ _ _ E); try (destruct I as [I|[]]; try discriminate; injection I as <-; lia); try destruct I.
  apply in_map_iff in I. destruct I as (x & X & _). discriminate.
Qed.
Lemma crun_nodes cls : forall st st' o, crun st cls = Some (Ok (st', o)) -> Forall not_ident cls ->
  (forall id n', zlookup id (c_nodes st') = Some n' ->
    (exists n, zlookup id (c_nodes st) = Some n /\ same_but_states n n') \/
    zlookup id (c_nodes st) = None /\ same_but_states (new_node id) n') /\
  (forall id, In (COIdentify id) o -> (1 <= id)%Z).
Proof.
  induction cls as [|l cls IH]; intros st st' o R F.
  - injection R as <- <-. split; [|intros id []]. intros id n' H. left. exists n'. split; [exact H|apply same_refl].
  - apply crun_cons in R. destruct R as (s1 & o1 & o2 & S & R & ->). inversion F as [|? ? F1 F2]; subst.
    destruct (IH _ _ _ R F2) as [A B]. split.
    + intros id n' H. destruct (A id n' H) as [(n & N & Q)|[N Q]].
      * destruct (cstep_nodes _ _ _ _ S F1 id n N) as [(n0 & N0 & Q0)|[N0 ->]]; [left; exists n0|right]; (split; [exact N0|]); [|exact Q].
        exact (same_trans _ _ _ Q0 Q).
      * destruct (zlookup id (c_nodes st)) as [n|] eqn:L; [|right; auto]. exfalso.
        assert (K : knows s1 id) by (apply (step_known _ _ _ _ id S); unfold knows; apply zlookup_key; congruence).
        unfold knows in K. apply zlookup_key in K. contradiction.
    + intros id I. apply in_app_iff in I. destruct I as [I|I]; [exact (cstep_starts _ _ _ _ _ S I)|exact (B _ I)].
Qed.

Lemma crun_known cls : forall st st' o id, crun st cls = Some (Ok (st', o)) -> knows st id -> knows st' id.
Proof.
  induction cls as [|l cls IH]; intros st st' o id R K; [injection R as <- _; exact K|].
  apply crun_cons in R. destruct R as (s1 & o1 & o2 & S & R & _). exact (IH _ _ _ _ R (step_known _ _ _ _ _ S K)).
Qed.
Lemma crun_starts cls : forall st st' o id, cinv st -> crun st cls = Some (Ok (st', o)) -> In (COIdentify id) o -> knows st' id.
Proof.
  induction cls as [|l cls IH]; intros st st' o id C R I; [injection R as _ <-; destruct I|].
  apply crun_cons in R. destruct R as (s1 & o1 & o2 & S & R & ->). pose proof (cinv_step _ _ _ _ C S) as C1.
  apply in_app_iff in I. destruct I as [I|I]; [|exact (IH _ _ _ _ C1 R I)].
  apply (crun_known _ _ _ _ _ R). apply (ci_setup _ C1), (ci_ident _ C1).
  destruct (cstep_inv _ _ _ _ S); try (destruct I as [I|[]]; try discriminate; injection I as <-; cbn; apply in_or_app; right; left; reflexivity); try destruct I.
  apply in_map_iff in I. destruct I as (x & X & _). discriminate.
Qed.

(** ** Requests and answers of Identify *)
Definition got (tr : list event) (id : Z) (k : nat) (m : message) : Prop :=
  (1 <= id)%Z /\ exists i data w t er, In (EvCall i data w t er) tr /\ request_stage data = Some k /\
    request_node data = Some (Z2b id) /\ In (EvDeliver i (Some m)) tr.
Definition got_info (tr : list event) (id : Z) (pi : protocol_info) : Prop :=
  exists m, got tr id 0 m /\ m_data m = Some (PInfo pi).
Definition got_report (tr : list event) (id : Z) (k : nat) (r : report) : Prop :=
  exists m a b, got tr id k m /\ m_data m = Some (PCommand a b r).
Lemma got_more tr ev id k m : got tr id k m -> got (tr ++ ev) id k m.
Proof.
  intros (L & i & data & w & t & er & A & B & C & D). split; [exact L|]. exists i, data, w, t, er.
  split; [apply in_or_app; left; exact A|]. split; [exact B|]. split; [exact C|]. apply in_or_app. left. exact D.
Qed.
Lemma got_info_more tr ev id pi : got_info tr id pi -> got_info (tr ++ ev) id pi.
Proof. intros (m & A & B). exists m. split; [apply got_more; exact A|exact B]. Qed.
Lemma got_report_more tr ev id k r : got_report tr id k r -> got_report (tr ++ ev) id k r.
Proof. intros (m & a & b & A & B). exists m, a, b. split; [apply got_more; exact A|exact B]. Qed.

(** The stage of the request whose answer is awaited. *)
Definition awaits (pc : ipc) : option nat :=
  match pc with IInfo => Some 0 | IAwait SMs => Some 1 | IAwait SEp => Some 2 | _ => None end.
Definition req_ok (tr : list event) (id : Z) (j : job) : Prop :=
  forall k, awaits (j_pc j) = Some k -> exists i data w t er, j_req j = Some i /\
    In (EvCall i data w t er) tr /\ request_stage data = Some k /\ request_node data = Some (Z2b id).
Definition ans_ok (tr : list event) (j : job) : Prop :=
  match j_ans j with
  | Some (AMessage (Some m)) => exists i, j_req j = Some i /\ In (EvDeliver i (Some m)) tr
  | Some (AReport (Some r)) => exists i m a b, j_req j = Some i /\ In (EvDeliver i (Some m)) tr /\
      m_data m = Some (PCommand a b r)
  | _ => True
  end.
Definition jinv (tr : list event) (id : Z) (j : job) : Prop := (1 <= id)%Z /\ req_ok tr id j /\ ans_ok tr j.

Lemma jinv_more tr ev id j : jinv tr id j -> jinv (tr ++ ev) id j.
Proof.
  intros (A & B & C). split; [exact A|]. split.
  - intros k K. destruct (B k K) as (i & data & w & t & er & X1 & X2 & X3). exists i, data, w, t, er.
    split; [exact X1|]. split; [apply in_or_app; left; exact X2|exact X3].
  - unfold ans_ok in *. destruct (j_ans j) as [[[m|]|[r|]]|]; try exact I.
    + destruct C as (i & X & Y). exists i. split; [exact X|apply in_or_app; left; exact Y].
    + destruct C as (i & m & a & b & X & Y & Z). exists i, m, a, b. split; [exact X|]. split; [apply in_or_app; left; exact Y|exact Z].
Qed.
Lemma own_request_eq j i : own_request j i = true -> j_req j = Some i.
Proof. unfold own_request. destruct (j_req j) as [k|]; [|discriminate]. intros H. apply Nat.eqb_eq in H. congruence. Qed.

Lemma hear_pc id j e : j_req (hear id j e) = j_req j /\
  (j_pc (hear id j e) = j_pc j \/ exists s c, j_pc j = IWait s c /\ j_pc (hear id j e) = ISend s).
Proof.
  destruct e as [| |i b| | |i| |i m|i| | | | | | | |b r|]; cbn [hear]; try (split; [reflexivity|left; reflexivity]).
  - destruct (own_request j i); split; try reflexivity; left; reflexivity.
  - destruct (own_request j i); split; try reflexivity; left; reflexivity.
  - destruct (_ && _); [|split; [reflexivity|left; reflexivity]].
    destruct (is_info (j_pc j)); [split; [reflexivity|left; reflexivity]|].
    destruct m as [m|]; [|split; [reflexivity|left; reflexivity]].
    destruct (m_data m) as [[]|]; split; try reflexivity; left; reflexivity.
  - destruct (_ && _); split; try reflexivity; left; reflexivity.
  - destruct r; try (split; [reflexivity|left; reflexivity]).
    destruct (id =? Z.of_N (b2N b))%Z; [|split; [reflexivity|left; reflexivity]].
    cbn [istep i_pc i_node i_chan i_fresh]. destruct (j_pc j) as [| | |s|s|s [c|]|s|s|l|l| | |] eqn:P; try (split; [reflexivity|left; congruence]);
      destruct (j_chan j) as [c'|]; cbn; rewrite ?P; try (split; [reflexivity|left; congruence]).
    split; [reflexivity|]. destruct (c' =? c)%nat; [right; eauto|left; reflexivity].
Qed.
Lemma hear_jinv tr id j e : jinv tr id j -> jinv (tr ++ [e]) id (hear id j e).
Proof.
  intros J. pose proof (jinv_more tr [e] id j J) as (A & B & C). destruct (hear_pc id j e) as [HR HP].
  split; [exact A|]. split.
  - intros k K. rewrite HR. apply B. destruct HP as [HP|(s & c & P & HP)]; rewrite HP in K; [exact K|discriminate].
  - assert (Same : j_ans (hear id j e) = j_ans j -> ans_ok (tr ++ [e]) (hear id j e))
      by (intros E; unfold ans_ok in *; rewrite E, HR; exact C).
    destruct e as [| |i b| | |i| |i m|i| | | | | | | |b r|]; cbn [hear] in *; try (apply Same; reflexivity).
    + destruct (own_request j i); apply Same; reflexivity.
    + destruct (own_request j i); apply Same; reflexivity.
    + destruct (own_request j i && j_holds j && negb (answered j)) eqn:G; [|apply Same; reflexivity].
      apply andb_true_iff in G. destruct G as [G _]. apply andb_true_iff in G. destruct G as [G _]. apply own_request_eq in G.
      assert (L : In (EvDeliver i m) (tr ++ [EvDeliver i m])) by (apply in_or_app; right; left; reflexivity).
      destruct (is_info (j_pc j)).
      * unfold ans_ok. cbn [with_answer j_ans j_req]. destruct m as [m|]; [|exact I]. exists i. auto.
      * destruct m as [m|]; [|apply Same; reflexivity].
        destruct (m_data m) as [[a b r| |]|] eqn:D; try (apply Same; reflexivity).
        unfold ans_ok. cbn [with_answer j_ans j_req]. exists i, m, a, b. auto.
    + destruct (own_request j i && j_holds j && negb (answered j)); [|apply Same; reflexivity].
      unfold ans_ok. cbn [with_answer j_ans j_req]. destruct (is_info (j_pc j)); exact I.
    + destruct r; try (apply Same; reflexivity). destruct (id =? Z.of_N (b2N b))%Z; [|apply Same; reflexivity].
      destruct (istep _ _) as [[st o]|]; apply Same; reflexivity.
Qed.
Lemma hear_all_jinv ev : forall tr id j, jinv tr id j -> jinv (tr ++ ev) id (fold_left (hear id) ev j).
Proof.
  induction ev as [|e ev IH]; intros tr id j J; [rewrite app_nil_r; exact J|]. cbn [fold_left].
  change (e :: ev) with ([e] ++ ev). rewrite app_assoc. apply IH, hear_jinv, J.
Qed.
Lemma hear_all_pc ev : forall id j,
  j_pc (fold_left (hear id) ev j) = j_pc j \/ exists s c, j_pc j = IWait s c /\ j_pc (fold_left (hear id) ev j) = ISend s.
Proof.
  induction ev as [|e ev IH]; intros id j; [left; reflexivity|]. cbn [fold_left].
  destruct (hear_pc id j e) as [_ [P|(s & c & P & Q)]]; destruct (IH id (hear id j e)) as [P'|(s' & c' & P' & Q')].
  - left. congruence.
  - right. exists s', c'. split; [congruence|exact Q'].
  - right. exists s, c. split; [exact P|congruence].
  - congruence.
Qed.
Lemma zlookup_map {V W} (f : Z -> V -> W) m x :
  zlookup x (map (fun y => (fst y, f (fst y) (snd y))) m) = match zlookup x m with Some v => Some (f x v) | None => None end.
Proof.
  induction m as [|[k v] m IH]; [reflexivity|]. cbn [map zlookup fst snd]. destruct (Z.eqb_spec x k) as [->|_]; [reflexivity|exact IH].
Qed.
Lemma started_jobs o : forall jobs id j, zlookup id (started o jobs) = Some j ->
  zlookup id jobs = Some j \/ j = new_job /\ In (COIdentify id) o.
Proof.
  induction o as [|x o IH]; intros jobs id j H; [left; exact H|]. unfold started in H. cbn [fold_left] in H.
  destruct x as [e|e|n|i]; try (destruct (IH _ _ _ H) as [X|[X Y]]; [left; exact X|right; split; [exact X|right; exact Y]]).
  destruct (IH _ _ _ H) as [X|[X Y]]; [|right; split; [exact X|right; exact Y]].
  rewrite zlookup_set in X. destruct (Z.eqb_spec id i) as [->|_]; [|left; exact X].
  injection X as <-. right. split; [reflexivity|left; reflexivity].
Qed.

(** ** Where the data of a node comes from *)
Local Arguments device_new : simpl never.
Local Arguments get_mandatory : simpl never.
Definition product_report (ms : mspec) : report := RManufacturer (ms_manufacturer ms) (ms_type ms) (ms_id ms).
Definition no_classes (pi : protocol_info) : Prop := get_mandatory definitions (pi_generic pi) (pi_specific pi) = None.
Record prov (ns : list node) (tr : list event) (id : Z) (n : node) : Prop := mkProv {
  pv_id : n_id n = id;
  pv_info : forall pi, n_info n = Some pi -> in_file ns id (fun n0 => n_info n0 = Some pi) \/ got_info tr id pi;
  pv_ms : forall ms, n_ms n = Some ms ->
    in_file ns id (fun n0 => n_ms n0 = Some ms /\ names n0 = names n) \/
    got_report tr id 1 (product_report ms) /\
    match device_new (ms_manufacturer ms) (ms_type ms) (ms_id ms) with
    | Some d => names n = device_names d
    | None => first_names ns id (names n)
    end;
  pv_first : n_ms n = None -> first_names ns id (names n);
  pv_ep : forall eps, n_endpoints n = Some eps ->
    in_file ns id (fun n0 => exists eps0, n_endpoints n0 = Some eps0 /\ map e_id eps0 = map e_id eps) \/
    (eps = [] /\ exists pi, n_info n = Some pi /\ no_classes pi) \/
    exists x y count, got_report tr id 2 (REndpoints x y count) /\ map e_id eps = map Z.of_nat (seq 1 (N.to_nat count - 1));
  pv_done : n_identified n = true ->
    in_file ns id (fun n0 => n_identified n0 = true) \/
    (n_info n <> None /\ n_ms n <> None /\ n_endpoints n <> None) }.

Lemma prov_more ns tr ev id n : prov ns tr id n -> prov ns (tr ++ ev) id n.
Proof.
  intros [A B C D E F]. split; try assumption.
  - intros pi H. destruct (B pi H) as [X|X]; [left; exact X|right; apply got_info_more; exact X].
  - intros ms H. destruct (C ms H) as [X|[X Y]]; [left; exact X|right; split; [apply got_report_more; exact X|exact Y]].
  - intros eps H. destruct (E eps H) as [X|[X|(x & y & c & X & Y)]]; [left; exact X|right; left; exact X|].
    right. right. exists x, y, c. split; [apply got_report_more; exact X|exact Y].
Qed.
Lemma prov_same ns tr id n n' : same_but_states n n' -> prov ns tr id n -> prov ns tr id n'.
Proof. intros (mb & mf & ->) [A B C D E F]. split; cbn; assumption. Qed.
Lemma prov_new ns tr id : prov ns tr id (new_node id).
Proof. split; try reflexivity; try discriminate. intros _. right. reflexivity. Qed.

(** What is known of the node where the goroutine of Identify is. *)
Definition typed (n : node) : Prop := exists pi, n_info n = Some pi /\ (n_classes n = None -> no_classes pi).
Definition stage_ok (s : stage) (n : node) : Prop :=
  match s with
  | SMs => n_ms n = None
  | SEp => n_ms n <> None /\ n_endpoints n = None
  | SSt => n_ms n <> None /\ n_endpoints n <> None
  end.
Definition pc_ok (pc : ipc) (n : node) : Prop :=
  match pc with
  | ITop | IPause => True
  | IInfo => n_info n = None
  | IAwait SSt => False
  | IEnter s | IFetch s | IWait s _ | ISend s | IAwait s => typed n /\ stage_ok s n
  | IStates _ | IAwaitState _ | IFinal | IDone => typed n /\ stage_ok SSt n
  | ICrash => False
  end.
Lemma pc_ok_same pc n n' : same_but_states n n' -> pc_ok pc n -> pc_ok pc n'.
Proof. intros (mb & mf & ->). destruct pc as [| | |s|s|s c|s|s|l|l| | |]; try destruct s; cbn; auto. Qed.

Lemma after_ms_ok n pc o : after_ms n = (pc, o) -> typed n -> n_ms n <> None -> pc_ok pc n.
Proof.
  unfold after_ms. intros H T M. destruct (n_endpoints n) eqn:E.
  - destruct (n_states_ok n); injection H as <- <-; cbn; rewrite E; (split; [exact T|split; [exact M|discriminate]]).
  - injection H as <- <-. cbn. auto.
Qed.
Lemma after_info_ok ns tr id n pi pc n' o : after_info n pi = (pc, n', o) -> n_info n = Some pi -> prov ns tr id n ->
  prov ns tr id n' /\ pc_ok pc n'.
Proof.
  unfold after_info. cbv zeta. set (cs := get_mandatory definitions (pi_generic pi) (pi_specific pi)).
  set (m := set_classes n cs). intros H E P.
  assert (Q : prov ns tr id m) by (destruct P as [A B C D F G]; split; cbn; assumption).
  assert (T : typed m) by (exists pi; split; [exact E|intros X; exact X]).
  destruct (n_ms m) as [ms|] eqn:M.
  - destruct (after_ms m) as [pc0 o0] eqn:S. injection H as <- <- <-. split; [exact Q|].
    apply (after_ms_ok _ _ _ S T). congruence.
  - injection H as <- <- <-. split; [exact Q|]. split; [exact T|exact M].
Qed.
Lemma append_none cc l : append_classes cc l = None -> cc = None.
Proof. destruct l; [auto|discriminate]. Qed.

Ltac same_node P := destruct P as [P1 P2 P3 P4 P5 P6]; split; cbn; assumption.
Lemma job_step_ok ns tr id n j l il st o :
  jinv tr id j -> pc_ok (j_pc j) n -> prov ns tr id n -> job_label l j = Some il ->
  istep (mkI (j_pc j) n (j_chan j) (j_fresh j)) il = Some (st, o) ->
  prov ns tr id (i_node st) /\ pc_ok (i_pc st) (i_node st) /\
  (forall m r, commands_of o = m :: r -> i_node st = n /\
    (forall k, awaits (i_pc st) = Some k -> request_stage m = Some k /\ request_node m = Some (Z2b id))) /\
  (commands_of o = [] -> awaits (i_pc st) = None).
Proof.
  intros (J1 & J2 & J3) PC P JL E.
  assert (IDN : n_id n = id) by apply (pv_id _ _ _ _ P).
  assert (Quiet : forall pc n' o', commands_of o' = [] -> awaits pc = None ->
    (forall m r, commands_of o' = m :: r -> n' = n /\
      (forall k, awaits pc = Some k -> request_stage m = Some k /\ request_node m = Some (Z2b id))) /\
    (commands_of o' = [] -> awaits pc = None)).
  { intros pc n' o' E1 E2. split; [intros m r H; rewrite E1 in H; discriminate|intros _; exact E2]. }
  assert (AM : forall m pc o', after_ms m = (pc, o') -> commands_of o' = [] /\ awaits pc = None).
  { intros m pc o' H. unfold after_ms in H. destruct (n_endpoints m); [destruct (n_states_ok m)|]; injection H as <- <-; split; reflexivity. }
  assert (AI : forall m pi pc n' o', after_info m pi = (pc, n', o') -> commands_of o' = [] /\ awaits pc = None).
  { intros m pi pc n' o' H. unfold after_info in H. cbv zeta in H.
    destruct (n_ms (set_classes m _)); [|injection H as <- <- <-; split; reflexivity].
    destruct (after_ms _) as [pc0 o0] eqn:S. injection H as <- <- <-. exact (AM _ _ _ S). }
  assert (Step : il = IGo \/ il = ITimer \/ (exists m, il = IGotInfo m /\ j_ans j = Some (AMessage m)) \/
    (exists r, il = IGotReport r /\ j_ans j = Some (AReport r))).
  { destruct l as [yl|i|i|i]; cbn in JL; [discriminate|destruct (j_busy j); [discriminate|injection JL as <-; auto]|injection JL as <-; auto|].
    destruct (j_ans j) as [[m|r]|]; injection JL as <- || discriminate JL; right; right; [left; exists m|right; exists r]; auto. }
  destruct Step as [->|[->|[(m & -> & JA)|(r & -> & JA)]]]; cbn [istep i_pc i_node i_chan i_fresh] in E.
  - destruct (j_pc j) as [| | |s|s|s c|s|s|lc|lc| | |] eqn:PCJ; try discriminate.
    + destruct (n_info n) as [pi|] eqn:NI.
      * destruct (after_info n pi) as [[pc n'] o'] eqn:A. injection E as <- <-. cbn [i_node i_pc].
        destruct (after_info_ok _ _ _ _ _ _ _ _ A NI P) as [Q1 Q2]. destruct (AI _ _ _ _ _ A) as [Q3 Q4].
        split; [exact Q1|]. split; [exact Q2|]. exact (Quiet _ _ _ Q3 Q4).
      * injection E as <- <-. cbn [i_node i_pc]. split; [exact P|]. split; [exact NI|]. split; [|discriminate].
        intros m r H. injection H as <- <-. split; [reflexivity|]. intros k K. injection K as <-.
        unfold info_request, encode_serial_raw. rewrite IDN. split; reflexivity.
    + destruct (n_awake n); [injection E as <- <-|destruct (j_chan j); injection E as <- <-]; cbn [i_node i_pc];
        (split; [exact P|]; split; [exact PC|]; apply Quiet; reflexivity).
    + injection E as <- <-. cbn [i_node i_pc]. split; [exact P|]. split; [exact PC|]. apply Quiet; reflexivity.
    + destruct s.
      * injection E as <- <-. cbn [i_node i_pc]. split; [exact P|]. split; [exact PC|]. split; [|discriminate].
        intros m r H. injection H as <- <-. split; [reflexivity|]. intros k K. injection K as <-.
        unfold ms_request. rewrite IDN. split; reflexivity.
      * destruct PC as [T M]. destruct (n_classes n) as [cs|] eqn:CS.
        -- injection E as <- <-. cbn [i_node i_pc]. split; [exact P|]. split; [split; assumption|]. split; [|discriminate].
           intros m r H. injection H as <- <-. split; [reflexivity|]. intros k K. injection K as <-.
           unfold endpoints_request. rewrite IDN. split; reflexivity.
        -- injection E as <- <-. cbn [i_node i_pc]. split; [|split; [exact I|apply Quiet; reflexivity]].
           destruct T as (pi & T1 & T2). destruct P as [A B C D F G]. split; cbn; try assumption.
           ++ intros eps H. injection H as <-. right. left. split; [reflexivity|]. exists pi. auto.
           ++ intros H. destruct (G H) as [X|(X & Y & _)]; [left; exact X|right; split; [exact X|split; [exact Y|discriminate]]].
      * injection E as <- <-. cbn [i_node i_pc]. split; [exact P|]. split; [exact PC|]. apply Quiet; reflexivity.
    + destruct lc as [|c r].
      * injection E as <- <-. cbn [i_node i_pc]. split; [same_node P|]. split; [exact I|]. apply Quiet; reflexivity.
      * destruct (state_request n c) as [m|]; injection E as <- <-; cbn [i_node i_pc];
          (split; [exact P|]; split; [destruct (state_waits c); exact PC|]).
        -- split; [|discriminate]. intros m' r' _. split; [reflexivity|]. intros k K. destruct (state_waits c); discriminate.
        -- apply Quiet; [reflexivity|]. reflexivity.
    + injection E as <- <-. cbn [i_node i_pc]. destruct PC as ((pi & T1 & T2) & S1 & S2). split; [|split; [|apply Quiet; reflexivity]].
      * destruct P as [A B C D F G]. split; cbn; try assumption. intros _. right. rewrite T1. split; [discriminate|]. auto.
      * split; [exists pi; auto|]. split; assumption.
  - destruct (j_pc j); try discriminate. injection E as <- <-. cbn [i_node i_pc]. split; [exact P|]. split; [exact I|]. apply Quiet; reflexivity.
  - destruct (j_pc j) as [| | |s|s|s c|s|s|lc|lc| | |] eqn:PCJ; try discriminate.
    destruct m as [m|]; [|injection E as <- <-; cbn [i_node i_pc]; split; [exact P|]; split; [exact I|]; apply Quiet; reflexivity].
    destruct (m_data m) as [[a b r|act|pi]|] eqn:MD;
      try (injection E as <- <-; cbn [i_node i_pc]; split; [exact P|]; split; [exact I|]; apply Quiet; reflexivity).
    destruct (after_info (set_info n pi) pi) as [[pc n'] o'] eqn:A. injection E as <- <-. cbn [i_node i_pc].
    assert (G : got_info tr id pi).
    { unfold ans_ok in J3. rewrite JA in J3. destruct J3 as (i & R1 & R2).
      destruct (J2 0) as (i' & data & w & t & er & X1 & X2 & X3 & X4); [rewrite PCJ; reflexivity|].
      assert (i' = i) by congruence. subst i'. exists m. split; [|exact MD]. split; [exact J1|]. exists i, data, w, t, er. auto. }
    assert (P' : prov ns tr id (set_info n pi)).
    { destruct P as [Q1 Q2 Q3 Q4 Q5 Q6]. split; cbn; try assumption.
      - intros p H. injection H as <-. right. exact G.
      - intros eps H. destruct (Q5 eps H) as [X|[(X & q & Y & Z)|X]]; [left; exact X| |right; right; exact X].
        cbn in PC. congruence.
      - intros H. destruct (Q6 H) as [X|(_ & X)]; [left; exact X|right; split; [discriminate|exact X]]. }
    destruct (after_info_ok _ _ _ _ _ _ _ _ A eq_refl P') as [Q1 Q2]. destruct (AI _ _ _ _ _ A) as [Q3 Q4].
    split; [exact Q1|]. split; [exact Q2|]. apply Quiet; [exact Q3|exact Q4].
  - destruct (j_pc j) as [| | |s|s|s c|s|s|lc|lc| | |] eqn:PCJ; try discriminate.
    + assert (G : forall k x, r = Some x -> awaits (IAwait s) = Some k -> got_report tr id k x).
      { intros k x -> K. unfold ans_ok in J3. rewrite JA in J3. destruct J3 as (i & m & a & b & R1 & R2 & R3).
        destruct (J2 k) as (i' & data & w & t & er & X1 & X2 & X3 & X4); [rewrite PCJ; exact K|].
        assert (i' = i) by congruence. subst i'. exists m, a, b. split; [|exact R3]. split; [exact J1|]. exists i, data, w, t, er. auto. }
      destruct s; [| |discriminate].
      * destruct r as [[|m t i| | | | | | |]|];
          try (injection E as <- <-; cbn [i_node i_pc]; split; [exact P|]; split; [exact I|]; apply Quiet; reflexivity).
        specialize (G 1 _ eq_refl eq_refl).
        set (n1 := set_manufacturer n (mkMS m t i)) in *.
        destruct (after_ms n1) as [pc o'] eqn:A. injection E as <- <-. cbn [i_node i_pc].
        assert (T : typed n1).
        { destruct PC as [(pi & T1 & T2) _]. exists pi. split; [exact T1|]. unfold n1. cbn.
          destruct (device_new m t i); [|exact T2]. intros H. apply T2. exact (append_none _ _ H). }
        split; [|split; [apply (after_ms_ok _ _ _ A T); discriminate|]].
        -- destruct P as [Q1 Q2 Q3 Q4 Q5 Q6].
           assert (FN : device_new m t i = None -> first_names ns id (names n)).
           { intros D. destruct (n_ms n) as [ms|] eqn:M; [|exact (Q4 eq_refl)].
             destruct PC as [_ PC]. cbn in PC. congruence. }
           split; unfold n1; cbn; try assumption; try discriminate.
           ++ intros ms H. injection H as <-. cbn. right. split; [exact G|]. unfold names. cbn.
              destruct (device_new m t i) as [d|]; [reflexivity|exact (FN eq_refl)].
           ++ intros H. destruct (Q6 H) as [X|(X & _ & Y)]; [left; exact X|right; split; [exact X|split; [discriminate|exact Y]]].
        -- destruct (AM _ _ _ A) as [A1 A2]. apply Quiet; [exact A1|exact A2].
      * destruct r as [[| |x y count| | | | | |]|];
          try (injection E as <- <-; cbn [i_node i_pc]; split; [exact P|]; split; [exact I|]; apply Quiet; reflexivity).
        specialize (G 2 _ eq_refl eq_refl).
        injection E as <- <-. cbn [i_node i_pc]. split; [|split; [exact I|apply Quiet; reflexivity]].
        destruct P as [Q1 Q2 Q3 Q4 Q5 Q6]. split; cbn; try assumption.
        -- intros eps H. injection H as <-. right. right. exists x, y, count. split; [exact G|].
           unfold made_endpoints. rewrite map_map. reflexivity.
        -- intros H. destruct (Q6 H) as [X|(X & Y & _)]; [left; exact X|right; split; [exact X|split; [exact Y|discriminate]]].
    + injection E as <- <-. cbn [i_node i_pc]. split; [exact P|]. split; [exact PC|]. apply Quiet; reflexivity.
Qed.

(** ** Every run *)
Record winv (ns : list node) (w : whole) (tr : list event) : Prop := mkWinv {
  wi_jobs : forall id j, zlookup id (w_jobs w) = Some j -> jinv tr id j;
  wi_pc : forall id j n, zlookup id (w_jobs w) = Some j -> zlookup id (c_nodes (y_ctl (w_sys w))) = Some n -> pc_ok (j_pc j) n;
  wi_nodes : forall id n, zlookup id (c_nodes (y_ctl (w_sys w))) = Some n -> prov ns tr id n;
  wi_known : forall id j, zlookup id (w_jobs w) = Some j -> knows (y_ctl (w_sys w)) id;
  wi_ctl : cinv (y_ctl (w_sys w)) }.

Lemma plain_nodes y l y' ev o : ystep y l = Some (Ok (y', ev, o)) -> plain l = true ->
  (forall id n', zlookup id (c_nodes (y_ctl y')) = Some n' ->
    (exists n, zlookup id (c_nodes (y_ctl y)) = Some n /\ same_but_states n n') \/
    zlookup id (c_nodes (y_ctl y)) = None /\ same_but_states (new_node id) n') /\
  (forall id, In (COIdentify id) o -> (1 <= id)%Z).
Proof.
  intros S P. destruct (ystep_spec _ _ _ _ _ S) as [_ (cls & R & _ & O)]. apply (crun_nodes cls _ _ _ R).
  apply Forall_forall. intros c I. destruct c; try exact Logic.I. destruct (O _ I eq_refl) as [X|[]]. subst l. discriminate.
Qed.

Lemma idents_nodes id n es : forall y y' ev o,
  yrun y (map (fun _ : Z => YCtl (CIdent id n true)) es) = Some (Ok (y', ev, o)) ->
  ev = [] /\ forall i, zlookup i (c_nodes (y_ctl y')) =
    match es with [] => zlookup i (c_nodes (y_ctl y)) | _ => if (i =? id)%Z then Some n else zlookup i (c_nodes (y_ctl y)) end.
Proof.
  induction es as [|e es IH]; intros y y' ev o R; cbn [map yrun] in R.
  - injection R as <- <- <-. auto.
  - destruct (ystep y _) as [[[[y1 e1] o1]| |]|] eqn:S; try discriminate.
    destruct (yrun y1 _) as [[[[y2 e2] o2]| |]|] eqn:R2; try discriminate. injection R as <- <- <-.
    destruct (IH _ _ _ _ R2) as [-> N]. cbn [ystep own_step] in S.
    destruct (cstep (y_ctl y) _) as [[[c o3]| |]|] eqn:C; try discriminate. injection S as <- <- <-.
    split; [reflexivity|]. cbn [cstep] in C. destruct (_ && _); [|discriminate].
    match type of C with Some ?x = Some ?z => assert (C' : x = z) by congruence end.
    destruct (keyed_node_events _ _ _ _ _ C') as [NC _]. cbn in NC. intros i. rewrite N. cbn [y_ctl]. rewrite NC, zlookup_set.
    destruct es; [reflexivity|]. destruct (i =? id)%Z; reflexivity.
Qed.
Lemma ident_nodes id n y y' ev o :
  yrun y [YCtl (CIdent id n false)] = Some (Ok (y', ev, o)) ->
  ev = [] /\ forall i, zlookup i (c_nodes (y_ctl y')) = if (i =? id)%Z then Some n else zlookup i (c_nodes (y_ctl y)).
Proof.
  intros R. cbn [yrun ystep own_step] in R.
  destruct (cstep (y_ctl y) _) as [[[c o3]| |]|] eqn:C; try discriminate. injection R as <- <- <-.
  split; [reflexivity|]. cbn [cstep] in C. destruct (_ && _); [|discriminate].
  match type of C with Some ?x = Some ?z => assert (C' : x = z) by congruence end.
  destruct (keyed_node_events _ _ _ _ _ C') as [NC _]. cbn in NC. intros i. cbn [y_ctl]. rewrite NC. apply zlookup_set.
Qed.
Lemma call_effect y m w t er y' ev o : yrun y [YConn (LCall m w t er)] = Some (Ok (y', ev, o)) ->
  y_ctl y' = y_ctl y /\ In (EvCall (c_next (y_conn y)) m w t er) ev.
Proof.
  intros R. cbn [yrun ystep] in R. unfold step in R. destruct (c_crashed (y_conn y)); [discriminate|].
  cbn [follow react hold] in R. destruct (y_ask y) as [[a []]|]; cbn in R; injection R as <- <- <-; (split; [reflexivity|left; reflexivity]).
Qed.

Lemma winv_job ns w tr id j n l il st o y ev o' : winv ns w tr ->
  zlookup id (w_jobs w) = Some j -> zlookup id (c_nodes (y_ctl (w_sys w))) = Some n -> job_label l j = Some il ->
  istep (mkI (j_pc j) n (j_chan j) (j_fresh j)) il = Some (st, o) ->
  yrun (w_sys w) (job_effect id st o) = Some (Ok (y, ev, o')) ->
  winv ns (mkW y (zset id (job_after w j st o) (w_jobs w))) (tr ++ ev).
Proof.
  intros [IJ IP IN IK IC] J N JL IS R.
  destruct (yrun_spec _ _ _ _ _ R) as [_ (cls & CR & _)].
  destruct (job_step_ok ns tr id n j l il st o (IJ _ _ J) (IP _ _ _ J N) (IN _ _ N) JL IS) as (Q1 & Q2 & Q3 & Q4).
  assert (NODES : forall i, zlookup i (c_nodes (y_ctl y)) = if (i =? id)%Z then Some (i_node st) else zlookup i (c_nodes (y_ctl (w_sys w)))).
  { unfold job_effect in R. destruct (commands_of o) as [|m r] eqn:CO.
    - destruct (events_of o) as [|e es].
      + exact (proj2 (ident_nodes _ _ _ _ _ _ R)).
      + exact (proj2 (idents_nodes id (i_node st) (e :: es) _ _ _ _ R)).
    - destruct (request_kind (i_pc st)) as [[wt t] er]. destruct (call_effect _ _ _ _ _ _ _ _ R) as [-> _].
      destruct (Q3 _ _ eq_refl) as [-> _]. intros i. destruct (Z.eqb_spec i id) as [->|_]; [exact N|reflexivity]. }
  split; cbn [w_jobs w_sys].
  - intros i j'. rewrite zlookup_set. destruct (Z.eqb_spec i id) as [->|_]; [|intros H; apply jinv_more, IJ, H].
    intros H. injection H as <-. split; [exact (proj1 (IJ _ _ J))|]. unfold job_after, job_effect in *.
    destruct (commands_of o) as [|m r] eqn:CO.
    + split; [|exact I]. intros k K. cbn [j_pc] in K. rewrite (Q4 eq_refl) in K. discriminate.
    + split; [|exact I]. intros k K. cbn [j_pc j_req] in *. destruct (request_kind (i_pc st)) as [[wt t] er].
      destruct (call_effect _ _ _ _ _ _ _ _ R) as [_ C]. destruct (Q3 _ _ eq_refl) as [_ X]. destruct (X k K) as [X1 X2].
      exists (c_next (y_conn (w_sys w))), m, wt, t, er. split; [reflexivity|]. split; [apply in_or_app; right; exact C|]. auto.
  - intros i j' n'. rewrite NODES, zlookup_set. destruct (Z.eqb_spec i id) as [->|_]; [|apply IP].
    intros H1 H2. injection H1 as <-. injection H2 as <-. unfold job_after. destruct (commands_of o); exact Q2.
  - intros i n'. rewrite NODES. destruct (Z.eqb_spec i id) as [->|_]; intros H; apply prov_more; [injection H as <-; exact Q1|exact (IN _ _ H)].
  - intros i j'. rewrite zlookup_set. destruct (Z.eqb_spec i id) as [->|_]; intros H; apply (crun_known _ _ _ _ _ CR); [exact (IK _ _ J)|exact (IK _ _ H)].
  - exact (cinv_runs _ _ IC _ _ CR).
Qed.

Lemma winv_step ns w tr l w' ev o : winv ns w tr -> wstep w l = Some (Ok (w', ev, o)) -> winv ns w' (tr ++ ev).
Proof.
  intros W H. unfold wstep in H.
  assert (G : forall id, match zlookup id (w_jobs w), zlookup id (c_nodes (y_ctl (w_sys w))) with
      | Some j, Some n =>
          match job_label l j with
          | Some il =>
              match istep (mkI (j_pc j) n (j_chan j) (j_fresh j)) il with
              | Some (st, o) =>
                  match yrun (w_sys w) (job_effect id st o) with
                  | Some (Ok (y, ev, o')) =>
                      Some (Ok (mkW y (zset id (job_after w j st o) (w_jobs w)), ev, o'))
                  | Some (Fail e) => Some (Fail e)
                  | Some Panic => Some Panic
                  | None => None
                  end
              | None => None
              end
          | None => None
          end
      | _, _ => None
      end = Some (Ok (w', ev, o)) -> winv ns w' (tr ++ ev)).
  { intros id E. destruct (zlookup id (w_jobs w)) as [j|] eqn:J; [|discriminate].
    destruct (zlookup id (c_nodes (y_ctl (w_sys w)))) as [n|] eqn:N; [|discriminate].
    destruct (job_label l j) as [il|] eqn:JL; [|discriminate]. destruct (istep _ il) as [[st io]|] eqn:IS; [|discriminate].
    destruct (yrun _ _) as [[[[y e] o']| |]|] eqn:R; try discriminate. injection E as <- <- <-.
    exact (winv_job _ _ _ _ _ _ _ _ _ _ _ _ _ W J N JL IS R). }
  destruct l as [yl|id|id|id]; try exact (G id H). clear G.
  destruct (plain yl) eqn:PL; [|discriminate].
  destruct (ystep (w_sys w) yl) as [[[[y e] o']| |]|] eqn:S; try discriminate. injection H as <- <- <-.
  destruct (plain_nodes _ _ _ _ _ S PL) as [PN PI]. destruct W as [IJ IP IN IK IC].
  destruct (ystep_spec _ _ _ _ _ S) as [_ (cls & CR & _)].
  assert (HK : forall id j, zlookup id (started o' (hears e (w_jobs w))) = Some j -> knows (y_ctl y) id).
  { intros id j H. destruct (started_jobs _ _ _ _ H) as [X|[_ X]]; [|exact (crun_starts _ _ _ _ _ IC CR X)].
    apply (crun_known _ _ _ _ _ CR). unfold hears in X. rewrite (zlookup_map (fun i j => fold_left (hear i) e j)) in X.
    destruct (zlookup id (w_jobs w)) as [j0|] eqn:J; [exact (IK _ _ J)|discriminate]. }
  split; cbn [w_jobs w_sys].
  - intros id j H. destruct (started_jobs _ _ _ _ H) as [X|[-> X]].
    + unfold hears in X. rewrite (zlookup_map (fun i j => fold_left (hear i) e j)) in X.
      destruct (zlookup id (w_jobs w)) as [j0|] eqn:J; [|discriminate]. injection X as <-. apply hear_all_jinv, IJ, J.
    + split; [exact (PI _ X)|]. split; [intros k K; discriminate|exact I].
  - intros id j n H N. destruct (started_jobs _ _ _ _ H) as [X|[-> X]]; [|exact I].
    unfold hears in X. rewrite (zlookup_map (fun i j => fold_left (hear i) e j)) in X.
    destruct (zlookup id (w_jobs w)) as [j0|] eqn:J; [|discriminate]. injection X as <-.
    assert (P0 : pc_ok (j_pc j0) n).
    { destruct (PN _ _ N) as [(n0 & N0 & Q)|[N0 Q]]; [exact (pc_ok_same _ _ _ Q (IP _ _ _ J N0))|].
      specialize (IK _ _ J). unfold knows in IK. apply zlookup_key in IK. contradiction. }
    destruct (hear_all_pc e id j0) as [->|(s & c & P & ->)]; [exact P0|]. rewrite P in P0. exact P0.
  - intros id n' H. apply prov_more. destruct (PN _ _ H) as [(n & N & Q)|[N Q]].
    + exact (prov_same _ _ _ _ _ Q (IN _ _ N)).
    + exact (prov_same _ _ _ _ _ Q (prov_new _ _ _)).
  - exact HK.
  - exact (cinv_runs _ _ IC _ _ CR).
Qed.

Lemma load_lookup ns : forall st id n, zlookup id (c_nodes (load_nodes st ns)) = Some n ->
  zlookup id (c_nodes st) = Some n \/ exists n0, In n0 ns /\ n_id n0 = id /\ n = link_node n0.
Proof.
  induction ns as [|n0 ns IH]; intros st id n H; [left; exact H|]. cbn [load_nodes] in H.
  destruct (IH _ _ _ H) as [X|(n1 & I & X)]; [|right; exists n1; split; [right; exact I|exact X]].
  revert X. match goal with |- context [push ?x ?e] => destruct (pushes_frame [e] x) as (_&G&_) end.
  cbn [pushes] in G. rewrite G. cbn. rewrite zlookup_set.
  destruct (Z.eqb_spec id (n_id n0)) as [->|_]; [|auto]. intros X. injection X as <-. right. exists n0.
  split; [left; reflexivity|]. auto.
Qed.
Lemma prov_loaded ns n0 : In n0 ns -> prov ns [] (n_id n0) (link_node n0).
Proof.
  intros I. split; cbn.
  - reflexivity.
  - intros pi H. left. exists n0. auto.
  - intros ms H. left. exists n0. auto.
  - intros H. left. exists n0. auto.
  - destruct (n_endpoints n0) as [l|] eqn:E; [|discriminate]. intros eps H. injection H as <-. left. exists n0.
    split; [exact I|]. split; [reflexivity|]. exists l. split; [exact E|]. rewrite map_map. reflexivity.
  - intros H. left. exists n0. auto.
Qed.
Lemma winv_start file ns : winv ns (wstart file ns) [].
Proof.
  split; cbn [wstart w_jobs w_sys]; try (intros id j H; discriminate).
  - intros id n H. destruct (load_lookup _ _ _ _ H) as [X|(n0 & I & <- & ->)]; [discriminate|]. apply prov_loaded, I.
  - apply cinv_load.
Qed.
Lemma winv_run file ns ls : forall w tr o, wrun (wstart file ns) ls = Some (Ok (w, tr, o)) -> winv ns w tr.
Proof.
  assert (G : forall ls w tr w' ev o, winv ns w tr -> wrun w ls = Some (Ok (w', ev, o)) -> winv ns w' (tr ++ ev)).
  { clear. induction ls as [|l ls IH]; intros w tr w' ev o W R; cbn [wrun] in R.
    - injection R as <- <- <-. rewrite app_nil_r. exact W.
    - destruct (wstep w l) as [[[[w1 e1] o1]| |]|] eqn:S; try discriminate.
      destruct (wrun w1 ls) as [[[[w2 e2] o2]| |]|] eqn:R2; try discriminate. injection R as <- <- <-.
      rewrite app_assoc. exact (IH _ _ _ _ _ (winv_step _ _ _ _ _ _ _ W S) R2). }
  intros w tr o R. exact (G ls _ [] _ _ _ (winv_start file ns) R).
Qed.


(** ** Conclusions *)
Lemma Z2b_address b : Z2b (address b) = b.
Proof. unfold address. destruct b; reflexivity. Qed.
Lemma got_frame ls s tr b k m : run init ls = Some (s, tr) -> c_crashed s = false ->
  Forall self_contained (frames_taken tr) -> got tr (address b) k m ->
  exists f, asked_then tr k b f /\ message_of f = Some m /\
    (k <> 0 -> forall c x r, m_data m = Some (PCommand c x r) -> report_of f = [(b, r)]).
Proof.
  intros R C SC (L & i & data & w & t & er & A1 & A2 & A3 & A4). rewrite Z2b_address in A3.
  destruct (deliver_answer_run _ _ _ _ _ _ _ _ _ R C A4 SC A1) as (t1 & t2 & f & tail & -> & B1 & B2 & B3 & B4).
  exists f. split; [exists t1, t2, i, data, w, t, er; auto|]. split; [symmetry; exact B3|].
  intros K c x r MD. rewrite frames_taken_app in SC. apply Forall_app in SC. destruct SC as [_ SC].
  rewrite Forall_forall in SC. specialize (SC f B2). destruct SC as (_ & _ & S4 & _).
  unfold message_of in B3. unfold report_of. destruct (content f) as [p| |] eqn:CT; try discriminate.
  injection B3 as ->. cbn in MD. injection MD as ->. f_equal. f_equal.
  assert (B : byte_at f 3 = 4%N).
  { unfold content in CT. destruct (N.eqb_spec (byte_at f 3) 4) as [E|_]; [exact E|].
    destruct (byte_at f 3 =? 2)%N; [destruct (new_discovered_nodes _); discriminate|].
    destruct (byte_at f 3 =? 65)%N; [destruct (new_protocol_info _); discriminate|discriminate]. }
  destruct (S4 B) as (L8 & _).
  assert (X : nth 0 data x00 = x13 /\ nth 1 data x00 = b).
  { destruct data as [|d0 [|d1 data]]; try discriminate. cbn in A3. injection A3 as ->. cbn [nth]. split; [|reflexivity].
    destruct (Byte.byte_eq_dec d0 x13) as [E|E]; [exact E|exfalso]. apply K. clear - A2 E.
    destruct d0; cbn in A2; try congruence. destruct data; [congruence|discriminate]. }
  destruct X as [X0 X1]. unfold answered_by in B4. rewrite X0, X1 in B4. destruct B4 as [_ [Y|(Y & _)]]; [discriminate|].
  destruct Y as [->|Y]; [cbn in L; lia|]. rewrite nth_error_app1 in Y by (unfold cleared; rewrite clear_at_length; lia).
  unfold cleared in Y. rewrite clear_at_other in Y by lia. exact (nth_error_nth f 5 x00 Y).
Qed.

Section Facts.
  Context (file : bool) (ns : list node) (ls : list wlabel) (w : whole) (tr : list event) (o : list cobs) (b : byte) (n : node).
  Hypothesis R : wrun (wstart file ns) ls = Some (Ok (w, tr, o)).
  Hypothesis C : c_crashed (y_conn (w_sys w)) = false.
  Hypothesis SC : Forall self_contained (frames_taken tr).
  Hypothesis N : node_of (w_sys w) b = Some n.
  Let P : prov ns tr (address b) n := wi_nodes _ _ _ (winv_run _ _ _ _ _ _ R) _ _ N.
  Lemma conn_run : exists cl, run init cl = Some (y_conn (w_sys w), tr).
  Proof using R.
    destruct (wrun_yrun _ _ _ _ _ R) as [yl Y]. destruct (yrun_spec _ _ _ _ _ Y) as [X _]. eauto.
  Qed.
  Lemma frame_of k m : got tr (address b) k m -> exists f, asked_then tr k b f /\ message_of f = Some m /\
    (k <> 0 -> forall c x r, m_data m = Some (PCommand c x r) -> report_of f = [(b, r)]).
  Proof using R C SC. destruct conn_run as [cl X]. exact (got_frame _ _ _ _ _ _ X C SC). Qed.

  Lemma product_origin p : n_ms n = Some p ->
    in_file ns (address b) (fun n0 => n_ms n0 = Some p /\ names n0 = names n) \/
    told_product tr b p /\
    match device_new (ms_manufacturer p) (ms_type p) (ms_id p) with
    | Some d => names n = device_names d
    | None => first_names ns (address b) (names n)
    end.
  Proof using R C SC N.
    intros H. destruct (pv_ms _ _ _ _ P p H) as [X|[(m & x & y & G & D) X]]; [left; exact X|right; split; [|exact X]].
    destruct (frame_of _ _ G) as (f & A & _ & Q). exists f. split; [exact A|]. exact (Q ltac:(discriminate) _ _ _ D).
  Qed.
  Lemma unknown_product : n_ms n = None -> first_names ns (address b) (names n).
  Proof using R N. exact (pv_first _ _ _ _ P). Qed.
  Lemma type_origin pi : n_info n = Some pi -> in_file ns (address b) (fun n0 => n_info n0 = Some pi) \/ told_type tr b pi.
  Proof using R C SC N.
    intros H. destruct (pv_info _ _ _ _ P pi H) as [X|(m & G & D)]; [left; exact X|right].
    destruct (frame_of _ _ G) as (f & A & M & _). exists f. split; [exact A|]. unfold info_of. unfold message_of in M.
    destruct (content f); try discriminate. injection M as <-. cbn in D. injection D as ->. reflexivity.
  Qed.
  Lemma endpoints_origin eps : n_endpoints n = Some eps ->
    in_file ns (address b) (fun n0 => exists eps0, n_endpoints n0 = Some eps0 /\ map e_id eps0 = map e_id eps) \/
    (eps = [] /\ exists pi, n_info n = Some pi /\ get_mandatory definitions (pi_generic pi) (pi_specific pi) = None) \/
    exists count, told_endpoints tr b count /\ map e_id eps = map Z.of_nat (seq 1 (N.to_nat count - 1)).
  Proof using R C SC N.
    intros H. destruct (pv_ep _ _ _ _ P eps H) as [X|[X|(x & y & c & (m & u & v & G & D) & X)]]; [left; exact X|right; left; exact X|right; right].
    destruct (frame_of _ _ G) as (f & A & _ & Q). exists c. split; [|exact X]. exists f, x, y. split; [exact A|].
    exact (Q ltac:(discriminate) _ _ _ D).
  Qed.
  Lemma identified_whole : n_identified n = true ->
    in_file ns (address b) (fun n0 => n_identified n0 = true) \/
    (n_info n <> None /\ n_ms n <> None /\ n_endpoints n <> None).
  Proof using R N. exact (pv_done _ _ _ _ P). Qed.
End Facts.

(** The same with the hypotheses in the order of the statements. *)
Definition product_of_node file ns ls w tr o b n p R C SC N := product_origin file ns ls w tr o b n R C SC N p.
Definition type_of_node file ns ls w tr o b n pi R C SC N := type_origin file ns ls w tr o b n R C SC N pi.
Definition endpoints_of_node file ns ls w tr o b n eps R C SC N := endpoints_origin file ns ls w tr o b n R C SC N eps.
Lemma identified_told file ns ls w tr o b n :
  wrun (wstart file ns) ls = Some (Ok (w, tr, o)) -> c_crashed (y_conn (w_sys w)) = false ->
  Forall self_contained (frames_taken tr) -> node_of (w_sys w) b = Some n -> n_identified n = true ->
  ~ in_file ns (address b) (fun _ => True) ->
  exists pi p eps, n_info n = Some pi /\ n_ms n = Some p /\ n_endpoints n = Some eps /\
    told_type tr b pi /\ told_product tr b p /\
    ((exists count, told_endpoints tr b count /\ map e_id eps = map Z.of_nat (seq 1 (N.to_nat count - 1))) \/
     eps = [] /\ get_mandatory definitions (pi_generic pi) (pi_specific pi) = None).
Proof.
  intros R C SC N ID NF.
  assert (F : forall P, in_file ns (address b) P -> False) by (intros P (n0 & I & E & _); apply NF; exists n0; auto).
  destruct (identified_whole _ _ _ _ _ _ _ _ R N ID) as [X|(X1 & X2 & X3)]; [destruct (F _ X)|].
  destruct (n_info n) as [pi|] eqn:E1; [|congruence]. destruct (n_ms n) as [p|] eqn:E2; [|congruence].
  destruct (n_endpoints n) as [eps|] eqn:E3; [|congruence]. exists pi, p, eps. repeat (split; [reflexivity|]).
  split; [destruct (type_origin _ _ _ _ _ _ _ _ R C SC N _ E1) as [X|X]; [destruct (F _ X)|exact X]|].
  split; [destruct (product_origin _ _ _ _ _ _ _ _ R C SC N _ E2) as [X|[X _]]; [destruct (F _ X)|exact X]|].
  destruct (endpoints_origin _ _ _ _ _ _ _ _ R C SC N _ E3) as [X|[(X & pi' & Y & Z)|X]]; [destruct (F _ X)| |left; exact X].
  right. split; [exact X|]. rewrite E1 in Y. injection Y as <-. exact Z.
Qed.
