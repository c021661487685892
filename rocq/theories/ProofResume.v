(** Proofs about the whole program: from where an identification can be
    completed. *)
From Verif Require Import ModelBase ModelReports ModelSerial ModelCommands ModelNodes ModelList DataDevices ModelDatabase.
From Verif Require Import ModelIdentify ModelController ModelConnection ModelSystem ModelWhole.
From Verif Require Import SpecFrame SpecDecode SpecMessage SpecReports SpecConnection SpecIdentify SpecController SpecNodes SpecSystem SpecWhole SpecComplete.
From Verif Require Import ProofBase ProofReports ProofSerial ProofMessage ProofConnection ProofLink ProofReader ProofContent ProofIdentify ProofController ProofSystem ProofDiscovery ProofDelivery ProofWhole ProofWholeWait ProofAnswer ProofComplete.
From Coq Require Import Lia Permutation.
Local Opaque definitions devices get_mandatory device_new.

(** ** What is known about the request of Identify *)
Definition kind_ok (j : job) : Prop :=
  match j_ans j with
  | None => True
  | Some (AMessage _) => j_holds j = true /\ is_info (j_pc j) = true
  | Some (AReport _) => j_holds j = true /\ is_info (j_pc j) = false
  end.
Record linv (s : conn) (tr : list event) (j : job) : Prop := mkLinv {
  li_queued : j_busy j = true -> exists i p, j_req j = Some i /\ In (p, false) (c_sendq s) /\ p_id p = i;
  li_written : forall i, j_req j = Some i -> j_busy j = false -> In i (written tr);
  li_got : forall i, j_req j = Some i -> In (EvGot i) tr -> j_holds j = true;
  li_asked : pauses (j_pc j) = true -> j_req j <> None;
  li_chan : forall st c, j_pc j = IWait st (Some c) -> j_chan j = Some c;
  li_free : forall st c, j_pc j = IWait st c -> j_req j = None;
  li_kind : kind_ok j }.

Lemma hear_busy id i ev : forall j, j_req j = Some i ->
  (j_busy (fold_left (hear id) ev j) = true -> j_busy j = true /\ forall x, ~ In (EvWire i x) ev) /\
  (j_busy (fold_left (hear id) ev j) = false -> j_busy j = false \/ exists x, In (EvWire i x) ev).
Proof.
  induction ev as [|e ev IH]; intros j Q; [cbn [fold_left In]; split; [intros H; split; [exact H|intros x []]|intros H; left; exact H]|].
  cbn [fold_left]. assert (Q1 : j_req (hear id j e) = Some i) by (rewrite (proj1 (hear_pc id j e)); exact Q).
  destruct (IH _ Q1) as [A B].
  assert (X : (exists x, e = EvWire i x) /\ j_busy (hear id j e) = false \/ (forall x, e <> EvWire i x) /\ j_busy (hear id j e) = j_busy j).
  { destruct e as [| |k b| | |k| |k m|k| | | | | | | |b r|]; cbn [hear]; try (right; split; [discriminate|reflexivity]).
    - unfold own_request. rewrite Q. destruct (Nat.eqb_spec i k) as [<-|N]; [left; split; [eexists; reflexivity|reflexivity]|].
      right. split; [congruence|reflexivity].
    - right. split; [discriminate|]. destruct (own_request j k); reflexivity.
    - right. split; [discriminate|]. destruct (_ && _); [|reflexivity]. destruct (is_info (j_pc j)); [reflexivity|].
      destruct m as [m|]; [|reflexivity]. destruct (m_data m) as [[]|]; reflexivity.
    - right. split; [discriminate|]. destruct (_ && _); reflexivity.
    - right. split; [discriminate|]. destruct r; try reflexivity. destruct (id =? Z.of_N (b2N b))%Z; [|reflexivity].
      destruct (istep _ _) as [[st o]|]; reflexivity. }
  destruct X as [[[x ->] E]|[NE E]]; rewrite E in *.
  - split; [intros H; destruct (A H); discriminate|]. intros _. right. exists x. left. reflexivity.
  - split.
    + intros H. destruct (A H) as [A1 A2]. split; [exact A1|]. intros x [X|X]; [exact (NE x X)|exact (A2 x X)].
    + intros H. destruct (B H) as [B1|[x B1]]; [left; exact B1|right; exists x; right; exact B1].
Qed.
Lemma hear_got id i ev : forall j, j_req j = Some i -> j_holds j = true \/ In (EvGot i) ev -> j_holds (fold_left (hear id) ev j) = true.
Proof.
  induction ev as [|e ev IH]; intros j Q H; cbn [fold_left]; [destruct H as [H|[]]; exact H|].
  apply IH; [rewrite (proj1 (hear_pc id j e)); exact Q|]. destruct H as [H|[->|H]].
  - left. apply hear_ans, H.
  - left. cbn [hear]. unfold own_request. rewrite Q, Nat.eqb_refl. reflexivity.
  - right. exact H.
Qed.
Lemma hear_kind id j e : kind_ok j -> kind_ok (hear id j e).
Proof.
  intros K. unfold kind_ok in *.
  destruct e as [| |k b| | |k| |k m|k| | | | | | | |b r|]; cbn [hear]; try exact K.
  - destruct (own_request j k); exact K.
  - destruct (own_request j k); [|exact K]. cbn [j_ans j_holds j_pc]. destruct (j_ans j) as [[]|]; [split; [reflexivity|apply K]|split; [reflexivity|apply K]|exact I].
  - destruct (own_request j k && j_holds j && negb (answered j)) eqn:G; [|exact K].
    apply andb_prop in G. destruct G as [G _]. apply andb_prop in G. destruct G as [_ H].
    destruct (is_info (j_pc j)) eqn:F; [split; assumption|]. destruct m as [m|]; [|rewrite F; exact K].
    destruct (m_data m) as [[]|]; try (rewrite F; exact K). split; assumption.
  - destruct (own_request j k && j_holds j && negb (answered j)) eqn:G; [|exact K].
    apply andb_prop in G. destruct G as [G _]. apply andb_prop in G. destruct G as [_ H].
    unfold with_answer. cbn [j_ans j_holds j_pc]. destruct (is_info (j_pc j)) eqn:F; split; assumption || reflexivity.
  - destruct r; try exact K. destruct (id =? Z.of_N (b2N b))%Z eqn:E; [|exact K].
    assert (X : is_info (j_pc (hear id j (EvCallback b RWakeUp))) = is_info (j_pc j)).
    { destruct (hear_pc id j (EvCallback b RWakeUp)) as [_ [->|(s & c & -> & ->)]]; reflexivity. }
    cbn [hear] in X. rewrite E in X. destruct (istep _ _) as [[st o]|]; [|exact K]. cbn [j_ans j_holds j_pc] in *. rewrite X. exact K.
Qed.
Lemma hear_all_kind id ev : forall j, kind_ok j -> kind_ok (fold_left (hear id) ev j).
Proof. induction ev as [|e ev IH]; intros j K; [exact K|]. cbn [fold_left]. apply IH, hear_kind, K. Qed.
Definition chan_ok (j : job) : Prop := forall st c, j_pc j = IWait st (Some c) -> j_chan j = Some c.
Lemma hear_chan id j e : chan_ok j -> chan_ok (hear id j e).
Proof.
  intros K. destruct e as [| |k b| | |k| |k m|k| | | | | | | |b r|]; cbn [hear]; try exact K.
  - destruct (own_request j k); exact K.
  - destruct (own_request j k); exact K.
  - destruct (_ && _); [|exact K]. destruct (is_info (j_pc j)); [exact K|]. destruct m as [m|]; [|exact K]. destruct (m_data m) as [[]|]; exact K.
  - destruct (_ && _); exact K.
  - destruct r; try exact K. destruct (id =? Z.of_N (b2N b))%Z; [|exact K]. cbn [istep i_pc i_chan i_node i_fresh].
    unfold chan_ok in *. destruct (j_chan j) as [c0|] eqn:C0.
    + destruct (j_pc j) as [| | |s|s|s [c|]|s|s|l|l| | |] eqn:P; try (intros st c E; cbn [j_pc i_pc] in E; congruence); try (rewrite C0; exact K).
      cbn [j_pc i_pc j_chan i_chan]. specialize (K s c eq_refl). injection K as ->. rewrite Nat.eqb_refl. intros st c' E. discriminate.
    + destruct (j_pc j) as [| | |s|s|s [c|]|s|s|l|l| | |] eqn:P; try (intros st c' E; cbn [j_pc i_pc] in E; congruence); try (rewrite C0, P; exact K).
      specialize (K s c eq_refl). discriminate.
Qed.
Lemma hear_all_chan id ev : forall j, chan_ok j -> chan_ok (fold_left (hear id) ev j).
Proof. induction ev as [|e ev IH]; intros j K; [exact K|]. cbn [fold_left]. apply IH, hear_chan, K. Qed.

Lemma queue_stays s l s' ev p : step s l = Some (s', ev) -> In (p, false) (c_sendq s) ->
  In (p, false) (c_sendq s') \/ exists x, In (EvWire (p_id p) x) ev.
Proof.
  intros H I. apply step_inv in H. destruct H; conn_simpl; try (left; exact I).
  - left. apply in_or_app. left. exact I.
  - rewrite H0 in I. destruct I as [I|I]; [|left; exact I]. injection I as -> ->. right. eexists. left. reflexivity.
  - apply expire_fields in H0. destruct H0 as [F _]. rewrite F. left. exact I.
  - left. apply in_or_app. left. exact I.
  - apply iter_fields in H0. destruct H0 as [F _]. rewrite F. left. exact I.
  - apply visit_fields in H3. destruct H3 as [F _]. rewrite F. left. exact I.
  - apply spawn_callback_fields in H1. destruct H1 as [-> _]. left. exact I.
Qed.
Lemma in_written i x ev : In (EvWire i x) ev -> In i (written ev).
Proof. intros H. apply in_flat_map. exists (EvWire i x). split; [exact H|left; reflexivity]. Qed.
Lemma linv_hear s l s' tr ev id j : step s l = Some (s', ev) -> linv s tr j -> linv s' (tr ++ ev) (fold_left (hear id) ev j).
Proof.
  intros S [A B C D E E2 F]. split; rewrite ?hear_req.
  - intros H. assert (X : j_busy j = true).
    { clear - H. revert j H. induction ev as [|e ev IH]; intros j H; [exact H|]. cbn [fold_left] in H. apply IH in H.
      destruct e as [| |k b| | |k| |k m|k| | | | | | | |b r|]; cbn [hear] in H; try exact H.
      - destruct (own_request j k); [discriminate|exact H].
      - destruct (own_request j k); exact H.
      - destruct (_ && _); [|exact H]. destruct (is_info (j_pc j)); [exact H|]. destruct m as [m|]; [|exact H]. destruct (m_data m) as [[]|]; exact H.
      - destruct (_ && _); exact H.
      - destruct r; try exact H. destruct (id =? Z.of_N (b2N b))%Z; [|exact H]. destruct (istep _ _) as [[st o]|]; exact H. }
    destruct (A X) as (i & p & Q & I & P). exists i, p. split; [exact Q|]. split; [|exact P].
    destruct (hear_busy id i ev j Q) as [Y _]. destruct (Y H) as [_ N].
    destruct (queue_stays _ _ _ _ _ S I) as [Z|[x Z]]; [exact Z|]. rewrite P in Z. destruct (N x Z).
  - intros i Q H. rewrite written_app. apply in_or_app. destruct (hear_busy id i ev j Q) as [_ Y].
    destruct (Y H) as [Z|[x Z]]; [left; exact (B i Q Z)|right; exact (in_written _ _ _ Z)].
  - intros i Q G. apply (hear_got id i ev j Q). apply in_app_iff in G. destruct G as [G|G]; [left; exact (C i Q G)|right; exact G].
  - intros P. destruct (hear_all_pc ev id j) as [X|(st & c & _ & X)]; rewrite X in P; [exact (D P)|discriminate].
  - apply hear_all_chan. exact E.
  - intros st c P. destruct (hear_all_pc ev id j) as [X|(st' & c' & _ & X)]; rewrite X in P; [exact (E2 _ _ P)|discriminate].
  - apply hear_all_kind. exact F.
Qed.

(** ** One step of Identify *)
Lemma quiet_step st il st' io : istep st il = Some (st', io) -> (forall r, il <> IReport r) -> il <> IWindow ->
  (commands_of io = [] -> pauses (i_pc st') = false) /\
  (forall s c, i_pc st' = IWait s c -> c = i_chan st' /\ commands_of io = []).
Proof.
  intros E NR NA.
  assert (AM : forall n pc o, after_ms n = (pc, o) -> pauses pc = false /\ forall s c, pc <> IWait s c).
  { intros n pc o H. unfold after_ms in H. destruct (n_endpoints n); [destruct (n_states_ok n)|]; injection H as <- <-; split; discriminate || reflexivity. }
  assert (AI : forall n pi pc n' o, after_info n pi = (pc, n', o) -> pauses pc = false /\ forall s c, pc <> IWait s c).
  { intros n pi pc n' o H. unfold after_info in H. cbv zeta in H.
    destruct (n_ms (set_classes n _)); [|injection H as <- <- <-; split; discriminate || reflexivity].
    destruct (after_ms _) as [pc0 o0] eqn:S. injection H as <- <- <-. exact (AM _ _ _ S). }
  unfold istep in E. cbv zeta in E. destruct il as [| |x|x|x|]; [| | | |destruct (NR x eq_refl)|congruence].
  - destruct (i_pc st) as [| | |s|s|s c|s|s|l|l| | |]; try discriminate.
    + destruct (n_info (i_node st)) as [pi|]; [|injection E as <- <-; split; discriminate].
      destruct (after_info _ pi) as [[pc n'] o] eqn:A. injection E as <- <-. destruct (AI _ _ _ _ _ A) as [X Y]. cbn [i_pc]. split; [auto|].
      intros s c Z. destruct (Y _ _ Z).
    + destruct (n_awake (i_node st)); [injection E as <- <-; split; [reflexivity|discriminate]|].
      destruct (i_chan st); injection E as <- <-; split; reflexivity || discriminate.
    + injection E as <- <-. split; [reflexivity|]. cbn [i_pc i_chan]. intros s0 c E. injection E as _ <-. split; reflexivity.
    + destruct s; [injection E as <- <-; split; discriminate| |injection E as <- <-; split; [reflexivity|discriminate]].
      destruct (n_classes (i_node st)); injection E as <- <-; split; reflexivity || discriminate.
    + destruct l as [|c l]; [injection E as <- <-; split; reflexivity || discriminate|]. destruct (state_request (i_node st) c); injection E as <- <-.
      * split; [discriminate|]. cbn [i_pc]. destruct (state_waits c); discriminate.
      * split; [reflexivity|discriminate].
    + injection E as <- <-. split; reflexivity || discriminate.
  - destruct (i_pc st); try discriminate. injection E as <- <-. split; reflexivity || discriminate.
  - destruct (i_pc st); try discriminate. destruct x as [m0|]; [|injection E as <- <-; split; reflexivity || discriminate].
    destruct (m_data m0) as [[a b c|a|pi]|]; try (injection E as <- <-; split; reflexivity || discriminate).
    destruct (after_info _ pi) as [[pc n'] o] eqn:A. injection E as <- <-. destruct (AI _ _ _ _ _ A) as [X Y]. cbn [i_pc]. split; [auto|].
    intros s c Z. destruct (Y _ _ Z).
  - destruct (i_pc st) as [| | |s|s|s c|s|s|l|l| | |]; try discriminate.
    + destruct s; try discriminate; destruct x as [x|]; try (injection E as <- <-; split; reflexivity || discriminate);
        destruct x; try (injection E as <- <-; split; reflexivity || discriminate).
      destruct (after_ms _) as [pc o] eqn:A. injection E as <- <-. destruct (AM _ _ _ A) as [X Y]. cbn [i_pc]. split; [auto|].
      intros s c Z. destruct (Y _ _ Z).
    + injection E as <- <-. split; reflexivity || discriminate.
Qed.

(** ** In all executions *)
Lemma linv_step cl w tr l w' ev o : run init cl = Some (y_conn (w_sys w), tr) ->
  (forall id j, zlookup id (w_jobs w) = Some j -> linv (y_conn (w_sys w)) tr j) -> wstep w l = Some (Ok (w', ev, o)) ->
  forall id j, zlookup id (w_jobs w') = Some j -> linv (y_conn (w_sys w')) (tr ++ ev) j.
Proof.
  intros R W H id j J.
  destruct (wstep_job _ _ _ _ _ H) as [(yl & -> & PL & YS & WJ)|(id' & j' & n' & il & st & io & L & J' & N' & JL & IS & YR' & WJ)].
  - rewrite WJ in J. destruct (started_jobs _ _ _ _ J) as [X|[-> X]].
    2:{ split; cbn; try discriminate. exact I. }
    unfold hears in X. rewrite (zlookup_map (fun i j => fold_left (hear i) ev j)) in X.
    destruct (zlookup id (w_jobs w)) as [j0|] eqn:J0; [|discriminate]. injection X as <-. specialize (W _ _ J0).
    destruct yl as [yl| |yl]; cbn [ystep] in YS.
    + destruct (step (y_conn (w_sys w)) yl) as [[s e]|] eqn:S; [|discriminate].
      destruct (follow _ _ e) as [[[[a c] o3]| |]|]; try discriminate. injection YS as <- <- _. exact (linv_hear _ _ _ _ _ _ _ S W).
    + destruct (step (y_conn (w_sys w)) _) as [[s e]|] eqn:S; [|discriminate].
      destruct (cstep _ _) as [[[c o3]| |]|]; try discriminate. injection YS as <- <- _. exact (linv_hear _ _ _ _ _ _ _ S W).
    + destruct (own_step yl); [|discriminate].
      destruct (cstep _ _) as [[[c o3]| |]|]; try discriminate. injection YS as <- <- _. rewrite app_nil_r. exact W.
  - assert (NL : (forall r, il <> IReport r) /\ il <> IWindow).
    { destruct L as [->|[->| ->]]; cbn [job_label] in JL.
      - destruct (j_busy j'); [discriminate|]. injection JL as <-. split; discriminate.
      - injection JL as <-. split; discriminate.
      - destruct (j_ans j') as [[]|]; [injection JL as <-|injection JL as <-|discriminate]; split; discriminate. }
    destruct (quiet_step _ _ _ _ IS (proj1 NL) (proj2 NL)) as [QP QC'].
    assert (QC : forall s c, i_pc st = IWait s (Some c) -> i_chan st = Some c) by (intros s c E; symmetry; exact (proj1 (QC' _ _ E))).
    assert (CONN : match commands_of io with
      | [] => y_conn (w_sys w') = y_conn (w_sys w) /\ ev = []
      | m :: _ => let '(wt, t, er) := request_kind (i_pc st) in
          ev = [EvCall (c_next (y_conn (w_sys w))) m wt t er; EvQueue (c_next (y_conn (w_sys w))) false] /\
          c_sendq (y_conn (w_sys w')) = c_sendq (y_conn (w_sys w)) ++ [(new_send_package (c_next (y_conn (w_sys w))) m wt t er, false)] end).
    { pose proof (effect_events _ _ _ _ _ _ _ YR') as EV. unfold job_effect in YR'. destruct (commands_of io) as [|m r].
      - split; [|exact EV]. destruct (events_of io) as [|e es].
        + cbn [yrun] in YR'. destruct (ystep (w_sys w) _) as [[[[y1 e1] o1]| |]|] eqn:S; try discriminate. injection YR' as <- _ _.
          unfold ystep in S. cbn [own_step] in S. destruct (cstep _ _) as [[[c o3]| |]|]; try discriminate. injection S as <- _ _. reflexivity.
        + exact (idents_conn id' (i_node st) (e :: es) _ _ _ _ YR').
      - destruct (request_kind (i_pc st)) as [[wt t] er]. split; [exact EV|]. cbn [yrun] in YR'.
        destruct (ystep (w_sys w) _) as [[[[y1 e1] o1]| |]|] eqn:YS; try discriminate. injection YR' as <- _ _.
        cbn [ystep] in YS. destruct (step _ _) as [[s e]|] eqn:S; [|discriminate].
        destruct (follow _ _ e) as [[[[a c] o3]| |]|]; try discriminate. injection YS as <- _ _.
        unfold step in S. destruct (c_crashed _); [discriminate|]. injection S as <- _. reflexivity. }
    rewrite WJ, zlookup_set in J. destruct (id =? id')%Z.
    + injection J as <-. unfold job_after. destruct (commands_of io) as [|m r].
      * split; cbn [j_busy j_req j_pc j_chan j_ans]; try discriminate; [rewrite (QP eq_refl); discriminate|exact QC|reflexivity|exact I].
      * destruct (request_kind (i_pc st)) as [[wt t] er]. destruct CONN as [-> SQ].
        split; cbn [j_busy j_req j_pc j_chan j_ans]; try discriminate; [| |exact QC|intros s c E; destruct (QC' _ _ E); discriminate|exact I].
        -- intros _. do 2 eexists. split; [reflexivity|]. split; [rewrite SQ; apply in_or_app; right; left; reflexivity|reflexivity].
        -- intros i E G. injection E as <-. exfalso. apply in_app_iff in G. destruct G as [G|[G|[G|[]]]]; try discriminate.
           destruct (unfetched_invariant _ _ _ R) as (_ & _ & X). destruct (X _ G). lia.
    + specialize (W _ _ J). destruct (commands_of io) as [|m r].
      * destruct CONN as [-> ->]. rewrite app_nil_r. exact W.
      * destruct (request_kind (i_pc st)) as [[wt t] er]. destruct CONN as [-> SQ]. destruct W as [A B C D E E2 F]. split; try assumption.
        -- intros X. destruct (A X) as (i & p & Y1 & Y2 & Y3). exists i, p. split; [exact Y1|]. split; [rewrite SQ; apply in_or_app; left; exact Y2|exact Y3].
        -- intros i Q X. rewrite written_app. apply in_or_app. left. exact (B i Q X).
        -- intros i Q X. apply (C i Q). apply in_app_iff in X. destruct X as [X|[X|[X|[]]]]; [exact X|discriminate|discriminate].
Qed.
Lemma linv_run file ns ls : forall w tr o, wrun (wstart file ns) ls = Some (Ok (w, tr, o)) ->
  forall id j, zlookup id (w_jobs w) = Some j -> linv (y_conn (w_sys w)) tr j.
Proof.
  induction ls as [|l ls IH] using rev_ind; intros w tr o R.
  - injection R as <- <- <-. intros id j J. discriminate.
  - apply wrun_snoc in R. destruct R as (w1 & t1 & o1 & t2 & o2 & R & S & -> & ->).
    destruct (wrun_conn _ _ _ _ _ _ R) as [cl C]. exact (linv_step _ _ _ _ _ _ _ C (IH _ _ _ R) S).
Qed.

(** ** From every place *)
Section Resume.
  Context (file : bool) (ns : list node) (b : byte) (fs : list (list byte)).
  Context (fi : list byte) (pi : protocol_info) (fm : list byte) (ma mt mp : string) (fe : list byte) (ex ey : bool) (count : N) (fw : list byte).
  Hypothesis IFI : In fi fs.
  Hypothesis IFM : In fm fs.
  Hypothesis IFE : In fe fs.
  Hypothesis IFW : In fw fs.
  Hypothesis SCI : self_contained fi.
  Hypothesis RI : info_of fi = Some pi.
  Hypothesis SCM : self_contained fm.
  Hypothesis RM : report_of fm = [(b, RManufacturer ma mt mp)].
  Hypothesis SCE : self_contained fe.
  Hypothesis RP : report_of fe = [(b, REndpoints ex ey count)].
  Hypothesis SCW : self_contained fw.
  Hypothesis RW : report_of fw = [(b, RWakeUp)].
  Notation stands := (stands file ns b).
  Definition ends (w : whole) (n : node) : Prop :=
    exists w' j' n', goes b fs w w' /\ stands w' j' n' /\ j_pc j' = IDone /\ n_identified n' = true /\ keeps_known n n'.
  Lemma known_refl n : keeps_known n n. Proof. repeat split; auto. Qed.
  Lemma ends_from w n w' n' : goes b fs w w' -> keeps_known n n' -> ends w' n' -> ends w n.
  Proof.
    intros G (A1 & A2 & A3) (w2 & j2 & n2 & G2 & SD & P & I & (B1 & B2 & B3)). exists w2, j2, n2.
    split; [exact (goes_trans _ _ _ _ G G2)|]. repeat (split; [assumption|]). repeat split; auto.
  Qed.
  Lemma rouses n : rouse b fs fw n. Proof. right. auto. Qed.
  Lemma complete_ends w n : complete file ns b fs ma mt mp count w n -> ends w n.
  Proof.
    intros (w' & j' & n' & G & SD & P & I & (q & K0 & K1 & K2 & K3)). exists w', j', n'. repeat (split; [assumption|]).
    split; [congruence|]. split; [intros x E; rewrite E in K2; exact K2|].
    intros x E. destruct K3 as [[K3 _]|[K3 _]]; congruence.
  Qed.
  Lemma finished_ends w n : finished file ns b fs w n -> ends w n.
  Proof.
    intros (w' & j' & n' & G & SD & P & I & (K1 & K2 & K3 & K4)). exists w', j', n'. repeat (split; [assumption|]).
    repeat split; congruence.
  Qed.
  Lemma quiet_goes w j n l il st io : stands w j n -> (l = WGo (address b) \/ l = WTimer (address b) \/ l = WAnswer (address b)) ->
    job_label l j = Some il -> istep (mkI (j_pc j) n (j_chan j) (j_fresh j)) il = Some (st, io) -> commands_of io = [] ->
    n_id (i_node st) = n_id n ->
    exists w', goes b fs w w' /\ stands w' (mkJob (i_pc st) (i_chan st) (i_fresh st) None false false None) (i_node st).
  Proof. exact (goes_quiet file ns b fs w j n l il st io). Qed.
  Lemma top_ends w j n : stands w j n -> j_busy j = false -> j_pc j = ITop -> ends w n.
  Proof using All.
    intros SD BU PC. destruct (n_info n) as [q|] eqn:IN.
    - apply complete_ends. destruct (after_info_split n q) as (io & AI & CO).
      destruct (quiet_goes _ _ _ (WGo (address b)) IGo (mkI (match n_ms n with None => IEnter SMs
         | Some _ => fst (after_ms (set_classes n (get_mandatory definitions (pi_generic q) (pi_specific q)))) end)
         (set_classes n (get_mandatory definitions (pi_generic q) (pi_specific q))) (j_chan j) (j_fresh j)) io SD) as (w' & G & SD').
      + left; reflexivity.
      + cbn [job_label]. rewrite BU. reflexivity.
      + rewrite PC. cbn [istep i_pc i_node]. rewrite IN, AI. reflexivity.
      + exact CO.
      + reflexivity.
      + apply (complete_from _ _ _ _ _ _ _ _ _ _ _ G).
        apply (from_after_info file ns b fs fw fm ma mt mp fe ex ey count IFM IFE SCM RM SCE RP _ _ _ q SD'); [reflexivity|reflexivity|apply rouses|exact IN].
    - destruct (goes_sends file ns b fs _ _ _ (mkI IInfo n (j_chan j) (j_fresh j)) [OWrite (info_request n)] (info_request n) [] SD BU)
        as (w2 & j2 & G2 & SD2 & P2 & B2 & A2 & H2).
      { rewrite PC. cbn [istep i_pc i_node]. rewrite IN. reflexivity. }
      { reflexivity. }
      cbn [i_pc] in P2, H2. specialize (H2 ltac:(discriminate)).
      apply (ends_from _ _ _ _ G2 (known_refl n)).
      assert (KS : keeps_known n (set_info n pi)) by (repeat split; auto; congruence).
      apply (ends_from _ _ _ _ (goes_refl _ _) KS). apply complete_ends.
      apply (from_type file ns b fs fw fm ma mt mp fe ex ey count IFM IFE SCM RM SCE RP fi pi IFI SCI RI _ _ _ SD2 H2 A2 P2). auto.
  Qed.
  Lemma pause_ends w j n : stands w j n -> j_pc j = IPause -> ends w n.
  Proof using All.
    intros SD PC.
    destruct (quiet_goes _ _ _ (WTimer (address b)) ITimer (mkI ITop n (j_chan j) (j_fresh j)) [] SD) as (w' & G & SD').
    - right; left; reflexivity.
    - reflexivity.
    - rewrite PC. reflexivity.
    - reflexivity.
    - reflexivity.
    - apply (ends_from _ _ _ _ G (known_refl n)). apply (top_ends _ _ _ SD'); reflexivity.
  Qed.
  (** Its request gets written, and it gets the channel. *)
  Definition hope (w : whole) (j : job) : Prop := pauses (j_pc j) = true -> j_holds j = false ->
    exists i, j_req j = Some i /\ In i (c_open (y_conn (w_sys w))).
  Lemma written_goes w j n : stands w j n -> hope w j -> exists w' j', goes b fs w w' /\ stands w' j' n /\ hope w' j' /\
    j_busy j' = false /\ j_pc j' = j_pc j /\ j_chan j' = j_chan j.
  Proof using.
    intros SD HP. destruct (j_busy j) eqn:BU; [|exists w, j; split; [apply goes_refl|auto]].
    destruct SD as [RE C M J N]. pose proof RE as (ls & tr & o & R). destruct (li_queued _ _ _ (linv_run _ _ _ _ _ _ R _ _ J) BU) as (i & p & Q & IQ & E).
    destruct (in_split _ _ IQ) as (q1 & q2 & SQ).
    destruct (get_written q1 (y_conn (w_sys w)) p q2 C (has_writer _ _ _ RE M) SQ) as (l2 & s2 & e2 & R2 & V2 & (KC & KM & KO & KL) & W2 & _).
    destruct (lift_run (b:=b) fs _ _ _ _ R2 (quiet_tame _ V2)) as (w2 & G2 & Y2 & N2 & J2). specialize (J2 _ _ J).
    destruct (hear_quiet (address b) i e2 j V2 Q) as (A1 & A2 & A3 & A4 & A5 & A6).
    exists w2. eexists. split; [exact G2|]. split.
    { split; [exact (reached_goes _ _ _ _ _ _ RE G2)|congruence|congruence|exact J2|]. rewrite N2. exact N. }
    split; [|split; [apply A5; right; eexists; rewrite <- E; exact W2|split; [exact A1|exact A3]]].
    intros P H. rewrite A1 in P. assert (HH : j_holds j = false) by (destruct (j_holds j) eqn:HJ; [rewrite A6 in H by auto; discriminate|reflexivity]).
    destruct (HP P HH) as (i' & Q' & O). exists i'. rewrite hear_req. split; [exact Q'|]. rewrite Y2, KO. exact O.
  Qed.
  Lemma fetched_goes w j n : stands w j n -> hope w j -> j_busy j = false -> pauses (j_pc j) = true ->
    exists w' j', goes b fs w w' /\ stands w' j' n /\ j_holds j' = true /\ j_pc j' = j_pc j.
  Proof using.
    intros SD HP BU PS. destruct (j_holds j) eqn:HJ; [exists w, j; split; [apply goes_refl|auto]|].
    destruct (HP PS HJ) as (i & Q & O). destruct SD as [RE C M J N]. pose proof RE as (ls & tr & o & R).
    pose proof (linv_run _ _ _ _ _ _ R _ _ J) as LI. destruct (wrun_conn _ _ _ _ _ _ R) as [cl CR].
    pose proof (li_written _ _ _ LI _ Q BU) as WR. destruct (kinv_run _ _ _ _ _ _ R _ _ J i Q PS) as (d & wt & t & er & CA & RK).
    destruct (pending_invariant _ _ _ CR) as [_ PI]. destruct (PI C i WR O) as (p & IP & EP).
    destruct (known_issued _ _ _ CR p (or_introl IP)) as (d2 & w2 & t2 & e2 & CA2 & P2). rewrite EP in CA2.
    destruct (call_unique _ _ _ _ _ _ _ _ _ _ _ _ CR CA CA2) as (_ & <- & _).
    assert (NW : p_want p <> NoWait).
    { rewrite P2. cbn [new_send_package p_want]. destruct (j_pc j) as [| | |s|s|s c|s|[| |]|l|l| | |]; try discriminate; injection RK as <- _ _; discriminate. }
    rewrite <- EP in O. destruct (got_invariant _ _ _ CR p (or_introl IP) NW O) as [F|G].
    2:{ rewrite EP in G. rewrite (li_got _ _ _ LI _ Q G) in HJ. discriminate. }
    rewrite EP in F, O. apply mem_In in F, O.
    assert (S : exists s', step (y_conn (w_sys w)) (LFetch i) = Some (s', [EvGot i]) /\ c_crashed s' = false /\ c_mode s' = RReading).
    { unfold step. rewrite C, F, O. eexists. split; [reflexivity|]. conn_simpl. auto. }
    destruct S as (s' & S & C' & M'). destruct (lift_step _ _ _ _ S) as (w' & o1 & W1 & Y1 & N1 & J1); [repeat constructor|].
    specialize (J1 _ _ J). pose proof (goes_one (b:=b) fs _ _ _ _ _ W1 ltac:(repeat constructor)) as G.
    exists w'. eexists. split; [exact G|]. split.
    { split; [exact (reached_goes _ _ _ _ _ _ RE G)|congruence|congruence|exact J1|]. rewrite N1. exact N. }
    cbn [fold_left hear]. unfold own_request. rewrite Q, Nat.eqb_refl. split; reflexivity.
  Qed.
  Lemma answered_goes w j n : stands w j n -> j_holds j = true ->
    exists w' j' a, goes b fs w w' /\ stands w' j' n /\ j_pc j' = j_pc j /\ j_ans j' = Some a /\
      match a with AMessage _ => is_info (j_pc j) = true | AReport _ => is_info (j_pc j) = false end.
  Proof using.
    intros SD H. destruct (j_ans j) as [a|] eqn:A.
    - exists w, j, a. split; [apply goes_refl|]. split; [exact SD|]. split; [reflexivity|]. split; [exact A|].
      destruct SD as [RE C M J N]. destruct RE as (ls & tr & o & R). pose proof (li_kind _ _ _ (linv_run _ _ _ _ _ _ R _ _ J)) as K.
      unfold kind_ok in K. rewrite A in K. destruct a; apply K.
    - destruct (goes_late file ns b fs _ _ _ SD H A) as (w' & j' & G & SD' & P & A'). rewrite P in A'.
      exists w', j'. eexists. split; [exact G|]. split; [exact SD'|]. split; [exact P|]. split; [exact A'|]. destruct (is_info (j_pc j)); reflexivity.
  Qed.
  Lemma send_ends w j n s : stands w j n -> j_busy j = false -> j_pc j = ISend s -> typed n -> stage_ok s n -> ends w n.
  Proof using All.
    intros SD BU PC TY ST. destruct s; cbn [stage_ok] in ST.
    - apply complete_ends. exact (from_send_product file ns b fs fw fm ma mt mp fe ex ey count IFM IFE SCM RM SCE RP _ _ _ SD BU PC (rouses n) ST TY).
    - apply complete_ends. destruct ST as [S1 S2]. exact (from_send_endpoints file ns b fs fw ma mt mp fe ex ey count IFE SCE RP _ _ _ SD BU PC (rouses n) S1 S2 TY).
    - apply finished_ends. destruct ST as [S1 S2]. destruct TY as (q & IN & _). exact (from_send_states file ns b fs _ _ _ q SD BU PC IN S1 S2).
  Qed.
  Lemma answer_ends w j n a : stands w j n -> pauses (j_pc j) = true -> pc_ok (j_pc j) n -> j_ans j = Some a ->
    match a with AMessage _ => is_info (j_pc j) = true | AReport _ => is_info (j_pc j) = false end -> ends w n.
  Proof using All.
    intros SD PS PO A K.
    assert (PAUSE : forall il, job_label (WAnswer (address b)) j = Some il ->
      istep (mkI (j_pc j) n (j_chan j) (j_fresh j)) il = Some (mkI IPause n (j_chan j) (j_fresh j), []) -> ends w n).
    { intros il JL IS. destruct (quiet_goes _ _ _ (WAnswer (address b)) il _ _ SD (or_intror (or_intror eq_refl)) JL IS eq_refl eq_refl) as (w' & G & SD').
      apply (ends_from _ _ _ _ G (known_refl n)). apply (pause_ends _ _ _ SD'). reflexivity. }
    destruct a as [m|r]; cbn [job_label] in PAUSE; rewrite A in PAUSE.
    - assert (PC : j_pc j = IInfo) by (destruct (j_pc j); try discriminate; reflexivity). rewrite PC in *. cbn [pc_ok] in PO.
      assert (D : (exists msg q, m = Some msg /\ m_data msg = Some (PInfo q)) \/
        istep (mkI IInfo n (j_chan j) (j_fresh j)) (IGotInfo m) = Some (mkI IPause n (j_chan j) (j_fresh j), [])).
      { destruct m as [msg|]; [|right; reflexivity]. cbn [istep i_pc]. destruct (m_data msg) as [[c k r|act|q]|] eqn:MD; try (right; reflexivity).
        left. eauto. }
      destruct D as [(msg & q & -> & MD)|D]; [|exact (PAUSE _ eq_refl D)].
      destruct (after_info_split (set_info n q) q) as (io & AI & CO).
      destruct (quiet_goes _ _ _ (WAnswer (address b)) (IGotInfo (Some msg)) (mkI (match n_ms n with None => IEnter SMs
         | Some _ => fst (after_ms (set_classes (set_info n q) (get_mandatory definitions (pi_generic q) (pi_specific q)))) end)
         (set_classes (set_info n q) (get_mandatory definitions (pi_generic q) (pi_specific q))) (j_chan j) (j_fresh j)) (OEvent (n_id n) :: io) SD) as (w4 & G4 & SD4).
      { right; right; reflexivity. }
      { cbn [job_label]. rewrite A. reflexivity. }
      { rewrite PC. cbn [istep i_pc i_node i_chan i_fresh]. rewrite MD, AI. reflexivity. }
      { exact CO. }
      { reflexivity. }
      assert (KS : keeps_known n (set_info n q)) by (repeat split; auto; congruence).
      apply (ends_from _ _ _ _ G4 KS). apply complete_ends.
      apply (from_after_info file ns b fs fw fm ma mt mp fe ex ey count IFM IFE SCM RM SCE RP _ _ _ q SD4); try reflexivity. apply rouses.
    - destruct (j_pc j) as [| | |s|s|s c|s|[| |]|l|l| | |] eqn:PC; try discriminate; cbn [pc_ok stage_ok] in PO.
      + destruct PO as [TY MS].
        assert (D : (exists x y z, r = Some (RManufacturer x y z)) \/
          istep (mkI (IAwait SMs) n (j_chan j) (j_fresh j)) (IGotReport r) = Some (mkI IPause n (j_chan j) (j_fresh j), [])).
        { destruct r as [r|]; [|right; reflexivity]. destruct r; try (right; reflexivity). left. eauto. }
        destruct D as [(x & y & z & ->)|D]; [|exact (PAUSE _ eq_refl D)]. set (n1 := set_manufacturer n (mkMS x y z)).
        destruct (product_known b fs fw n (mkMS x y z) MS TY (rouses n)) as (NI & NM & NF & NE & _ & _). fold n1 in NI, NM, NF, NE.
        destruct (quiet_goes _ _ _ (WAnswer (address b)) (IGotReport (Some (RManufacturer x y z)))
          (mkI (fst (after_ms n1)) n1 (j_chan j) (j_fresh j)) (OEvent (n_id n) :: snd (after_ms n1)) SD) as (w4 & G4 & SD4).
        { right; right; reflexivity. }
        { cbn [job_label]. rewrite A. reflexivity. }
        { rewrite PC. cbn [istep i_pc i_node]. fold n1. destruct (after_ms n1). reflexivity. }
        { cbn [commands_of flat_map app]. unfold after_ms. destruct (n_endpoints n1); [destruct (n_states_ok n1)|]; reflexivity. }
        { exact NI. }
        cbn [i_pc i_node i_chan i_fresh] in SD4.
        destruct (from_product file ns b fs fw ma mt mp fe ex ey count IFE SCE RP _ _ n (mkMS x y z) SD4 eq_refl eq_refl (rouses n) MS TY)
          as (w' & j' & n' & G & SD' & P & I & K2 & q & K0 & K1 & K3).
        exists w', j', n'. split; [exact (goes_trans _ _ _ _ G4 G)|]. repeat (split; [assumption|]). split; [congruence|]. split; [congruence|].
        intros e E. destruct K3 as [[K3 _]|[K3 _]]; congruence.
      + destruct PO as [TY [MS EP]].
        assert (D : (exists x y z, r = Some (REndpoints x y z)) \/
          istep (mkI (IAwait SEp) n (j_chan j) (j_fresh j)) (IGotReport r) = Some (mkI IPause n (j_chan j) (j_fresh j), [])).
        { destruct r as [r|]; [|right; reflexivity]. destruct r; try (right; reflexivity). left. eauto. }
        destruct D as [(x & y & z & ->)|D]; [|exact (PAUSE _ eq_refl D)].
        destruct (quiet_goes _ _ _ (WAnswer (address b)) (IGotReport (Some (REndpoints x y z)))
          (mkI ITop (set_endpoints n (made_endpoints n z)) (j_chan j) (j_fresh j)) [OEvent (n_id n)] SD) as (w4 & G4 & SD4).
        { right; right; reflexivity. }
        { cbn [job_label]. rewrite A. reflexivity. }
        { rewrite PC. reflexivity. }
        { reflexivity. }
        { reflexivity. }
        assert (KS : keeps_known n (set_endpoints n (made_endpoints n z))) by (repeat split; auto; congruence).
        apply (ends_from _ _ _ _ G4 KS). apply (top_ends _ _ _ SD4); reflexivity.
      + destruct PO as [(q & IN & _) [MS EP]].
        destruct (quiet_goes _ _ _ (WAnswer (address b)) (IGotReport r) (mkI (IStates l) n (j_chan j) (j_fresh j)) [] SD) as (w4 & G4 & SD4).
        { right; right; reflexivity. }
        { cbn [job_label]. rewrite A. reflexivity. }
        { rewrite PC. reflexivity. }
        { reflexivity. }
        { reflexivity. }
        apply (ends_from _ _ _ _ G4 (known_refl n)). apply finished_ends.
        apply (from_states file ns b fs l q _ _ _ SD4); try reflexivity; assumption.
  Qed.
  Lemma all_end w j n : stands w j n -> hope w j -> j_pc j <> IDone ->
    (forall s, j_pc j <> IWait s None) -> (forall s, j_pc j = IFetch s -> j_chan j <> None) -> ends w n.
  Proof using All.
    intros SD0 HP0 ND NW NF. destruct (written_goes _ _ _ SD0 HP0) as (w1 & j1 & G1 & SD & HP & BU & PC & CH).
    apply (ends_from _ _ _ _ G1 (known_refl n)). rewrite <- PC in ND, NW, NF. rewrite <- CH in NF. clear G1 PC CH HP0 SD0 w j.
    rename w1 into w, j1 into j.
    assert (PO : pc_ok (j_pc j) n).
    { destruct SD as [(ls & tr & o & R) C M J N]. exact (wi_pc _ _ _ (winv_run _ _ _ _ _ _ R) _ _ _ J N). }
    assert (WAIT : forall w j s c, stands w j n -> j_busy j = false -> j_pc j = IWait s (Some c) -> j_chan j = Some c -> j_req j = None ->
      typed n -> stage_ok s n -> ends w n).
    { intros w0 j0 s c SD0 B0 P0 C0 Q0 TY ST.
      destruct (goes_wakes file ns b fs fw _ _ _ s c SD0 Q0 P0 C0 B0 IFW SCW RW) as (w2 & j2 & G2 & SD2 & B2 & P2).
      apply (ends_from _ _ _ _ G2 (known_refl n)). exact (send_ends _ _ _ _ SD2 B2 P2 TY ST). }
    destruct (pauses (j_pc j)) eqn:PS.
    - destruct (fetched_goes _ _ _ SD HP BU PS) as (w2 & j2 & G2 & SD2 & H2 & P2). apply (ends_from _ _ _ _ G2 (known_refl n)).
      destruct (answered_goes _ _ _ SD2 H2) as (w3 & j3 & a & G3 & SD3 & P3 & A3 & K3). apply (ends_from _ _ _ _ G3 (known_refl n)).
      rewrite P2 in *. apply (answer_ends _ _ _ a SD3); rewrite ?P3; assumption.
    - destruct (j_pc j) as [| | |s|s|s c|s|s|l|l| | |] eqn:PC; try discriminate.
      + exact (top_ends _ _ _ SD BU PC).
      + exact (pause_ends _ _ _ SD PC).
      + destruct PO as [TY ST]. destruct (enter file ns b fs fw _ _ _ _ SD BU PC (rouses n)) as (w1 & j1 & G1 & SD1 & B1 & P1).
        apply (ends_from _ _ _ _ G1 (known_refl n)). exact (send_ends _ _ _ _ SD1 B1 P1 TY ST).
      + destruct PO as [TY ST]. destruct (j_chan j) as [c|] eqn:CH; [|destruct (NF s eq_refl eq_refl)].
        destruct (quiet_goes _ _ _ (WGo (address b)) IGo (mkI (IWait s (Some c)) n (Some c) (j_fresh j)) [] SD) as (w1 & G1 & SD1).
        * left; reflexivity.
        * cbn [job_label]. rewrite BU. reflexivity.
        * rewrite PC, CH. reflexivity.
        * reflexivity.
        * reflexivity.
        * apply (ends_from _ _ _ _ G1 (known_refl n)). apply (WAIT _ _ s c SD1); try reflexivity; assumption.
      + destruct PO as [TY ST]. destruct c as [c|]; [|destruct (NW s eq_refl)].
        pose proof SD as [(ls & tr & o & R) C M J N]. pose proof (linv_run _ _ _ _ _ _ R _ _ J) as LI.
        exact (WAIT _ _ s c SD BU PC (li_chan _ _ _ LI _ _ PC) (li_free _ _ _ LI _ _ PC) TY ST).
      + destruct PO as [TY ST]. exact (send_ends _ _ _ _ SD BU PC TY ST).
      + destruct s; try discriminate. destruct PO.
      + destruct PO as [(q & IN & _) [MS EP]]. apply finished_ends. exact (from_states file ns b fs l q _ _ _ SD BU PC IN MS EP).
      + apply finished_ends. exact (from_final file ns b fs _ _ _ SD BU PC).
      + congruence.
      + destruct PO.
  Qed.
End Resume.

(** ** The theorem *)
Lemma identification_can_end : forall file ns ls w tr o b n0,
  wrun (wstart file ns) ls = Some (Ok (w, tr, o)) -> c_crashed (y_conn (w_sys w)) = false ->
  c_mode (y_conn (w_sys w)) = RReading \/ c_mode (y_conn (w_sys w)) = RStopped ->
  unfinished w b -> ~ is_lost w tr b -> node_of (w_sys w) b = Some n0 ->
  forall fi pi fm ma mt mp fe x y count fw,
  self_contained fi -> info_of fi = Some pi ->
  self_contained fm -> report_of fm = [(b, RManufacturer ma mt mp)] ->
  self_contained fe -> report_of fe = [(b, REndpoints x y count)] ->
  self_contained fw -> report_of fw = [(b, RWakeUp)] ->
  exists ls' w' ev o' n, wrun w ls' = Some (Ok (w', ev, o')) /\ Forall (only [fi; fm; fe; fw]) ev /\ Forall (moves b) ls' /\
    returned w' b /\ node_of (w_sys w') b = Some n /\ n_identified n = true /\ keeps_known n0 n.
Proof.
  intros file ns ls w tr o b n0 R C M (j & J & ND) NIL N fi pi fm ma mt mp fe x y count fw SI II SM RM SE RP SW RW.
  assert (NL : ~ lost tr j) by (intros X; apply NIL; exists j; auto).
  set (fs := [fi; fm; fe; fw]).
  assert (HP : hope w j).
  { intros PS HJ. pose proof (linv_run _ _ _ _ _ _ R _ _ J) as LI. destruct (j_req j) as [i|] eqn:Q; [|destruct (li_asked _ _ _ LI PS Q)].
    exists i. split; [reflexivity|]. destruct (wrun_conn _ _ _ _ _ _ R) as [cl CR].
    destruct (kinv_run _ _ _ _ _ _ R _ _ J i Q PS) as (d & wt & t & er & CA & RK).
    apply (open_invariant _ _ _ CR C _ _ _ _ _ CA).
    - destruct (j_pc j) as [| | |s|s|s c|s|[| |]|l|l| | |]; try discriminate; injection RK as <- _ _; discriminate.
    - intros X. apply in_replies_closed in X. apply NL. right. split; [exact PS|]. exists i. auto. }
  assert (X : exists w1, goes b fs w w1 /\ stands file ns b w1 j n0 /\ hope w1 j).
  { destruct M as [M|M].
    - exists w. split; [apply goes_refl|]. split; [|exact HP]. split; [exists ls, tr, o; exact R|exact C|exact M|exact J|exact N].
    - assert (S : exists s', step (y_conn (w_sys w)) LConnect = Some (s', []) /\ c_crashed s' = false /\ c_mode s' = RReading /\ c_open s' = c_open (y_conn (w_sys w))).
      { unfold step. rewrite C, M. eexists. split; [reflexivity|]. conn_simpl. auto. }
      destruct S as (s' & S & C' & M' & O'). destruct (lift_step _ _ _ _ S) as (w' & o1 & W1 & Y1 & N1 & J1); [constructor|].
      specialize (J1 _ _ J). pose proof (goes_one (b:=b) fs _ _ _ _ _ W1 ltac:(constructor)) as G. exists w'. split; [exact G|].
      split; [split; [|congruence|congruence|exact J1|rewrite N1; exact N]|].
      + apply (reached_goes file ns b fs w w'); [exists ls, tr, o; exact R|exact G].
      + intros P H. destruct (HP P H) as (i & Q & O). exists i. split; [exact Q|]. rewrite Y1, O'. exact O. }
  destruct X as (w1 & G1 & SD & HP1).
  assert (E : ends file ns b fs w1 n0).
  { apply (all_end file ns b fs fi pi fm ma mt mp fe x y count fw) with (j := j); try assumption; try (unfold fs; cbn; auto; fail).
    - intros s X. apply NL. left. exists s. left. exact X.
    - intros s X Y. apply NL. left. exists s. right. split; assumption. }
  destruct E as (w' & j' & n' & G & SD' & P' & ID & KS).
  destruct (goes_trans _ _ _ _ G1 G) as (ls' & ev & o' & RR & F & MV).
  exists ls', w', ev, o', n'. split; [exact RR|]. split; [exact F|]. split; [exact MV|]. split; [exists j'; split; [exact (sd_job _ _ _ _ _ _ SD')|exact P']|].
  split; [exact (sd_node _ _ _ _ _ _ SD')|]. split; [exact ID|exact KS].
Qed.

(** ** What is lost stays lost *)
Definition passed (st : cst) (id : Z) : Prop :=
  match c_disc st with
  | DcIdle | DcAsked => False
  | DcLoop i _ | DcAdded i _ | DcPushed i _ => (id <= Z.of_nat i)%Z
  | DcDone => True
  end.
Lemma passed_step st l st' o id : cstep st l = Some (Ok (st', o)) -> (In id (c_ident st) -> passed st id) ->
  (In id (c_ident st') -> passed st' id) /\ (passed st id -> passed st' id /\ ~ In (COIdentify id) o).
Proof.
  intros H P. apply cstep_inv in H. unfold passed in *.
  destruct H; cbn [with_disc with_deb with_ident with_setup with_nodes add_node push c_ident c_disc] in *;
    repeat match goal with X : c_disc _ = _ |- _ => rewrite X in *; clear X end;
    try (split; [exact P|]; intros K; split; [exact K|cbn; intuition discriminate]; fail).
  - split; [tauto|intros []].
  - split; [tauto|intros []].
  - split; [tauto|]. intros _. split; [exact I|intros []].
  - split; [intros X; specialize (P X); lia|]. intros K. split; [lia|intros []].
  - split.
    + intros X. apply in_app_iff in X. destruct X as [X|[<-|[]]]; [specialize (P X); lia|lia].
    + intros K. split; [lia|]. intros [X|[]]. injection X as <-. lia.
  - split.
    + intros X. apply in_app_iff in X. destruct X as [X|[<-|[]]]; [specialize (P X); lia|lia].
    + intros K. split; [lia|]. intros [X|[]]. injection X as <-. lia.
  - match goal with |- context [pushes ?x ?e] => destruct (pushes_frame e x) as (_&_&_&_&D&G&_) end. rewrite D, G.
    cbn [with_windows with_nodes c_ident c_disc]. split; [exact P|]. intros K. split; [exact K|].
    intros X. apply in_map_iff in X. destruct X as (? & X & _). discriminate.
Qed.
Lemma passed_run ls : forall st st' o id, crun st ls = Some (Ok (st', o)) -> (In id (c_ident st) -> passed st id) ->
  (In id (c_ident st') -> passed st' id) /\ (passed st id -> passed st' id /\ ~ In (COIdentify id) o).
Proof.
  induction ls as [|l ls IH]; intros st st' o id R P; cbn [crun] in R.
  - injection R as <- <-. split; [exact P|]. intros K. split; [exact K|intros []].
  - destruct (cstep st l) as [[[s1 o1]| |]|] eqn:S; try discriminate.
    destruct (crun s1 ls) as [[[s2 o2]| |]|] eqn:R2; try discriminate. injection R as <- <-.
    destruct (passed_step _ _ _ _ _ S P) as [A B]. destruct (IH _ _ _ _ R2 A) as [A2 B2]. split; [exact A2|].
    intros K. destruct (B K) as [K1 N1]. destruct (B2 K1) as [K2 N2]. split; [exact K2|].
    intros X. apply in_app_iff in X. tauto.
Qed.
Lemma passed_whole file ns ls w tr o id : wrun (wstart file ns) ls = Some (Ok (w, tr, o)) ->
  In id (c_ident (y_ctl (w_sys w))) -> passed (y_ctl (w_sys w)) id.
Proof.
  intros R. destruct (wrun_yrun _ _ _ _ _ R) as [yl Y]. destruct (yrun_spec _ _ _ _ _ Y) as [_ (cls & CC & _)].
  apply (passed_run _ _ _ _ id CC). intros X. exfalso. cbn [wstart ystart w_sys y_ctl] in X.
  destruct (load_trig file ns) as (_ & _ & _ & _ & E & _). unfold loaded in E. rewrite E in X. destruct X.
Qed.
Lemma got_closed cl s l s' tr ev i : run init cl = Some (s, tr) -> step s l = Some (s', ev) -> In (EvClose i) tr -> ~ In (EvGot i) ev.
Proof.
  intros R S C G. destruct (got_alone _ _ _ _ _ S G) as (_ & O & _).
  destruct (replied_once _ _ _ i R) as [_ N]; [|exact (N O)]. apply in_closed in C. intros E. rewrite E in C. destruct C.
Qed.
Lemma lost_hear tr ev id j : (forall i, In (EvClose i) tr -> ~ In (EvGot i) ev) -> lost tr j -> lost (tr ++ ev) (fold_left (hear id) ev j).
Proof.
  intros NG [(s & L)|(W & i & Q & H & C)].
  - left. exists s. clear NG. revert L. revert j. induction ev as [|e ev IH]; intros j L; [exact L|]. cbn [fold_left]. apply IH.
    assert (X : j_pc (hear id j e) = j_pc j /\ (j_chan j = None -> j_chan (hear id j e) = None)).
    { destruct e as [| |k b| | |k| |k m|k| | | | | | | |b r|]; cbn [hear]; try (split; [reflexivity|auto]; fail).
      - destruct (own_request j k); split; auto.
      - destruct (own_request j k); split; auto.
      - destruct (_ && _); [|split; auto]. destruct (is_info (j_pc j)); [split; auto|]. destruct m as [m|]; [|split; auto]. destruct (m_data m) as [[]|]; split; auto.
      - destruct (_ && _); split; auto.
      - destruct r; try (split; auto; fail). destruct (id =? Z.of_N (b2N b))%Z; [|split; auto]. cbn [istep i_pc i_chan i_node i_fresh].
        destruct L as [->|[-> CH]]; destruct (j_chan j) eqn:CH0; cbn [j_pc j_chan i_pc i_chan]; auto; congruence. }
    destruct X as [-> X]. destruct L as [L|[L CH]]; [left; exact L|right; split; [exact L|exact (X CH)]].
  - right. rewrite (hear_pauses id ev j W). split; [exact W|]. exists i. rewrite hear_req. split; [exact Q|].
    split; [|apply in_or_app; left; exact C].
    destruct (j_holds (fold_left (hear id) ev j)) eqn:E; [|reflexivity]. rewrite (hear_holds id i ev j (NG i C) Q E) in H. discriminate.
Qed.
Lemma lost_step file ns ls w tr o id j l w' ev o' : wrun (wstart file ns) ls = Some (Ok (w, tr, o)) ->
  zlookup id (w_jobs w) = Some j -> lost tr j -> wstep w l = Some (Ok (w', ev, o')) ->
  exists j', zlookup id (w_jobs w') = Some j' /\ lost (tr ++ ev) j'.
Proof.
  intros R J LO H. destruct (wrun_conn _ _ _ _ _ _ R) as [cl CR]. pose proof (job_ident _ _ _ _ _ _ R _ _ J) as IDT.
  assert (MORE : lost (tr ++ ev) j).
  { destruct LO as [L|(W & i & Q & HJ & C)]; [left; exact L|right]. split; [exact W|]. exists i.
    repeat (split; [assumption|]). apply in_or_app. left. exact C. }
  destruct (wstep_job _ _ _ _ _ H) as [(yl & -> & PL & YS & WJ)|(id' & j' & n' & il & st & io & L & J' & N' & JL & IS & YR' & WJ)].
  - assert (NI : ~ In (COIdentify id) o').
    { destruct (wstep_yrun _ _ _ _ _ H) as [yls YR]. destruct (yrun_spec _ _ _ _ _ YR) as [_ (cls & CC & _)].
      destruct (passed_run _ _ _ _ id CC (passed_whole _ _ _ _ _ _ _ R)) as [_ X]. apply X. exact (passed_whole _ _ _ _ _ _ _ R IDT). }
    assert (JJ : zlookup id (w_jobs w') = Some (fold_left (hear id) ev j)).
    { rewrite WJ. assert (HH : zlookup id (hears ev (w_jobs w)) = Some (fold_left (hear id) ev j)).
      { unfold hears. rewrite (zlookup_map (fun i j => fold_left (hear i) ev j)), J. reflexivity. }
      revert HH NI. generalize (hears ev (w_jobs w)). clear. unfold started. induction o' as [|x o IH]; intros jobs HH NI; [exact HH|].
      cbn [fold_left]. apply IH; [|intros X; apply NI; right; exact X]. destruct x; try exact HH. rewrite zlookup_set.
      destruct (Z.eqb_spec id id0) as [->|_]; [destruct NI; left; reflexivity|exact HH]. }
    exists (fold_left (hear id) ev j). split; [exact JJ|].
    destruct yl as [yl| |yl]; cbn [ystep] in YS.
    + destruct (step (y_conn (w_sys w)) yl) as [[s e]|] eqn:S; [|discriminate].
      destruct (follow _ _ e) as [[[[a c] o3]| |]|]; try discriminate. injection YS as _ <- _.
      apply lost_hear; [intros i; exact (got_closed _ _ _ _ _ _ _ CR S)|exact LO].
    + destruct (step (y_conn (w_sys w)) _) as [[s e]|] eqn:S; [|discriminate].
      destruct (cstep _ _) as [[[c o3]| |]|]; try discriminate. injection YS as _ <- _.
      apply lost_hear; [intros i; exact (got_closed _ _ _ _ _ _ _ CR S)|exact LO].
    + destruct (own_step yl); [|discriminate].
      destruct (cstep _ _) as [[[c o3]| |]|]; try discriminate. injection YS as _ <- _. rewrite app_nil_r. exact LO.
  - rewrite WJ. destruct (Z.eqb_spec id id') as [<-|NE].
    2:{ exists j. split; [|exact MORE]. rewrite zlookup_set. apply Z.eqb_neq in NE. rewrite NE. exact J. }
    exists (job_after w j' st io). split; [rewrite zlookup_set, Z.eqb_refl; reflexivity|].
    rewrite J in J'. injection J' as <-.
    pose proof (li_kind _ _ _ (linv_run _ _ _ _ _ _ R _ _ J)) as K. unfold kind_ok in K.
    destruct LO as [(s & [P|[P CH]])|(W & i & Q & HJ & C)].
    + exfalso. rewrite P in IS. destruct L as [->|[->| ->]]; cbn [job_label] in JL.
      * destruct (j_busy j); [discriminate|]. injection JL as <-. discriminate.
      * injection JL as <-. discriminate.
      * destruct (j_ans j) as [[]|]; [injection JL as <-|injection JL as <-|discriminate]; discriminate.
    + rewrite P, CH in IS. destruct L as [->|[->| ->]]; cbn [job_label] in JL.
      * destruct (j_busy j); [discriminate|]. injection JL as <-. cbn [istep i_pc i_chan i_node i_fresh] in IS. injection IS as <- <-.
        left. exists s. left. reflexivity.
      * injection JL as <-. discriminate.
      * destruct (j_ans j) as [[]|]; [injection JL as <-|injection JL as <-|discriminate]; discriminate.
    + exfalso. destruct (j_ans j) as [[]|] eqn:A; [destruct K; congruence|destruct K; congruence|].
      destruct L as [->|[->| ->]]; cbn [job_label] in JL.
      * destruct (j_busy j); [discriminate|]. injection JL as <-.
        destruct (j_pc j) as [| | |s|s|s c|s|[| |]|x|x| | |]; discriminate.
      * injection JL as <-. destruct (j_pc j) as [| | |s|s|s c|s|[| |]|x|x| | |]; discriminate.
      * rewrite A in JL. discriminate.
Qed.
Lemma lost_run ls' : forall file ns ls w tr o b w' ev o', wrun (wstart file ns) ls = Some (Ok (w, tr, o)) ->
  is_lost w tr b -> wrun w ls' = Some (Ok (w', ev, o')) -> is_lost w' (tr ++ ev) b.
Proof.
  induction ls' as [|l ls' IH]; intros file ns ls w tr o b w' ev o' R LO R'; cbn [wrun] in R'.
  - injection R' as <- <- <-. rewrite app_nil_r. exact LO.
  - destruct (wstep w l) as [[[[w1 e1] o1]| |]|] eqn:S; try discriminate.
    destruct (wrun w1 ls') as [[[[w2 e2] o2]| |]|] eqn:R2; try discriminate. injection R' as <- <- <-.
    assert (R1 : wrun (wstart file ns) (ls ++ [l]) = Some (Ok (w1, tr ++ e1, o ++ o1))).
    { pose proof (wrun_app ls (wstart file ns) w tr o [l] w1 (e1 ++ []) (o1 ++ []) R) as X. rewrite !app_nil_r in X. apply X.
      cbn [wrun]. rewrite S, !app_nil_r. reflexivity. }
    rewrite app_assoc. apply (IH _ _ _ _ _ _ _ _ _ o2 R1); [|exact R2]. destruct LO as (j & J & LO).
    destruct (lost_step _ _ _ _ _ _ _ _ _ _ _ _ R J LO S) as (j' & J' & L'). exists j'. auto.
Qed.
Lemma lost_never_ends : forall file ns ls w tr o b,
  wrun (wstart file ns) ls = Some (Ok (w, tr, o)) -> is_lost w tr b ->
  forall ls' w' ev o', wrun w ls' = Some (Ok (w', ev, o')) -> ~ returned w' b.
Proof.
  intros file ns ls w tr o b R LO ls' w' ev o' R' (j & J & P). destruct (lost_run _ _ _ _ _ _ _ _ _ _ _ R LO R') as (j' & J' & L).
  rewrite J in J'. injection J' as <-. destruct L as [(s & [L|[L _]])|(L & _)]; rewrite P in L; discriminate.
Qed.
