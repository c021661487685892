(** Proofs about what an application is told. *)
From Verif Require Import ModelBase ModelReports ModelSerial ModelCommands ModelNodes ModelList DataDevices ModelDatabase.
From Verif Require Import ModelIdentify ModelController ModelConnection ModelSystem ModelWhole.
From Verif Require Import SpecFrame SpecDecode SpecMessage SpecConnection SpecIdentify SpecController SpecNodes SpecSystem SpecWhole SpecSilent.
From Verif Require Import ProofBase ProofIdentify ProofController ProofSystem ProofDiscovery ProofWhole.
From Coq Require Import Lia.
Local Arguments device_new : simpl never.
Local Arguments get_mandatory : simpl never.

Definition told_of (id : Z) (n n' : node) (o : list cobs) : Prop := shown n' = shown n \/ In (EUpdated id) (pushed o).
Lemma pushed_app a b : pushed (a ++ b) = pushed a ++ pushed b.
Proof. apply flat_map_app. Qed.
Lemma received_app a b : received (a ++ b) = received a ++ received b.
Proof. apply flat_map_app. Qed.
Lemma told_of_trans id a b c o1 o2 : told_of id a b o1 -> told_of id b c o2 -> told_of id a c (o1 ++ o2).
Proof.
  unfold told_of. rewrite pushed_app. intros [->|A] [->|B]; auto using in_or_app.
Qed.

(** ** Reports *)
Lemma process_event_told n r n' evs op : process_event n r = Ok (n', evs, op) -> n' = n \/ evs = [n_id n].
Proof.
  intros H. destruct r as [t ? ? ? ? s ?| | | | | | | |]; cbn [process_event] in H;
    try (injection H as <- <- _; left; reflexivity).
  1: destruct (beq s xff); [|injection H as <- <- _; left; reflexivity].
  1: destruct (beq t x00).
  all: repeat match goal with
    | H : context [set_bool ?a ?b ?c] |- _ => destruct (set_bool a b c); cbn [bind] in H; try discriminate H
    | H : context [set_float ?a ?b ?c] |- _ => destruct (set_float a b c); cbn [bind] in H; try discriminate H
    end; injection H as _ <- _; right; reflexivity.
Qed.
Lemma window_end_told n n' evs : alarm_window_end n = Ok (n', evs) -> evs = [n_id n].
Proof.
  unfold alarm_window_end. intros H.
  repeat match goal with
    | H : context [set_bool ?a ?b ?c] |- _ => destruct (set_bool a b c); cbn [bind] in H; try discriminate H
    | H : context [set_float ?a ?b ?c] |- _ => destruct (set_float a b c); cbn [bind] in H; try discriminate H
    end. injection H as _ <-. reflexivity.
Qed.

Lemma cstep_told st l st' o id n : cstep st l = Some (Ok (st', o)) -> keyed st -> not_ident l ->
  zlookup id (c_nodes st) = Some n -> exists n', zlookup id (c_nodes st') = Some n' /\ told_of id n n' o.
Proof.
  intros E K NI N.
  assert (Same : forall st1, c_nodes st1 = c_nodes st -> exists n', zlookup id (c_nodes st1) = Some n' /\ told_of id n n' o)
    by (intros st1 ->; exists n; split; [exact N|left; reflexivity]).
  assert (Ev : forall st1 i a a' evs, node_events st1 i evs = Ok (st', o) -> c_nodes st1 = zset i a' (c_nodes st) ->
    zlookup i (c_nodes st) = Some a -> a' = a \/ evs = [n_id a] -> exists n', zlookup id (c_nodes st') = Some n' /\ told_of id n n' o).
  { intros st1 i a a' evs H M L G. destruct (keyed_node_events _ _ _ _ _ H) as [-> ->]. rewrite M, zlookup_set.
    destruct (Z.eqb_spec id i) as [->|_]; [exists a'; split; [reflexivity|]|exists n; split; [exact N|left; reflexivity]].
    rewrite N in L. injection L as <-. destruct G as [-> | ->]; [left; reflexivity|right]. rewrite (K _ _ N). left. reflexivity. }
  destruct l as [| |m| |b r|i|i x ann| | | | |d]; cbn [cstep] in E; try destruct NI.
  - destruct (c_disc st); try discriminate. injection E as <- <-. apply Same. reflexivity.
  - destruct (c_disc st); try discriminate; injection E as <- <-; apply Same; reflexivity.
  - destruct (c_disc st); try discriminate. destruct m as [m|]; [destruct (m_data m) as [[]|]|];
      injection E as <- <-; apply Same; reflexivity.
  - destruct (c_disc st) as [| |i [|a rest]|i rest|i rest|]; try discriminate.
    + injection E as <- <-. apply Same. reflexivity.
    + destruct a; cbn [negb] in E; [|injection E as <- <-; apply Same; reflexivity].
      destruct (Nat.eqb i 0); [injection E as <- <-; apply Same; reflexivity|].
      destruct (zlookup _ _) eqn:L; injection E as <- <-; [apply Same; reflexivity|].
      cbn. rewrite zlookup_set.
      destruct (Z.eqb_spec id (Z.of_nat i + 1)) as [->|_]; [congruence|]. exists n. split; [exact N|left; reflexivity].
    + injection E as <- <-. match goal with |- context [push ?x ?e] => destruct (pushes_frame [e] x) as (_ & G & _) end.
      cbn [pushes] in G. apply Same. cbn. exact G.
    + injection E as <- <-. apply Same. reflexivity.
  - destruct (zlookup (Z.of_N (b2N b)) (c_nodes st)) as [a|] eqn:L; [|injection E as <- <-; apply Same; reflexivity].
    destruct (process_event a r) as [[[a' evs] op]| |] eqn:P; cbn [bind] in E; try discriminate.
    injection E as E. apply (Ev _ _ a a' _ E); [destruct op; reflexivity|exact L|exact (process_event_told _ _ _ _ _ P)].
  - destruct (existsb (Z.eqb i) (c_windows st)); [|discriminate].
    destruct (zlookup i (c_nodes st)) as [a|] eqn:L; [|discriminate].
    destruct (alarm_window_end a) as [[a' evs]| |] eqn:P; cbn [bind] in E; try discriminate.
    injection E as E. apply (Ev _ _ a a' _ E); [reflexivity|exact L|right; exact (window_end_told _ _ _ P)].
  - destruct (c_queue st); try discriminate. injection E as <- <-. apply Same. reflexivity.
  - destruct (c_trig st), (c_deb st); try discriminate; injection E as <- <-; apply Same; reflexivity.
  - destruct (c_deb st) as [| |age|]; try discriminate. destruct (save_delay <=? age)%N; [|discriminate].
    destruct (c_file st); injection E as <- <-; apply Same; reflexivity.
  - destruct (c_deb st); try discriminate. injection E as <- <-. apply Same. reflexivity.
  - destruct (c_deb st); injection E as <- <-; apply Same; reflexivity.
Qed.
Lemma crun_told cls : forall st st' o id n, crun st cls = Some (Ok (st', o)) -> keyed st -> Forall not_ident cls ->
  zlookup id (c_nodes st) = Some n -> exists n', zlookup id (c_nodes st') = Some n' /\ told_of id n n' o.
Proof.
  induction cls as [|l cls IH]; intros st st' o id n R K F N.
  - injection R as <- <-. exists n. split; [exact N|left; reflexivity].
  - apply crun_cons in R. destruct R as (s1 & o1 & o2 & S & R & ->). inversion F as [|? ? F1 F2]; subst.
    destruct (cstep_told _ _ _ _ _ _ S K F1 N) as (n1 & N1 & G1).
    destruct (IH _ _ _ _ _ R (proj1 (keyed_step _ _ _ _ K S)) F2 N1) as (n2 & N2 & G2).
    exists n2. split; [exact N2|exact (told_of_trans _ _ _ _ _ _ G1 G2)].
Qed.

(** ** Identify *)
Lemma after_info_shown n pi pc n' o : after_info n pi = (pc, n', o) -> shown n' = shown n.
Proof.
  unfold after_info. cbv zeta. destruct (n_ms _); [destruct (after_ms _) as [pc0 o0]|]; intros H; injection H as _ <- _; reflexivity.
Qed.
Lemma istep_told pc n ch fr il st o : istep (mkI pc n ch fr) il = Some (st, o) -> pc_ok pc n ->
  match il with IReport _ | IWindow => False | _ => True end ->
  shown (i_node st) = shown n \/ events_of o <> [].
Proof.
  intros E PC IL. destruct il as [| |m|r|r|]; try destruct IL; cbn [istep i_pc i_node i_chan i_fresh] in E.
  - left. destruct pc as [| | |s|s|s c|s|s|lc|lc| | |]; try discriminate.
    + destruct (n_info n) as [pi|].
      * destruct (after_info n pi) as [[pc n'] o'] eqn:A. injection E as <- <-. exact (after_info_shown _ _ _ _ _ A).
      * injection E as <- <-. reflexivity.
    + destruct (n_awake n); [injection E as <- <-|destruct ch; injection E as <- <-]; reflexivity.
    + injection E as <- <-. reflexivity.
    + destruct s; [injection E as <- <-; reflexivity| |injection E as <- <-; reflexivity].
      destruct PC as [_ [_ EP]]. destruct (n_classes n); injection E as <- <-; [reflexivity|].
      unfold shown. cbn in EP |- *. rewrite EP. reflexivity.
    + destruct lc as [|c r]; [injection E as <- <-; reflexivity|]. destruct (state_request n c); injection E as <- <-; reflexivity.
    + injection E as <- <-. reflexivity.
  - left. destruct pc; try discriminate. injection E as <- <-. reflexivity.
  - destruct pc as [| | |s|s|s c|s|s|lc|lc| | |]; try discriminate.
    destruct m as [m|]; [|injection E as <- <-; left; reflexivity].
    destruct (m_data m) as [[a b r|act|pi]|]; try (injection E as <- <-; left; reflexivity).
    destruct (after_info (set_info n pi) pi) as [[pc n'] o'] eqn:A. injection E as <- <-. right. discriminate.
  - destruct pc as [| | |s|s|s c|s|s|lc|lc| | |]; try discriminate.
    + destruct s; [| |discriminate].
      * destruct r as [[|m t i| | | | | | |]|]; try (injection E as <- <-; left; reflexivity).
        destruct (after_ms _) as [pc o'] eqn:A. injection E as <- <-. right. discriminate.
      * destruct r as [[| |x y count| | | | | |]|]; try (injection E as <- <-; left; reflexivity).
        injection E as <- <-. right. discriminate.
    + injection E as <- <-. left. reflexivity.
Qed.
Lemma idents_told id n e es y y' ev o : yrun y (map (fun _ : Z => YCtl (CIdent id n true)) (e :: es)) = Some (Ok (y', ev, o)) ->
  In (EUpdated id) (pushed o).
Proof.
  cbn [map yrun]. intros R. destruct (ystep y _) as [[[[y1 e1] o1]| |]|] eqn:S; try discriminate.
  destruct (yrun y1 _) as [[[[y2 e2] o2]| |]|] eqn:R2; try discriminate. injection R as <- <- <-.
  cbn [ystep own_step] in S. destruct (cstep (y_ctl y) _) as [[[c o3]| |]|] eqn:C; try discriminate. injection S as <- <- <-.
  cbn [cstep] in C. destruct (_ && _); [|discriminate].
  match type of C with Some ?x = Some ?z => assert (C' : x = z) by congruence end.
  destruct (keyed_node_events _ _ _ _ _ C') as [_ ->]. left. reflexivity.
Qed.

Lemma winv_keyed ns w tr : winv ns w tr -> keyed (y_ctl (w_sys w)).
Proof. intros [_ _ IN _ _] id n N. exact (pv_id _ _ _ _ (IN _ _ N)). Qed.
Lemma wstep_told ns w tr l w' ev o : winv ns w tr -> wstep w l = Some (Ok (w', ev, o)) ->
  forall i a, zlookup i (c_nodes (y_ctl (w_sys w))) = Some a ->
    exists a', zlookup i (c_nodes (y_ctl (w_sys w'))) = Some a' /\ told_of i a a' o.
Proof.
  intros W H i a AI. unfold wstep in H.
  assert (G : forall id, match zlookup id (w_jobs w), zlookup id (c_nodes (y_ctl (w_sys w))) with
      | Some j, Some n =>
          match job_label l j with
          | Some il =>
              match istep (mkI (j_pc j) n (j_chan j) (j_fresh j)) il with
              | Some (st, o) =>
                  match yrun (w_sys w) (job_effect id st o) with
                  | Some (Ok (y, ev, o')) =>
                      Some (Ok (mkW y (zset id (job_after w j st o) (w_jobs w)), ev, o'))
                  | Some (Fail e) => Some (Fail e)
                  | Some Panic => Some Panic
                  | None => None
                  end
              | None => None
              end
          | None => None
          end
      | _, _ => None
      end = Some (Ok (w', ev, o)) -> exists a', zlookup i (c_nodes (y_ctl (w_sys w'))) = Some a' /\ told_of i a a' o).
  { intros id E. destruct (zlookup id (w_jobs w)) as [j|] eqn:J; [|discriminate].
    destruct (zlookup id (c_nodes (y_ctl (w_sys w)))) as [n|] eqn:N; [|discriminate].
    destruct (job_label l j) as [il|] eqn:JL; [|discriminate]. destruct (istep _ il) as [[st io]|] eqn:IS; [|discriminate].
    destruct (yrun _ _) as [[[[y e] o']| |]|] eqn:R; try discriminate. injection E as <- <- <-. cbn [w_sys].
    destruct W as [IJ IP IN IK IC].
    destruct (job_step_ok ns tr id n j l il st io (IJ _ _ J) (IP _ _ _ J N) (IN _ _ N) JL IS) as (_ & _ & Q3 & _).
    assert (IL : match il with IReport _ | IWindow => False | _ => True end).
    { destruct l as [yl|k|k|k]; cbn in JL; [discriminate|destruct (j_busy j); [discriminate|]|..]; try (injection JL as <-; exact I).
      destruct (j_ans j) as [[m|r]|]; injection JL as <- || discriminate JL; exact I. }
    pose proof (istep_told _ _ _ _ _ _ _ IS (IP _ _ _ J N) IL) as T.
    unfold job_effect in R. destruct (commands_of io) as [|m r].
    - destruct (events_of io) as [|x es].
      + destruct T as [T|T]; [|congruence]. destruct (ident_nodes _ _ _ _ _ _ R) as [_ X]. rewrite X.
        destruct (Z.eqb_spec i id) as [->|_]; [|exists a; split; [exact AI|left; reflexivity]].
        exists (i_node st). split; [reflexivity|]. rewrite N in AI. injection AI as <-. left. exact T.
      + pose proof (idents_told _ _ _ _ _ _ _ _ R) as P.
        destruct (idents_nodes id (i_node st) (x :: es) _ _ _ _ R) as [_ X]. rewrite X.
        destruct (Z.eqb_spec i id) as [->|_]; [|exists a; split; [exact AI|left; reflexivity]].
        exists (i_node st). split; [reflexivity|right; exact P].
    - destruct (request_kind (i_pc st)) as [[wt t] er]. destruct (call_effect _ _ _ _ _ _ _ _ R) as [-> _].
      exists a. split; [exact AI|left; reflexivity]. }
  destruct l as [yl|id|id|id]; try exact (G id H). clear G.
  destruct (plain yl) eqn:PL; [|discriminate].
  destruct (ystep (w_sys w) yl) as [[[[y e] o']| |]|] eqn:S; try discriminate. injection H as <- <- <-. cbn [w_sys].
  destruct (ystep_spec _ _ _ _ _ S) as [_ (cls & R & _ & O)]. apply (crun_told cls _ _ _ _ _ R (winv_keyed _ _ _ W)); [|exact AI].
  apply Forall_forall. intros c I. destruct c; try exact Logic.I. destruct (O _ I eq_refl) as [X|[]]. subst yl. discriminate.
Qed.
Lemma wrun_told ns ls : forall w tr w' ev o, winv ns w tr -> wrun w ls = Some (Ok (w', ev, o)) ->
  forall i a, zlookup i (c_nodes (y_ctl (w_sys w))) = Some a ->
    exists a', zlookup i (c_nodes (y_ctl (w_sys w'))) = Some a' /\ told_of i a a' o.
Proof.
  induction ls as [|l ls IH]; intros w tr w' ev o W R i a A; cbn [wrun] in R.
  - injection R as <- <- <-. exists a. split; [exact A|left; reflexivity].
  - destruct (wstep w l) as [[[[w1 e1] o1]| |]|] eqn:E; try discriminate.
    destruct (wrun w1 ls) as [[[[w2 e2] o2]| |]|] eqn:R2; try discriminate. injection R as <- <- <-.
    destruct (wstep_told _ _ _ _ _ _ _ W E i a A) as (a1 & A1 & T1).
    destruct (IH _ _ _ _ _ (winv_step _ _ _ _ _ _ _ W E) R2 i a1 A1) as (a2 & A2 & T2).
    exists a2. split; [exact A2|exact (told_of_trans _ _ _ _ _ _ T1 T2)].
Qed.

Lemma published file ns ls w tr o ls' w' tr' o' b n :
  wrun (wstart file ns) ls = Some (Ok (w, tr, o)) -> wrun w ls' = Some (Ok (w', tr', o')) ->
  node_of (w_sys w) b = Some n -> no_news b (pushed o') ->
  exists n', node_of (w_sys w') b = Some n' /\ shown n' = shown n.
Proof.
  intros R R' N Q.
  pose proof (winv_run _ _ _ _ _ _ R) as W.
  destruct (wrun_told _ _ _ _ _ _ _ W R' _ _ N) as (n' & N' & [T|T]); [|destruct (Q T)]. exists n'. auto.
Qed.

(** ** The queue *)
Lemma enq_all es : forall q, List.length (fold_left enq es q) <= List.length q + List.length es /\
  (List.length (fold_left enq es q) = List.length q + List.length es -> fold_left enq es q = q ++ es).
Proof.
  induction es as [|e es IH]; intros q; cbn [fold_left List.length].
  - rewrite app_nil_r. split; [lia|auto].
  - assert (L : List.length (enq q e) <= S (List.length q) /\ (List.length (enq q e) = S (List.length q) -> enq q e = q ++ [e])).
    { unfold enq. destruct (_ <? _)%nat; [rewrite app_length; cbn; split; [lia|auto]|split; lia]. }
    destruct (IH (enq q e)) as [A' B']. split; [lia|]. intros X. rewrite B' by lia. rewrite (proj2 L) by lia.
    rewrite <- app_assoc. reflexivity.
Qed.
Lemma crun_queue cls : forall st st' o, crun st cls = Some (Ok (st', o)) ->
  List.length (received o) + List.length (c_queue st') <= List.length (c_queue st) + List.length (pushed o) /\
  (List.length (received o) + List.length (c_queue st') = List.length (c_queue st) + List.length (pushed o) ->
   received o ++ c_queue st' = c_queue st ++ pushed o).
Proof.
  induction cls as [|l cls IH]; intros st st' o R.
  - injection R as <- <-. cbn. rewrite app_nil_r. split; [lia|auto].
  - apply crun_cons in R. destruct R as (s1 & o1 & o2 & S & R & ->). destruct (IH _ _ _ R) as [A B].
    rewrite received_app, pushed_app, !app_length.
    assert (C : List.length (received o1) + List.length (c_queue s1) <= List.length (c_queue st) + List.length (pushed o1) /\
      (List.length (received o1) + List.length (c_queue s1) = List.length (c_queue st) + List.length (pushed o1) ->
       received o1 ++ c_queue s1 = c_queue st ++ pushed o1)).
    { destruct (step_queue _ _ _ _ S) as [(e & -> & Q)|(Q & ->)].
      - rewrite Q. cbn. rewrite app_nil_r. split; [lia|auto].
      - rewrite Q. apply enq_all. }
    destruct C as [C D]. split; [lia|]. intros X. rewrite <- app_assoc, B, app_assoc, D by lia. rewrite <- app_assoc. reflexivity.
Qed.
Lemma wrun_crun ls : forall w w' ev o, wrun w ls = Some (Ok (w', ev, o)) ->
  exists cls, crun (y_ctl (w_sys w)) cls = Some (Ok (y_ctl (w_sys w'), o)).
Proof.
  intros w w' ev o R. destruct (wrun_yrun _ _ _ _ _ R) as (yl & Y). destruct (yrun_spec _ _ _ _ _ Y) as [_ (cls & C & _)].
  exists cls. exact C.
Qed.
Lemma up_to_date file ns ls w tr o ls' w' tr' o' b n :
  wrun (wstart file ns) ls = Some (Ok (w, tr, o)) -> wrun w ls' = Some (Ok (w', tr', o')) ->
  node_of (w_sys w) b = Some n ->
  nothing_lost w o' w' -> no_news b (received o') -> no_news b (waiting_events w') ->
  exists n', node_of (w_sys w') b = Some n' /\ shown n' = shown n.
Proof.
  intros R R' N L A B. apply (published _ _ _ _ _ _ _ _ _ _ _ _ R R' N).
  destruct (wrun_crun _ _ _ _ _ R') as (cls & C). destruct (crun_queue _ _ _ _ C) as [_ Q]. specialize (Q L).
  intros I. assert (X : In (EUpdated (address b)) (received o' ++ c_queue (y_ctl (w_sys w')))) by (rewrite Q; apply in_or_app; auto).
  apply in_app_or in X. destruct X as [X|X]; [exact (A X)|exact (B X)].
Qed.

(** ** Saving *)
Lemma updates_app a b : updates (a ++ b) = updates a + updates b.
Proof. unfold updates. rewrite pushed_app, filter_app, app_length. reflexivity. Qed.
Lemma no_updates o id : updates o = 0 -> ~ In (EUpdated id) (pushed o).
Proof.
  unfold updates. intros U I. assert (X : In (EUpdated id) (filter is_update (pushed o))) by (apply filter_In; auto).
  destruct (filter is_update (pushed o)); [destruct X|discriminate].
Qed.
Definition quiet_deb (d : deb) : Prop := match d with DTimer _ => False | _ => True end.
Definition due (t : nat) (st : cst) : Prop := c_file st = true /\ (quiet_deb (c_deb st) -> c_trig st = t) /\
  (c_disc st = DcIdle -> c_deb st = DOff).

Lemma pushes_trig es : forall st, c_trig (pushes st es) = c_trig st + List.length (filter is_update es).
Proof. induction es as [|e es IH]; intros st; cbn; [lia|]. rewrite IH. destruct e; cbn; lia. Qed.
Lemma updated_all evs : filter is_update (map EUpdated evs) = map EUpdated evs.
Proof. induction evs as [|e evs IH]; cbn; [reflexivity|]. now rewrite IH. Qed.
Lemma pushed_updates evs : pushed (map (fun a => COPush (EUpdated a)) evs) = map EUpdated evs.
Proof. induction evs as [|e evs IH]; cbn; [reflexivity|]. f_equal. exact IH. Qed.
Lemma cstep_due st l st' o t : cstep st l = Some (Ok (st', o)) -> saves o = [] -> due t st -> due (t + updates o) st'.
Proof.
  intros E S (F & D & O).
  assert (Same : forall s, c_file s = c_file st -> c_trig s = c_trig st -> c_deb s = c_deb st ->
    (c_disc s = DcIdle -> c_disc st = DcIdle) -> updates o = 0 -> due (t + updates o) s).
  { intros s A B C X U. rewrite U, Nat.add_0_r. split; [congruence|]. rewrite B, C. split; [exact D|auto]. }
  assert (Ev : forall st1 i evs, node_events st1 i evs = Ok (st', o) -> c_file st1 = c_file st -> c_trig st1 = c_trig st ->
    c_deb st1 = c_deb st -> c_disc st1 = c_disc st -> due (t + updates o) st').
  { intros st1 i evs H A B C G. apply node_events_ok in H. destruct H as [-> ->].
    destruct (pushes_frame (map EUpdated evs) st1) as (X & _ & _ & Y & Z & _). split; [congruence|]. rewrite Y, C, Z, G. split; [|exact O].
    intros Q. rewrite pushes_trig, B, (D Q). unfold updates. rewrite pushed_updates. reflexivity. }
  destruct l as [| |m| |b r|i|i x ann| | | | |d]; cbn [cstep] in E.
  - destruct (c_disc st) eqn:DI; try discriminate. injection E as <- <-. split; [exact F|]. cbn. rewrite Nat.add_0_r.
    split; [|discriminate]. intros _. apply D. rewrite (O eq_refl). exact I.
  - destruct (c_disc st) eqn:DI; try discriminate; injection E as <- <-; apply Same; try reflexivity; intros H; congruence.
  - destruct (c_disc st) eqn:DI; try discriminate. destruct m as [m|]; [destruct (m_data m) as [[]|]|];
      injection E as <- <-; apply Same; try reflexivity; intros H; discriminate H.
  - destruct (c_disc st) as [| |i [|a rest]|i rest|i rest|] eqn:DI; try discriminate.
    + injection E as <- <-. apply Same; try reflexivity. intros H; discriminate H.
    + destruct a; cbn [negb] in E; [|injection E as <- <-; apply Same; try reflexivity; intros H; discriminate H].
      destruct (Nat.eqb i 0); [injection E as <- <-; apply Same; try reflexivity; intros H; discriminate H|].
      destruct (zlookup _ _) eqn:L; injection E as <- <-; apply Same; try reflexivity; intros H; discriminate H.
    + injection E as <- <-. apply Same; try reflexivity. intros H; discriminate H.
    + injection E as <- <-. apply Same; try reflexivity. intros H; discriminate H.
  - destruct (zlookup (Z.of_N (b2N b)) (c_nodes st)) as [a|] eqn:L; [|injection E as <- <-; apply Same; auto].
    destruct (process_event a r) as [[[a' evs] op]| |] eqn:P; cbn [bind] in E; try discriminate.
    injection E as E. apply (Ev _ _ _ E); destruct op; reflexivity.
  - destruct (existsb (Z.eqb i) (c_windows st)); [|discriminate].
    destruct (zlookup i (c_nodes st)) as [a|] eqn:L; [|discriminate].
    destruct (alarm_window_end a) as [[a' evs]| |] eqn:P; cbn [bind] in E; try discriminate.
    injection E as E. apply (Ev _ _ _ E); reflexivity.
  - destruct (_ && _); [|discriminate]. injection E as E. apply (Ev _ _ _ E); reflexivity.
  - destruct (c_queue st); try discriminate. injection E as <- <-. apply Same; auto.
  - destruct (c_trig st), (c_deb st) eqn:DE; try discriminate; injection E as <- <-;
      (split; [exact F|split; [intros []|intros H; discriminate (O H)]]).
  - destruct (c_deb st) as [| |age|] eqn:DE; try discriminate. destruct (save_delay <=? age)%N; [|discriminate].
    rewrite F in E. injection E as <- <-. discriminate S.
  - destruct (c_deb st) eqn:DE; try discriminate. injection E as <- <-. split; [exact F|]. cbn. rewrite Nat.add_0_r.
    split; [intros _; apply D; exact I|]. intros H. discriminate (O H).
  - destruct (c_deb st) eqn:DE; injection E as <- <-; try (apply Same; auto; fail). split; [exact F|].
    split; [intros []|intros H; discriminate (O H)].
Qed.
Lemma saves_app a b : saves (a ++ b) = saves a ++ saves b.
Proof. apply flat_map_app. Qed.
Lemma crun_due cls : forall st st' o t, crun st cls = Some (Ok (st', o)) -> saves o = [] -> due t st -> due (t + updates o) st'.
Proof.
  induction cls as [|l cls IH]; intros st st' o t R S D.
  - injection R as <- <-. rewrite Nat.add_0_r. exact D.
  - apply crun_cons in R. destruct R as (s1 & o1 & o2 & C & R & ->). rewrite saves_app in S. apply app_eq_nil in S. destruct S as [S1 S2].
    rewrite updates_app, Nat.add_assoc. exact (IH _ _ _ _ R S2 (cstep_due _ _ _ _ _ C S1 D)).
Qed.
(** Nothing was published since a moment at which no timer ran, if then nothing is due. *)
Lemma quiet_since w w' ls ev o : wrun w ls = Some (Ok (w', ev, o)) -> saves o = [] -> nothing_due w' ->
  due (c_trig (y_ctl (w_sys w))) (y_ctl (w_sys w)) -> updates o = 0.
Proof.
  intros R S [T B] D. destruct (wrun_crun _ _ _ _ _ R) as (cls & C). destruct (crun_due _ _ _ _ _ C S D) as (_ & Q & _).
  rewrite B in Q. specialize (Q I). lia.
Qed.
Lemma start_due ns : due 0 (y_ctl (w_sys (wstart true ns))).
Proof.
  destruct (load_trig true ns) as (A & B & C & D & _). change (due 0 (loaded true ns)). split; [exact D|]. rewrite A, B. auto.
Qed.
Lemma loaded_kept ns ls w tr o b n : wrun (wstart true ns) ls = Some (Ok (w, tr, o)) -> saves o = [] -> nothing_due w ->
  node_of (w_sys (wstart true ns)) b = Some n -> exists n', node_of (w_sys w) b = Some n' /\ shown n' = shown n.
Proof.
  intros R S Q N. apply (published true ns [] (wstart true ns) [] [] _ _ _ _ _ _ eq_refl R N).
  apply no_updates. apply (quiet_since _ _ _ _ _ R S Q).
  change (c_trig (y_ctl (w_sys (wstart true ns)))) with (c_trig (loaded true ns)).
  rewrite (proj1 (load_trig true ns)). apply start_due.
Qed.

(** *** Nodes that are found *)
Lemma cstep_new st l st' o id : cstep st l = Some (Ok (st', o)) -> not_ident l -> zlookup id (c_nodes st) = None ->
  zlookup id (c_nodes st') = None \/ zlookup id (c_nodes st') = Some (new_node id).
Proof.
  intros E NI N.
  assert (Same : forall st1, c_nodes st1 = c_nodes st -> zlookup id (c_nodes st1) = None \/ zlookup id (c_nodes st1) = Some (new_node id))
    by (intros st1 ->; auto).
  assert (Ev : forall st1 i a a' evs, node_events st1 i evs = Ok (st', o) -> c_nodes st1 = zset i a' (c_nodes st) ->
    zlookup i (c_nodes st) = Some a -> zlookup id (c_nodes st') = None \/ zlookup id (c_nodes st') = Some (new_node id)).
  { intros st1 i a a' evs H M L. destruct (keyed_node_events _ _ _ _ _ H) as [-> _]. rewrite M, zlookup_set.
    destruct (Z.eqb_spec id i) as [->|_]; [congruence|auto]. }
  destruct l as [| |m| |b r|i|i x ann| | | | |d]; cbn [cstep] in E; try destruct NI.
  - destruct (c_disc st); try discriminate. injection E as <- <-. apply Same. reflexivity.
  - destruct (c_disc st); try discriminate; injection E as <- <-; apply Same; reflexivity.
  - destruct (c_disc st); try discriminate. destruct m as [m|]; [destruct (m_data m) as [[]|]|];
      injection E as <- <-; apply Same; reflexivity.
  - destruct (c_disc st) as [| |i [|a rest]|i rest|i rest|]; try discriminate.
    + injection E as <- <-. apply Same. reflexivity.
    + destruct a; cbn [negb] in E; [|injection E as <- <-; apply Same; reflexivity].
      destruct (Nat.eqb i 0); [injection E as <- <-; apply Same; reflexivity|].
      destruct (zlookup (Z.of_nat i + 1) _) eqn:L; injection E as <- <-; [apply Same; reflexivity|].
      cbn. rewrite zlookup_set. destruct (Z.eqb_spec id (Z.of_nat i + 1)) as [->|_]; auto.
    + injection E as <- <-. match goal with |- context [push ?x ?e] => destruct (pushes_frame [e] x) as (_ & G & _) end.
      cbn [pushes] in G. apply Same. cbn. exact G.
    + injection E as <- <-. apply Same. reflexivity.
  - destruct (zlookup (Z.of_N (b2N b)) (c_nodes st)) as [a|] eqn:L; [|injection E as <- <-; apply Same; reflexivity].
    destruct (process_event a r) as [[[a' evs] op]| |] eqn:P; cbn [bind] in E; try discriminate.
    injection E as E. apply (Ev _ _ a a' _ E); [destruct op; reflexivity|exact L].
  - destruct (existsb (Z.eqb i) (c_windows st)); [|discriminate].
    destruct (zlookup i (c_nodes st)) as [a|] eqn:L; [|discriminate].
    destruct (alarm_window_end a) as [[a' evs]| |] eqn:P; cbn [bind] in E; try discriminate.
    injection E as E. apply (Ev _ _ a a' _ E); [reflexivity|exact L].
  - destruct (c_queue st); try discriminate. injection E as <- <-. apply Same. reflexivity.
  - destruct (c_trig st), (c_deb st); try discriminate; injection E as <- <-; apply Same; reflexivity.
  - destruct (c_deb st) as [| |age|]; try discriminate. destruct (save_delay <=? age)%N; [|discriminate].
    destruct (c_file st); injection E as <- <-; apply Same; reflexivity.
  - destruct (c_deb st); try discriminate. injection E as <- <-. apply Same. reflexivity.
  - destruct (c_deb st); injection E as <- <-; apply Same; reflexivity.
Qed.
(** A node at the end was there at the start, or is new. *)
Definition came (id : Z) (before after : option node) (o : list cobs) : Prop :=
  forall n', after = Some n' ->
  (exists n, before = Some n /\ told_of id n n' o) \/ (before = None /\ told_of id (new_node id) n' o).
Lemma crun_came cls : forall st st' o id, crun st cls = Some (Ok (st', o)) -> keyed st -> Forall not_ident cls ->
  came id (zlookup id (c_nodes st)) (zlookup id (c_nodes st')) o.
Proof.
  induction cls as [|l cls IH]; intros st st' o id R K F n' N'.
  - injection R as <- <-. left. exists n'. split; [exact N'|left; reflexivity].
  - pose proof (crun_cons _ _ _ _ _ R) as (s1 & o1 & o2 & S & R2 & ->). inversion F as [|? ? F1 F2]; subst.
    pose proof (proj1 (keyed_step _ _ _ _ K S)) as K1.
    destruct (zlookup id (c_nodes st)) as [n|] eqn:N.
    + left. exists n. split; [reflexivity|]. destruct (crun_told _ _ _ _ _ _ R K F N) as (x & X & T). congruence.
    + right. split; [reflexivity|]. destruct (cstep_new _ _ _ _ _ S F1 N) as [N1|N1].
      * destruct (IH _ _ _ id R2 K1 F2 n' N') as [(n & B & _)|[_ T]]; [congruence|].
        apply (told_of_trans _ _ (new_node id)); [left; reflexivity|exact T].
      * destruct (crun_told _ _ _ _ _ _ R2 K1 F2 N1) as (x & X & T).
        apply (told_of_trans _ _ (new_node id)); [left; reflexivity|congruence].
Qed.
Lemma wstep_came ns w tr l w' ev o id : winv ns w tr -> wstep w l = Some (Ok (w', ev, o)) ->
  came id (zlookup id (c_nodes (y_ctl (w_sys w)))) (zlookup id (c_nodes (y_ctl (w_sys w')))) o.
Proof.
  intros W H n' N'. destruct (zlookup id (c_nodes (y_ctl (w_sys w)))) as [n|] eqn:N.
  - left. exists n. split; [reflexivity|]. destruct (wstep_told _ _ _ _ _ _ _ W H _ _ N) as (x & X & T). congruence.
  - right. split; [reflexivity|]. unfold wstep in H.
    destruct l as [yl|i|i|i].
    2-4: exfalso; destruct (zlookup i (w_jobs w)) as [j|]; [|discriminate];
      destruct (zlookup i (c_nodes (y_ctl (w_sys w)))) as [a|] eqn:A; [|discriminate];
      destruct (job_label _ j) as [il|]; [|discriminate]; destruct (istep _ il) as [[st io]|]; [|discriminate];
      destruct (yrun _ _) as [[[[y e] o']| |]|] eqn:R; try discriminate; injection H as <- <- <-; cbn [w_sys] in N';
      unfold job_effect in R; destruct (commands_of io) as [|m r];
      [destruct (events_of io) as [|x es];
        [destruct (ident_nodes _ _ _ _ _ _ R) as [_ X]|destruct (idents_nodes i (i_node st) (x :: es) _ _ _ _ R) as [_ X]];
        rewrite X in N'; destruct (Z.eqb_spec id i) as [->|_]; congruence
      |destruct (request_kind (i_pc st)) as [[wt t] er]; destruct (call_effect _ _ _ _ _ _ _ _ R) as [X _]; rewrite X in N'; congruence].
    destruct (plain yl) eqn:PL; [|discriminate].
    destruct (ystep (w_sys w) yl) as [[[[y e] o']| |]|] eqn:S; try discriminate. injection H as <- <- <-. cbn [w_sys] in N'.
    destruct (ystep_spec _ _ _ _ _ S) as [_ (cls & R & _ & O)].
    assert (F : Forall not_ident cls).
    { apply Forall_forall. intros c I. destruct c; try exact Logic.I. destruct (O _ I eq_refl) as [X|[]]. subst yl. discriminate. }
    destruct (crun_came _ _ _ _ id R (winv_keyed _ _ _ W) F n' N') as [(n & X & _)|[_ T]]; [congruence|exact T].
Qed.
Lemma wrun_came ns ls : forall w tr w' ev o id, winv ns w tr -> wrun w ls = Some (Ok (w', ev, o)) ->
  came id (zlookup id (c_nodes (y_ctl (w_sys w)))) (zlookup id (c_nodes (y_ctl (w_sys w')))) o.
Proof.
  induction ls as [|l ls IH]; intros w tr w' ev o id W R n' N'; cbn [wrun] in R.
  - injection R as <- <- <-. left. exists n'. split; [exact N'|left; reflexivity].
  - destruct (wstep w l) as [[[[w1 e1] o1]| |]|] eqn:E; try discriminate.
    destruct (wrun w1 ls) as [[[[w2 e2] o2]| |]|] eqn:R2; try discriminate. injection R as <- <- <-.
    destruct (IH _ _ _ _ _ id (winv_step _ _ _ _ _ _ _ W E) R2 n' N') as [(n1 & N1 & T)|[N1 T]].
    + destruct (wstep_came _ _ _ _ _ _ _ id W E n1 N1) as [(n & N & T1)|[N T1]].
      * left. exists n. split; [exact N|exact (told_of_trans _ _ _ _ _ _ T1 T)].
      * right. split; [exact N|exact (told_of_trans _ _ _ _ _ _ T1 T)].
    + destruct (zlookup id (c_nodes (y_ctl (w_sys w)))) as [n|] eqn:N.
      * destruct (wstep_told _ _ _ _ _ _ _ W E _ _ N) as (x & X & _). congruence.
      * right. split; [reflexivity|]. apply (told_of_trans _ _ (new_node id)); [left; reflexivity|exact T].
Qed.
Lemma came_shown id before after o : came id before after o -> updates o = 0 -> forall n', after = Some n' ->
  match before with Some n => shown n' = shown n | None => shown n' = shown (new_node id) end.
Proof.
  intros C U n' N'. destruct (C n' N') as [(n & -> & [T|T])|[-> [T|T]]]; try exact T; destruct (no_updates _ _ U T).
Qed.

Lemma as_in b before after : (forall n, before = Some n -> exists n', after = Some n' /\ shown n' = shown n) ->
  (forall n', after = Some n' -> match before with Some n => shown n' = shown n | None => shown n' = shown (new_node (address b)) end) ->
  as_in_file b before after.
Proof.
  intros A B. unfold as_in_file. destruct before as [n|].
  - destruct (A n eq_refl) as (n' & -> & H). exact H.
  - destruct after as [n'|]; [exact (B n' eq_refl)|exact Logic.I].
Qed.
Lemma loaded_shown ns ls w tr o b : wrun (wstart true ns) ls = Some (Ok (w, tr, o)) -> saves o = [] -> nothing_due w ->
  as_in_file b (node_of (w_sys (wstart true ns)) b) (node_of (w_sys w) b).
Proof.
  intros R S Q.
  pose proof (fun n => loaded_kept ns ls w tr o b n R S Q) as K.
  pose proof (came_shown _ _ _ _ (wrun_came _ _ _ _ _ _ _ (address b) (winv_start true ns) R)) as C.
  fold (node_of (w_sys (wstart true ns)) b) in C. fold (node_of (w_sys w) b) in C.
  assert (U : updates o = 0).
  { apply (quiet_since _ _ _ _ _ R S Q).
    change (c_trig (y_ctl (w_sys (wstart true ns)))) with (c_trig (loaded true ns)).
    rewrite (proj1 (load_trig true ns)). apply start_due. }
  exact (as_in _ _ _ K (C U)).
Qed.

(** The step that saves. *)
Lemma cstep_saves st l st' o s : cstep st l = Some (Ok (st', o)) -> In (COSave s) o -> l = CTimeout.
Proof.
  intros E I.
  assert (Ev : forall st1 i evs, node_events st1 i evs = Ok (st', o) -> False).
  { intros st1 i evs H. apply node_events_ok in H. destruct H as [_ ->]. apply in_map_iff in I. destruct I as (x & X & _). discriminate. }
  destruct l as [| |m| |b r|i|i x ann| | | | |d]; cbn [cstep] in E; try reflexivity; exfalso.
  - destruct (c_disc st); try discriminate. injection E as <- <-. destruct I.
  - destruct (c_disc st); try discriminate; injection E as <- <-; destruct I.
  - destruct (c_disc st); try discriminate. destruct m as [m|]; [destruct (m_data m) as [[]|]|]; injection E as <- <-; destruct I.
  - destruct (c_disc st) as [| |i [|a rest]|i rest|i rest|]; try discriminate.
    + injection E as <- <-. destruct I.
    + destruct a; cbn [negb] in E; [|injection E as <- <-; destruct I].
      destruct (Nat.eqb i 0); [injection E as <- <-; destruct I|].
      destruct (zlookup _ _); injection E as <- <-; [destruct I as [X|[]]; discriminate|destruct I].
    + injection E as <- <-. destruct I as [X|[]]; discriminate.
    + injection E as <- <-. destruct I as [X|[]]; discriminate.
  - destruct (zlookup (Z.of_N (b2N b)) (c_nodes st)) as [a|] eqn:L; [|injection E as <- <-; destruct I].
    destruct (process_event a r) as [[[a' evs] op]| |] eqn:P; cbn [bind] in E; try discriminate. injection E as E. exact (Ev _ _ _ E).
  - destruct (existsb (Z.eqb i) (c_windows st)); [|discriminate].
    destruct (zlookup i (c_nodes st)) as [a|] eqn:L; [|discriminate].
    destruct (alarm_window_end a) as [[a' evs]| |] eqn:P; cbn [bind] in E; try discriminate. injection E as E. exact (Ev _ _ _ E).
  - destruct (_ && _); [|discriminate]. injection E as E. exact (Ev _ _ _ E).
  - destruct (c_queue st); try discriminate. injection E as <- <-. destruct I as [X|[]]; discriminate.
  - destruct (c_trig st), (c_deb st); try discriminate; injection E as <- <-; destruct I.
  - destruct (c_deb st); try discriminate. injection E as <- <-. destruct I.
  - destruct (c_deb st); injection E as <- <-; destruct I.
Qed.
Lemma crun_saves cls : forall st st' o s, crun st cls = Some (Ok (st', o)) -> In (COSave s) o -> In CTimeout cls.
Proof.
  induction cls as [|l cls IH]; intros st st' o s R I.
  - injection R as _ <-. destruct I.
  - apply crun_cons in R. destruct R as (s1 & o1 & o2 & C & R & ->). apply in_app_or in I. destruct I as [I|I].
    + left. exact (cstep_saves _ _ _ _ _ C I).
    + right. exact (IH _ _ _ _ R I).
Qed.
Lemma yrun_saves y ls y' ev o s : yrun y ls = Some (Ok (y', ev, o)) -> In (COSave s) o -> In (YCtl CTimeout) ls.
Proof.
  intros R I. destruct (yrun_spec _ _ _ _ _ R) as [_ (cls & C & _ & O)]. exact (O _ (crun_saves _ _ _ _ _ C I) eq_refl).
Qed.
Lemma wstep_saves w l w' ev o s : wstep w l = Some (Ok (w', ev, o)) -> In (COSave s) o ->
  s = c_nodes (y_ctl (w_sys w)) /\ c_nodes (y_ctl (w_sys w')) = s /\ c_trig (y_ctl (w_sys w')) = c_trig (y_ctl (w_sys w)) /\
  c_deb (y_ctl (w_sys w')) = DSaving /\ c_file (y_ctl (w_sys w')) = true /\ c_disc (y_ctl (w_sys w')) = c_disc (y_ctl (w_sys w)) /\ pushed o = [].
Proof.
  intros H I. unfold wstep in H.
  assert (NJ : forall id st io, ~ In (YCtl CTimeout) (job_effect id st io)).
  { intros id st io X. unfold job_effect in X. destruct (commands_of io).
    - destruct (events_of io) as [|e es].
      + destruct X as [X|[]]; discriminate.
      + apply in_map_iff in X. destruct X as (x & X & _). discriminate.
    - destruct (request_kind (i_pc st)) as [[wt t] er]. destruct X as [X|[]]; discriminate. }
  destruct l as [yl|id|id|id].
  2-4: exfalso; destruct (zlookup id (w_jobs w)) as [j|]; [|discriminate];
    destruct (zlookup id (c_nodes (y_ctl (w_sys w)))) as [n|]; [|discriminate];
    destruct (job_label _ j) as [il|]; [|discriminate]; destruct (istep _ il) as [[st io]|]; [|discriminate];
    destruct (yrun _ _) as [[[[y e] o']| |]|] eqn:R; try discriminate; injection H as <- <- <-;
    exact (NJ _ _ _ (yrun_saves _ _ _ _ _ _ R I)).
  destruct (plain yl) eqn:PL; [|discriminate].
  destruct (ystep (w_sys w) yl) as [[[[y e] o']| |]|] eqn:S; try discriminate. injection H as <- <- <-. cbn [w_sys].
  destruct (ystep_spec _ _ _ _ _ S) as [_ (cls & C & _ & O)].
  destruct (O _ (crun_saves _ _ _ _ _ C I) eq_refl) as [X|[]]. subst yl.
  cbn [ystep own_step] in S. destruct (cstep (y_ctl (w_sys w)) CTimeout) as [[[c o3]| |]|] eqn:E; try discriminate. injection S as <- <- <-.
  cbn [cstep] in E. destruct (c_deb _) as [| |age|]; try discriminate. destruct (save_delay <=? age)%N; [|discriminate].
  destruct (c_file (y_ctl (w_sys w))) eqn:F; injection E as <- <-; [|destruct I]. destruct I as [X|[]]. injection X as <-.
  cbn. rewrite F. repeat split; reflexivity.
Qed.
Definition off (st : cst) : Prop := c_disc st = DcIdle -> c_deb st = DOff.
Lemma cstep_off st l st' o : cstep st l = Some (Ok (st', o)) -> off st -> off st'.
Proof.
  intros E O.
  assert (Same : forall s, c_deb s = c_deb st -> c_disc s = c_disc st -> off s) by (intros s A B; unfold off; rewrite A, B; exact O).
  assert (Ev : forall st1 i evs, node_events st1 i evs = Ok (st', o) -> c_deb st1 = c_deb st -> c_disc st1 = c_disc st -> off st').
  { intros st1 i evs H A B. apply node_events_ok in H. destruct H as [-> _].
    destruct (pushes_frame (map EUpdated evs) st1) as (_ & _ & _ & Y & Z & _). apply Same; congruence. }
  destruct l as [| |m| |b r|i|i x ann| | | | |d]; cbn [cstep] in E.
  - destruct (c_disc st); try discriminate. injection E as <- _. intros H; discriminate H.
  - destruct (c_disc st) eqn:DI; try discriminate; injection E as <- _; apply Same; congruence.
  - destruct (c_disc st); try discriminate. destruct m as [m|]; [destruct (m_data m) as [[]|]|];
      injection E as <- _; intros H; discriminate H.
  - destruct (c_disc st) as [| |i [|a rest]|i rest|i rest|]; try discriminate.
    + injection E as <- _. intros H; discriminate H.
    + destruct a; cbn [negb] in E; [|injection E as <- _; intros H; discriminate H].
      destruct (Nat.eqb i 0); [injection E as <- _; intros H; discriminate H|].
      destruct (zlookup _ _); injection E as <- _; intros H; discriminate H.
    + injection E as <- _. intros H; discriminate H.
    + injection E as <- _. intros H; discriminate H.
  - destruct (zlookup (Z.of_N (b2N b)) (c_nodes st)) as [a|]; [|injection E as <- _; apply Same; reflexivity].
    destruct (process_event a r) as [[[a' evs] op]| |]; cbn [bind] in E; try discriminate.
    injection E as E. apply (Ev _ _ _ E); destruct op; reflexivity.
  - destruct (existsb (Z.eqb i) (c_windows st)); [|discriminate].
    destruct (zlookup i (c_nodes st)) as [a|]; [|discriminate].
    destruct (alarm_window_end a) as [[a' evs]| |]; cbn [bind] in E; try discriminate.
    injection E as E. apply (Ev _ _ _ E); reflexivity.
  - destruct (_ && _); [|discriminate]. injection E as E. apply (Ev _ _ _ E); reflexivity.
  - destruct (c_queue st); try discriminate. injection E as <- _. apply Same; reflexivity.
  - destruct (c_trig st), (c_deb st) eqn:DE; try discriminate; injection E as <- _; intros H; rewrite (O H) in DE; discriminate DE.
  - destruct (c_deb st) as [| |age|] eqn:DE; try discriminate. destruct (save_delay <=? age)%N; [|discriminate].
    destruct (c_file st); injection E as <- _; intros H; rewrite (O H) in DE; discriminate DE.
  - destruct (c_deb st) eqn:DE; try discriminate. injection E as <- _. intros H; rewrite (O H) in DE; discriminate DE.
  - destruct (c_deb st) eqn:DE; injection E as <- _; try (apply Same; congruence). intros H; rewrite (O H) in DE; discriminate DE.
Qed.
Lemma crun_off cls : forall st st' o, crun st cls = Some (Ok (st', o)) -> off st -> off st'.
Proof.
  induction cls as [|l cls IH]; intros st st' o R O.
  - injection R as <- _. exact O.
  - apply crun_cons in R. destruct R as (s1 & o1 & o2 & C & R & _). exact (IH _ _ _ R (cstep_off _ _ _ _ C O)).
Qed.
Lemma saved_kept file ns ls w tr o l w1 ev o1 s ls' w' tr' o' b n :
  wrun (wstart file ns) ls = Some (Ok (w, tr, o)) -> wstep w l = Some (Ok (w1, ev, o1)) -> In (COSave s) o1 ->
  wrun w1 ls' = Some (Ok (w', tr', o')) -> saves o' = [] -> nothing_due w' ->
  zlookup (address b) s = Some n -> exists n', node_of (w_sys w') b = Some n' /\ shown n' = shown n.
Proof.
  intros R S I R' V Q N. destruct (wstep_saves _ _ _ _ _ _ S I) as (X & A & T & D & F & DI & P).
  pose proof (winv_run _ _ _ _ _ _ R) as W. pose proof (winv_step _ _ _ _ _ _ _ W S) as W1.
  assert (N1 : zlookup (address b) (c_nodes (y_ctl (w_sys w1))) = Some n) by congruence.
  destruct (wrun_told _ _ _ _ _ _ _ W1 R' _ _ N1) as (n' & N' & [Y|Y]); [exists n'; auto|exfalso].
  refine (no_updates _ _ _ Y). apply (quiet_since _ _ _ _ _ R' V Q). split; [exact F|]. split; [auto|].
  intros Z. rewrite DI in Z. destruct (wrun_crun _ _ _ _ _ R) as (cls & C).
  destruct (wrun_crun [l] w w1 ev o1) as (cls1 & C1).
  { cbn [wrun]. rewrite S, !app_nil_r. reflexivity. }
  refine (crun_off _ _ _ _ C1 (crun_off _ _ _ _ C _) _); [|congruence].
  destruct (load_trig file ns) as (_ & B & _). intros _. exact B.
Qed.
Lemma saved_shown file ns ls w tr o l w1 ev o1 s ls' w' tr' o' b :
  wrun (wstart file ns) ls = Some (Ok (w, tr, o)) -> wstep w l = Some (Ok (w1, ev, o1)) -> In (COSave s) o1 ->
  wrun w1 ls' = Some (Ok (w', tr', o')) -> saves o' = [] -> nothing_due w' ->
  as_in_file b (zlookup (address b) s) (node_of (w_sys w') b).
Proof.
  intros R S I R' V Q. apply as_in; [exact (fun n => saved_kept _ _ _ _ _ _ _ _ _ _ _ _ _ _ _ b n R S I R' V Q)|].
  intros n' N. destruct (wstep_saves _ _ _ _ _ _ S I) as (X & A & T & D & F & DI & P).
  pose proof (winv_run _ _ _ _ _ _ R) as W. pose proof (winv_step _ _ _ _ _ _ _ W S) as W1.
  rewrite <- A. refine (came_shown _ _ _ _ (wrun_came _ _ _ _ _ _ _ _ W1 R') _ _ N).
  apply (quiet_since _ _ _ _ _ R' V Q). split; [exact F|]. split; [auto|].
  intros Z. rewrite DI in Z. destruct (wrun_crun _ _ _ _ _ R) as (cls & C).
  destruct (wrun_crun [l] w w1 ev o1) as (cls1 & C1).
  { cbn [wrun]. rewrite S, !app_nil_r. reflexivity. }
  refine (crun_off _ _ _ _ C1 (crun_off _ _ _ _ C _) _); [|congruence].
  destruct (load_trig file ns) as (_ & B & _). intros _. exact B.
Qed.
Lemma save_has_all file ns ls w tr o l w1 ev o1 s b :
  wrun (wstart file ns) ls = Some (Ok (w, tr, o)) -> wstep w l = Some (Ok (w1, ev, o1)) -> In (COSave s) o1 ->
  zlookup (address b) s = node_of (w_sys w) b.
Proof. intros _ S I. destruct (wstep_saves _ _ _ _ _ _ S I) as (-> & _). reflexivity. Qed.
