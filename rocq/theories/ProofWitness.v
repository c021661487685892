(** Concrete executions: counterexamples and examples for the connection
    properties. *)
From Verif Require Import ModelBase ModelReports ModelSerial ModelConnection
  SpecFrame SpecDecode SpecMessage SpecConnection ProofBase ProofConnection.

Lemma run_witness (P : list label -> conn -> list event -> Prop) ls :
  match run init ls with Some (s, tr) => P ls s tr | None => False end ->
  exists ls s tr, run init ls = Some (s, tr) /\ P ls s tr.
Proof.
  destruct (run init ls) as [[s tr]|] eqn:E; [|intros []]. intros H. exists ls, s, tr. auto.
Qed.

(** A get-report command to node [n]. *)
Definition get_switch (n : byte) : list byte := [x13; n; x02; x25; x02; x25].
Definition info_frame : list byte := [x01; x09; x01; x41; xd3; x9c; x00; x04; x10; x01; xec].
Definition switch_frame : list byte := [x01; x09; x00; x04; x00; x05; x03; x25; x03; xff; x2d].
Definition basic_frame : list byte := [x01; x09; x00; x04; x00; x05; x03; x20; x03; xff; x28].
Definition short_frame : list byte := [x01; x03; x01; x13; xee].
Definition sent_frame : list byte := [x01; x04; x01; x13; x01; xe8].

(** Issue and write a command. *)
Definition send (data : list byte) (w : want) (er : byte) : list label :=
  [LCall data w true er; LTake 0].
(** An ACK arrives while the commands [vs] are pending, [i] being the last. *)
Definition acked (vs : list nat) (i : nat) : list label :=
  [LRead false [ACK] 0; LIter [] []] ++
  map (fun j => LVisit j (if Nat.eqb j i then Some 0%nat else None)) vs ++
  [LControlEnd; LIter [] []; LFinish 0].

Lemma match_crash :
  exists data er f, frame f /\ pkg_match (new_send_package 0 data WaitReport true er) f = Panic.
Proof.
  exists (get_switch x05), x03, short_frame. split; [|reflexivity].
  apply (frame_intro x03 [x01; x13; xee]); reflexivity.
Qed.

Lemma match_crash_run : exists ls s tr, run init ls = Some (s, tr) /\
  (arrived tr = short_frame /\ frame short_frame /\ In EvCrash tr).
Proof.
  apply (run_witness (fun _ _ tr => arrived tr = short_frame /\ frame short_frame /\ In EvCrash tr)
    ([LConnect] ++ send (get_switch x05) WaitReport x03 ++ [LFetch 0; LRead false short_frame 0; LIter [] []])).
  vm_compute. split; [reflexivity|]. split; [|tauto].
  apply (frame_intro x03 [x01; x13; xee]); reflexivity.
Qed.

Lemma info_delivered_twice : exists ls s tr, run init ls = Some (s, tr) /\
  (In (EvCall 0 [x41; x02] WaitMessage true x00) tr /\ In (EvCall 1 [x41; x03] WaitMessage true x00) tr /\
   frames_taken tr = [info_frame] /\ replies 0 tr = [Message; Closed] /\ replies 1 tr = [Message; Closed]).
Proof.
  apply (run_witness (fun _ _ tr => In (EvCall 0 [x41; x02] WaitMessage true x00) tr /\
     In (EvCall 1 [x41; x03] WaitMessage true x00) tr /\
     frames_taken tr = [info_frame] /\ replies 0 tr = [Message; Closed] /\ replies 1 tr = [Message; Closed])
    ([LConnect] ++ send [x41; x02] WaitMessage x00 ++ [LFetch 0] ++ acked [0%nat] 0 ++
     send [x41; x03] WaitMessage x00 ++ [LFetch 1] ++ acked [0%nat; 1%nat] 1 ++
     [LRead false info_frame 0; LIter [] [0%nat; 1%nat]])).
  vm_compute. tauto.
Qed.

Lemma nil_channel : exists ls s tr, run init ls = Some (s, tr) /\
  (In (EvCall 0 [x41; x02] WaitMessage true x00) tr /\ In (EvNil 0) tr /\ ~ In (EvGot 0) tr).
Proof.
  apply (run_witness (fun _ _ tr => In (EvCall 0 [x41; x02] WaitMessage true x00) tr /\ In (EvNil 0) tr /\ ~ In (EvGot 0) tr)
    ([LConnect] ++ send [x41; x02] WaitMessage x00 ++
     [LRead false [NAK] 0; LIter [] []; LVisit 0 (Some 0%nat); LControlEnd; LFetch 0])).
  vm_compute. intuition discriminate.
Qed.

Lemma report_crash : exists ls s tr, run init ls = Some (s, tr) /\
  (In (EvCall 0 [x13; x05; x02; x20; x02; x25] WaitReport true x03) tr /\ arrived tr = [ACK] ++ basic_frame /\
   frame basic_frame /\ In EvCrash tr).
Proof.
  apply (run_witness (fun _ _ tr => In (EvCall 0 [x13; x05; x02; x20; x02; x25] WaitReport true x03) tr /\
     arrived tr = [ACK] ++ basic_frame /\ frame basic_frame /\ In EvCrash tr)
    ([LConnect] ++ send [x13; x05; x02; x20; x02; x25] WaitReport x03 ++ [LFetch 0] ++ acked [0%nat] 0 ++
     [LRead false basic_frame 0; LIter [] [0%nat]])).
  vm_compute. split; [tauto|]. split; [reflexivity|]. split; [|tauto].
  apply (frame_intro x09 [x00; x04; x00; x05; x03; x20; x03; xff; x28]); reflexivity.
Qed.

Lemma coalesced_crash : exists ls s tr, run init ls = Some (s, tr) /\
  (arrived tr = [ACK] ++ sent_frame /\ frame sent_frame /\ In EvCrash tr).
Proof.
  apply (run_witness (fun _ _ tr => arrived tr = [ACK] ++ sent_frame /\ frame sent_frame /\ In EvCrash tr)
    ([LConnect] ++ send (get_switch x05) WaitReport x03 ++ [LFetch 0] ++
     [LRead false ([ACK] ++ sent_frame) 0; LIter [] []; LVisit 0 (Some 0%nat)])).
  vm_compute. split; [reflexivity|]. split; [|tauto].
  apply (frame_intro x04 [x01; x13; x01; xe8]); reflexivity.
Qed.

Lemma wrong_resend : exists ls s tr, run init ls = Some (s, tr) /\
  (cancelled tr = [1%nat] /\ resent tr = [0%nat] /\ connects ls = 1%nat).
Proof.
  apply (run_witness (fun ls _ tr => cancelled tr = [1%nat] /\ resent tr = [0%nat] /\ connects ls = 1%nat)
    ([LConnect] ++ send [x13; x02; x03; x25; x01; xff; x25] NoWait x00 ++ acked [0%nat] 0 ++
     send [x13; x03; x03; x25; x01; x00; x25] NoWait x00 ++
     [LRead false [CAN] 0; LIter [] []; LVisit 1 (Some 0%nat); LVisit 0 None; LControlEnd; LResend 0])).
  vm_compute. tauto.
Qed.

Lemma two_writers : exists ls s tr, run init ls = Some (s, tr) /\
  (turns tr = [Sent 0; Sent 1] /\ connects ls = 2%nat).
Proof.
  apply (run_witness (fun ls _ tr => turns tr = [Sent 0; Sent 1] /\ connects ls = 2%nat)
    ([LConnect] ++ send (get_switch x05) WaitReport x03 ++ [LReadFail; LConnect] ++
     [LCall (get_switch x06) WaitReport true x03; LTake 1])).
  vm_compute. tauto.
Qed.

Lemma connected_lies : exists ls s tr, run init ls = Some (s, tr) /\
  (c_connected s = true /\ c_mode s = RStopped).
Proof.
  apply (run_witness (fun _ s _ => c_connected s = true /\ c_mode s = RStopped)
    [LConnect; LReadFail; LConnectTimer]).
  vm_compute. tauto.
Qed.

Lemma match_needs_next_frame :
  exists f t1 t2 data er, frame f /\
    pkg_match (new_send_package 0 data WaitReport true er) (clear_at (List.length f - 1) f ++ t1) = Ok true /\
    pkg_match (new_send_package 0 data WaitReport true er) (clear_at (List.length f - 1) f ++ t2) = Ok false.
Proof.
  exists short_frame, [x05; x00; x25; x03], [x06; x00; x25; x03], (get_switch x05), x03.
  split; [apply (frame_intro x03 [x01; x13; xee]); reflexivity|]. split; reflexivity.
Qed.

(** ** Fire-and-forget commands pile up *)
Definition fire : list label :=
  [LCall [x13; x05; x03; x25; x01; xff; x25] NoWait false x00; LTake 0; LAckTimeout 0; LFinish 0].
Definition fires (n : nat) : list label := List.concat (repeat fire n).

Definition idle (s : conn) : Prop :=
  c_crashed s = false /\ c_writers s = [WIdle] /\ c_sendq s = [] /\ c_timers s = [] /\ c_open s = [] /\
  c_fetch s = [] /\ c_resend s = [] /\ c_last s = None /\
  (forall p, In p (c_inflight s) -> p_want p = NoWait /\ (p_id p < c_next s)%nat).

Lemma fire_one s : idle s -> exists s' tr, run s fire = Some (s', tr) /\ idle s' /\
  List.length (c_inflight s') = S (List.length (c_inflight s)).
Proof.
  intros [C [W [Q [T [O [F [R [L P]]]]]]]]. unfold fire. cbn [run].
  unfold step at 1. rewrite C. cbn [app].
  unfold step at 1. conn_simpl. rewrite C, W, Q, T. cbn [nth_error app].
  unfold step at 1. conn_simpl. rewrite C. cbn [set_nth nth_error].
  unfold step at 1. conn_simpl. rewrite C. cbn [set_nth nth_error].
  do 2 eexists. split; [reflexivity|]. conn_simpl. split.
  - unfold idle. conn_simpl. repeat split; auto.
    + intros. apply put_pkg_In in H. destruct H as [->|[H _]]; [reflexivity|now apply P].
    + apply put_pkg_In in H. destruct H as [->|[H _]]; [cbn; lia|]. apply P in H. lia.
  - unfold put_pkg. rewrite app_length. cbn [List.length].
    replace (del_pkg _ (c_inflight s)) with (c_inflight s); [lia|]. unfold del_pkg. cbn [p_id new_send_package].
    clear - P. induction (c_inflight s) as [|p l IH]; [reflexivity|]. cbn.
    destruct (P p (or_introl eq_refl)) as [_ X]. destruct (Nat.eqb_spec (p_id p) (c_next s)); [lia|]. cbn.
    f_equal. apply IH. intros q Hq. apply P. now right.
Qed.

Lemma leak n : exists ls s tr, run init ls = Some (s, tr) /\
  List.length (c_inflight s) = n /\ (forall p, In p (c_inflight s) -> p_want p = NoWait) /\
  c_sendq s = [] /\ c_timers s = [] /\ c_open s = [] /\ c_resend s = [] /\ c_last s = None.
Proof.
  assert (X : exists s tr, run init (LConnect :: fires n) = Some (s, tr) /\ idle s /\ List.length (c_inflight s) = n).
  { induction n as [|n [s [tr [H [Hi Hl]]]]].
    - do 2 eexists. split; [reflexivity|]. split; [|reflexivity]. unfold idle. cbn. intuition.
    - destruct (fire_one s Hi) as [s' [tr' [H' [Hi' Hl']]]].
      exists s', (tr ++ tr'). split; [|split; [exact Hi'|lia]].
      replace (LConnect :: fires (S n)) with ((LConnect :: fires n) ++ fire).
      + rewrite run_app, H, H'. reflexivity.
      + cbn [app]. f_equal. unfold fires. clear. induction n as [|n IH]; [reflexivity|].
        cbn [repeat List.concat] in *. rewrite <- app_assoc, IH. reflexivity. }
  destruct X as [s [tr [H [[C [W [Q [T [O [F [R [L P]]]]]]]] Hl]]]].
  exists (LConnect :: fires n), s, tr. repeat split; auto. intros p Hp. now apply P.
Qed.

(** ** Examples that meet the hypotheses *)
Lemma open_request : exists ls s tr, run init ls = Some (s, tr) /\
  (c_crashed s = false /\ In (EvCall 0 (get_switch x05) WaitReport true x03) tr /\ In 0%nat (written tr) /\
   replies 0 tr = []).
Proof.
  apply (run_witness (fun _ s tr => c_crashed s = false /\
    In (EvCall 0 (get_switch x05) WaitReport true x03) tr /\ In 0%nat (written tr) /\ replies 0 tr = [])
    ([LConnect] ++ send (get_switch x05) WaitReport x03 ++ [LFetch 0] ++ acked [0%nat] 0)).
  vm_compute. tauto.
Qed.
Lemma three_commands : exists ls s tr, run init ls = Some (s, tr) /\
  (connects ls = 1%nat /\ turns tr = [Sent 0; Answered 0; Sent 1; GaveUp 1; Sent 2]).
Proof.
  apply (run_witness (fun ls _ tr => connects ls = 1%nat /\
     turns tr = [Sent 0; Answered 0; Sent 1; GaveUp 1; Sent 2])
    ([LConnect] ++ send (get_switch x05) WaitReport x03 ++ [LFetch 0] ++ acked [0%nat] 0 ++
     send (get_switch x06) WaitReport x03 ++ [LAckTimeout 0; LFinish 0] ++ send (get_switch x07) WaitReport x03)).
  vm_compute. tauto.
Qed.
Lemma queue_of_three : exists ls s tr, run init ls = Some (s, tr) /\
  (queued tr = [0; 1; 2]%nat /\ written tr = [0; 1]%nat).
Proof.
  apply (run_witness (fun _ _ tr => queued tr = [0; 1; 2]%nat /\ written tr = [0; 1]%nat)
    ([LCall (get_switch x05) NoWait false x00; LConnect; LCall (get_switch x06) NoWait false x00;
      LCall (get_switch x07) NoWait false x00; LTake 0; LAckTimeout 0; LFinish 0; LTake 0])).
  vm_compute. tauto.
Qed.
Lemma right_resend : exists ls s tr, run init ls = Some (s, tr) /\
  (cancelled tr = [0%nat] /\ resent tr = [0%nat] /\ c_resend s = [] /\ single_visits ls).
Proof.
  pose (ls := [LConnect] ++ send [x13; x02; x03; x25; x01; xff; x25] NoWait x00 ++
     [LRead false [CAN] 0; LIter [] []; LVisit 0 (Some 0%nat); LControlEnd; LResend 0]).
  assert (SV : single_visits ls).
  { intros l1 i r l2 j r' l3 E. exfalso.
    assert (X : List.length (filter (fun l => match l with LVisit _ _ => true | _ => false end)
       (l1 ++ LVisit i r :: l2 ++ LVisit j r' :: l3)) = 1%nat) by (rewrite <- E; reflexivity).
    rewrite filter_app, app_length in X. cbn [filter] in X. rewrite filter_app in X. cbn [List.length] in X.
    rewrite app_length in X. cbn [filter List.length] in X. lia. }
  assert (W : match run init ls with
     | Some (s, tr) => cancelled tr = [0%nat] /\ resent tr = [0%nat] /\ c_resend s = []
     | None => False end) by (vm_compute; tauto).
  destruct (run init ls) as [[s tr]|] eqn:E; [|contradiction]. exists ls, s, tr. tauto.
Qed.
Lemma nak_of_second : exists ls s tr, run init ls = Some (s, tr) /\
  (written tr = [0; 1]%nat /\ replies 0 tr = [] /\ replies 1 tr = [Closed] /\ map p_id (c_inflight s) = [0%nat]).
Proof.
  apply (run_witness (fun _ s tr => written tr = [0; 1]%nat /\ replies 0 tr = [] /\ replies 1 tr = [Closed] /\
      map p_id (c_inflight s) = [0%nat])
    ([LConnect] ++ send (get_switch x05) WaitReport x03 ++ [LFetch 0] ++ acked [0%nat] 0 ++
     send (get_switch x06) WaitReport x03 ++ [LFetch 1] ++
     [LRead false [NAK] 0; LIter [] []; LVisit 1 (Some 0%nat); LVisit 0 None; LControlEnd])).
  vm_compute. tauto.
Qed.
Lemma report_delivered : exists ls s tr, run init ls = Some (s, tr) /\
  (In (EvCall 0 (get_switch x05) WaitReport true x03) tr /\ replies 0 tr = [Message; Closed] /\
   frames_taken tr = [switch_frame] /\ c_crashed s = false).
Proof.
  apply (run_witness (fun _ s tr => In (EvCall 0 (get_switch x05) WaitReport true x03) tr /\
     replies 0 tr = [Message; Closed] /\ frames_taken tr = [switch_frame] /\ c_crashed s = false)
    ([LConnect] ++ send (get_switch x05) WaitReport x03 ++ [LFetch 0] ++ acked [0%nat] 0 ++
     [LRead false switch_frame 0; LIter [] [0%nat]])).
  vm_compute. tauto.
Qed.
Lemma connected_true : exists ls s tr, run init ls = Some (s, tr) /\ (c_connected s = true /\ c_mode s = RReading).
Proof.
  apply (run_witness (fun _ s _ => c_connected s = true /\ c_mode s = RReading) [LConnect; LConnectTimer]).
  vm_compute. tauto.
Qed.

(** ** The reader *)
Definition wakeup_frame : list byte := [SOF; x08; x00; x04; x04; x03; x02; x84; x07; x75].
Definition switch_frame2 : list byte := [SOF; x09; x00; x04; x00; x06; x03; x25; x03; x00; xd1].

Lemma frame_compute f n rest : f = SOF :: n :: rest ->
  (Byte.to_N n =? N.of_nat (List.length rest))%N = true -> (xor_sum (n :: rest) =? 255)%N = true -> frame f.
Proof. intros -> H1 H2. apply frame_intro; now apply N.eqb_eq. Qed.

Lemma self_contained_frames : Forall self_contained [switch_frame; wakeup_frame; switch_frame2].
Proof.
  assert (L : forall f, frame f -> (10 <= List.length f)%nat -> byte_at f 3 = 4%N ->
    (2 <= byte_at f 6 <= 248)%N -> (7 + byte_at f 6 <= N.of_nat (List.length f))%N -> self_contained f).
  { intros f F H1 H2 H3 H4. split; [exact F|]. rewrite H2. repeat split; try lia; try discriminate. }
  repeat (apply Forall_cons || apply Forall_nil); apply L; try (eapply frame_compute; reflexivity);
    vm_compute; try lia; try reflexivity; try (split; discriminate); discriminate.
Qed.

Lemma noise_loses_frame : exists ls s tr, run init ls = Some (s, tr) /\
  (arrived tr = [SOF] ++ wakeup_frame /\ frame wakeup_frame /\ connects ls = 1%nat /\ never_stale tr /\
   c_mode s = RReading /\ els (c_buf s) = [] /\ frames_taken tr = []).
Proof.
  pose (ls := [LConnect; LRead false ([SOF] ++ wakeup_frame) 0] ++ repeat (LIter [] []) 12).
  assert (W : match run init ls with
     | Some (s, tr) => arrived tr = [SOF] ++ wakeup_frame /\ c_mode s = RReading /\ els (c_buf s) = [] /\
         frames_taken tr = [] /\ filter (fun e => match e with EvArrive true _ => true | _ => false end) tr = []
     | None => False end) by (vm_compute; tauto).
  destruct (run init ls) as [[s tr]|] eqn:E; [|contradiction]. exists ls, s, tr.
  destruct W as [W1 [W2 [W3 [W4 W5]]]]. split; [exact E|]. split; [exact W1|].
  split; [eapply frame_compute; reflexivity|]. split; [reflexivity|]. split; [|auto].
  - intros st c I. destruct st; [|reflexivity]. exfalso.
    assert (X : In (EvArrive true c) (filter (fun e => match e with EvArrive true _ => true | _ => false end) tr))
      by (apply filter_In; auto). rewrite W5 in X. destruct X.
Qed.

Fixpoint check (s : conn) (ls : list label) : bool :=
  match ls with
  | [] => true
  | l :: r =>
      (match l with
       | LIter _ _ => match els (c_buf s) with
                      | x06 :: _ :: _ | x15 :: _ :: _ | x18 :: _ :: _ => false
                      | _ => true
                      end
       | _ => true
       end && match step s l with Some (s1, _) => check s1 r | None => true end)%bool
  end.
Lemma check_alone ls : check init ls = true -> controls_alone ls.
Proof.
  unfold controls_alone. generalize init. induction ls as [|l ls IH]; intros s0 H l1 o a l2 s tr b tl E R B I.
  - destruct l1; discriminate.
  - cbn [check] in H. apply andb_prop in H. destruct H as [H1 H2]. destruct l1 as [|l0 l1].
    + injection E as -> ->. cbn in R. injection R as <- <-. rewrite B in H1. clear -H1 I.
      cbn in I. destruct I as [<-|[<-|[<-|[]]]]; destruct tl; auto; discriminate.
    + injection E as -> ->. cbn [run] in R. destruct (step s0 l0) as [[s1 e1]|]; [|discriminate].
      destruct (run s1 l1) as [[s2 e2]|] eqn:R2; [|discriminate]. injection R as <- <-.
      eapply (IH s1 H2 l1); eauto.
Qed.

Lemma callbacks_swapped : exists ls s tr, run init ls = Some (s, tr) /\
  (frames_taken tr = [switch_frame; switch_frame2] /\ controls_alone ls /\ c_callbacks s = [] /\
   called_back tr = report_of switch_frame2 ++ report_of switch_frame /\
   report_of switch_frame <> report_of switch_frame2 /\ report_of switch_frame <> [] /\ report_of switch_frame2 <> []).
Proof.
  pose (ls := [LConnect; LRead false (switch_frame ++ switch_frame2) 0; LIter [] []; LIter [] []; LIter [] [];
               LCallback 1; LCallback 0]).
  assert (W : match run init ls with
     | Some (s, tr) => frames_taken tr = [switch_frame; switch_frame2] /\ c_callbacks s = [] /\
         called_back tr = report_of switch_frame2 ++ report_of switch_frame
     | None => False end) by (vm_compute; tauto).
  destruct (run init ls) as [[s tr]|] eqn:E; [|contradiction]. exists ls, s, tr.
  destruct W as [W1 [W2 W3]].
  split; [exact E|]. split; [exact W1|]. split; [apply check_alone; vm_compute; reflexivity|].
  split; [exact W2|]. split; [exact W3|]. clear.
  split; [|split]; vm_compute; discriminate.
Qed.

Lemma report_without_frame : exists ls s tr, run init ls = Some (s, tr) /\
  (arrived tr = [ACK; x00; x00; x04; x00; x05; x03; x25; x03; xff] /\ frames_taken tr = [] /\
   called_back tr = report_of switch_frame).
Proof.
  apply (run_witness (fun _ _ tr => arrived tr = [ACK; x00; x00; x04; x00; x05; x03; x25; x03; xff] /\ frames_taken tr = [] /\
   called_back tr = report_of switch_frame)
   [LConnect; LRead false [ACK; x00; x00; x04; x00; x05; x03; x25; x03; xff] 0; LIter [] []; LControlEnd; LCallback 0]).
  vm_compute. tauto.
Qed.

Lemma noise_example : noise ([x42; x00] ++ [SOF; x03; x04; x13; x15]).
Proof.
  assert (J : forall b, (if in_dec Byte.byte_eq_dec b [SOF; ACK; NAK; CAN] then false else true) = true -> junk b).
  { intros b H. unfold junk. destruct (in_dec Byte.byte_eq_dec b [SOF; ACK; NAK; CAN]); [discriminate|assumption]. }
  cbn [app]. apply noise_junk; [now apply J|]. apply noise_junk; [now apply J|].
  apply (noise_damaged x03 [x04; x13; x15] []); try reflexivity; try (vm_compute; discriminate).
  - cbn [removelast]. repeat constructor; now apply J.
  - constructor.
Qed.
Definition noise_run : list label :=
  [LConnect; LRead false ([x42; x00] ++ [SOF; x03; x04; x13; x15] ++ wakeup_frame) 0] ++ repeat (LIter [] []) 8.
Lemma noise_passed : exists ls s tr, run init ls = Some (s, tr) /\
  (arrived tr = [x42; x00] ++ [SOF; x03; x04; x13; x15] ++ wakeup_frame /\
   noise ([x42; x00] ++ [SOF; x03; x04; x13; x15]) /\ frames_taken tr = [wakeup_frame] /\ c_crashed s = false).
Proof.
  assert (W : match run init noise_run with
     | Some (s, tr) => arrived tr = [x42; x00] ++ [SOF; x03; x04; x13; x15] ++ wakeup_frame /\
         frames_taken tr = [wakeup_frame] /\ c_crashed s = false
     | None => False end) by (vm_compute; tauto).
  destruct (run init noise_run) as [[s tr]|] eqn:E; [|contradiction]. exists noise_run, s, tr.
  destruct W as [W1 [W2 W3]]. pose proof noise_example. auto.
Qed.
Lemma noise_acked : exists ls s tr, run init ls = Some (s, tr) /\
  (frames_taken tr = [wakeup_frame] /\ acks tr = 1%nat /\
   arrived tr = [x42; x00] ++ [SOF; x03; x04; x13; x15] ++ wakeup_frame).
Proof.
  apply (run_witness (fun _ _ tr => frames_taken tr = [wakeup_frame] /\ acks tr = 1%nat /\
   arrived tr = [x42; x00] ++ [SOF; x03; x04; x13; x15] ++ wakeup_frame) noise_run). vm_compute. tauto.
Qed.
Lemma three_kinds : exists ls s tr, run init ls = Some (s, tr) /\
  (c_mode s = RReading /\ consumed tr = [x42] ++ switch_frame ++ [ACK] /\ els (c_buf s) = [SOF; x09; x00]).
Proof.
  apply (run_witness (fun _ s tr => c_mode s = RReading /\ consumed tr = [x42] ++ switch_frame ++ [ACK] /\
     els (c_buf s) = [SOF; x09; x00])
   [LConnect; LRead false ([x42] ++ switch_frame ++ [ACK]) 0; LIter [] []; LIter [] []; LIter [] []; LControlEnd;
    LIter [] []; LRead false [SOF; x09; x00] 0; LIter [] []]). vm_compute. tauto.
Qed.
