(** Every node the program ever holds can be saved. *)
From Verif Require Import ModelBase ModelReports ModelSerial ModelCommands ModelNodes ModelList DataDevices ModelDatabase.
From Verif Require Import ModelIdentify ModelController ModelConnection ModelSystem ModelWhole.
From Verif Require Import SpecFrame SpecDecode SpecMessage SpecConnection SpecController SpecNodes SpecSystem.
From Verif Require Import ProofBase ProofReports ProofMessage ProofConnection ProofLink ProofReader ProofController ProofNodes ProofSystem ProofWhole ProofWholeWait.
From Verif Require Import SpecFloat64 ModelJson SpecJson ModelConfig SpecConfig ProofConfig ProofStorable.
From Coq Require Import Lia Floats.SpecFloat.
Local Opaque definitions devices.

(** ** What comes from the wire *)
Definition wire_message (m : option message) : Prop :=
  match m with
  | Some msg => match m_data msg with
                | Some (PCommand _ _ r) => SpecConfig.decoded r
                | Some (PNodes bm) => List.length bm = 232%nat
                | _ => True
                end
  | None => True
  end.
Lemma new_message_wire d m : new_message d = Ok m -> wire_message (Some m).
Proof.
  unfold new_message. intros H. destruct (idx (els d) 0) as [b0| |]; try discriminate. cbn [bind] in H.
  destruct (len d <=? 1)%nat; [injection H as <-; exact I|].
  destruct (idx (els d) 1) as [b1| |]; try discriminate. cbn [bind] in H.
  destruct (idx (els d) 2) as [b2| |]; try discriminate. cbn [bind] in H.
  destruct (idx (els d) 3) as [b3| |]; try discriminate. cbn [bind] in H.
  assert (D : b3 = x04 \/ b3 = x02 \/ b3 = x41 \/ (b3 <> x04 /\ b3 <> x02 /\ b3 <> x41))
    by (destruct b3; auto; right; right; right; repeat split; discriminate).
  destruct D as [->|[->|[->|(D1 & D2 & D3)]]].
  - destruct (idx (els d) 5) as [b5| |]; try discriminate. cbn [bind] in H.
    destruct (idx (els d) 6) as [b6| |]; try discriminate. cbn [bind] in H.
    destruct (sub d 7 _) as [p| |]; try discriminate. cbn [bind] in H.
    unfold new_application_command_handler in H.
    destruct (idx (els p) 0) as [c0| |]; try discriminate. cbn [bind] in H.
    destruct (idx (els p) 1) as [c1| |]; try discriminate. cbn [bind] in H.
    destruct (from p 2) as [rest| |]; try discriminate. cbn [bind] in H.
    destruct (reports_new c0 c1 (els rest)) as [r| |] eqn:R; try discriminate. cbn [bind] in H.
    injection H as <-. cbn. exists c0, c1, (els rest). exact R.
  - destruct (idx (els d) 6) as [b6| |]; try discriminate. cbn [bind] in H.
    destruct (sub d 7 _) as [p| |]; try discriminate. cbn [bind] in H.
    destruct (new_discovered_nodes (els p)) as [a| |] eqn:N; try discriminate. cbn [bind] in H.
    injection H as <-. cbn.
    destruct (Nat.lt_ge_cases (List.length (els p)) 6) as [L|L]; [rewrite discovered_short in N by exact L; discriminate|].
    destruct (Nat.lt_ge_cases 29 (List.length (els p))) as [G|G]; [apply discovered_panic in G; congruence|].
    destruct (discovered_nodes_bits (els p)) as (arr & E & LA & _); [lia|]. congruence.
  - destruct (from d 4) as [p| |]; try discriminate. cbn [bind] in H.
    destruct (new_protocol_info (els p)) as [a| |]; try discriminate. cbn [bind] in H. injection H as <-. exact I.
  - destruct (from d 4) as [p| |]; destruct b3; try discriminate; contradiction.
Qed.
Lemma decode_wire d r d' : decode d = Ok (r, d') -> wire_message (d_msg r).
Proof.
  unfold decode. intros H. destruct (idx (els d) 0) as [b0| |]; try discriminate. cbn [bind] in H.
  assert (K : forall d0 n, match new_message d0 with
      | Ok m => Ok (mkDecoded n (Some m) None, d0)
      | Fail e => Ok (mkDecoded n None (Some e), d0)
      | Panic => Panic end = Ok (r, d') -> wire_message (d_msg r)).
  { intros d0 n E. destruct (new_message d0) as [m|e|] eqn:M; try discriminate; injection E as <- <-; [|exact I].
    exact (new_message_wire _ _ M). }
  assert (K2 : match new_message d with
      | Ok m => Ok (mkDecoded 1 (Some m) None, d)
      | Fail _ => Ok (mkDecoded 1 None None, d)
      | Panic => Panic end = Ok (r, d') -> wire_message (d_msg r)).
  { intros E. destruct (new_message d) as [m|e|] eqn:M; try discriminate; injection E as <- <-; [|exact I].
    exact (new_message_wire _ _ M). }
  assert (K3 : forall n, Ok (mkDecoded n None None, d) = Ok (r, d') -> wire_message (d_msg r))
    by (intros n E; injection E as <- <-; exact I).
  destruct b0; try exact (K3 _ H); try exact (K2 H).
  destruct (len d <? 2)%nat; [exact (K3 _ H)|].
  destruct (idx (els d) 1) as [lb| |]; try discriminate. cbn [bind] in H.
  destruct (len d <? b2n lb + 2)%nat; [exact (K3 _ H)|].
  destruct (idx (els d) (b2n lb + 1)) as [c| |]; try discriminate. cbn [bind] in H.
  destruct (generate_checksum _) as [sum| |]; try discriminate. cbn [bind] in H.
  destruct (negb (beq c sum)); [injection H as <- <-; exact I|]. exact (K _ _ H).
Qed.

Definition wired (s : conn) : Prop :=
  (forall n r, In (n, r) (c_callbacks s) -> SpecConfig.decoded r) /\
  match c_mode s with RControl _ m _ _ _ => wire_message m | _ => True end.
Definition wire_event (e : event) : Prop :=
  match e with
  | EvDeliver _ m => wire_message m
  | EvCallback _ r => SpecConfig.decoded r
  | _ => True
  end.
Lemma spawn_wire m s s' ev : spawn_callback m s = (s', ev) -> wire_message m ->
  (forall n r, In (n, r) (c_callbacks s) -> SpecConfig.decoded r) ->
  (forall n r, In (n, r) (c_callbacks s') -> SpecConfig.decoded r) /\ c_mode s' = c_mode s /\ Forall wire_event ev.
Proof.
  unfold spawn_callback. intros H W C. destruct m as [msg|]; [|injection H as <- <-; auto].
  cbn in W. destruct (m_data msg) as [[c k r|a|pi]|]; injection H as <- <-; auto.
  conn_simpl. split; [|split; [reflexivity|repeat constructor]]. intros n r0 X. apply in_app_or in X.
  destruct X as [X|[X|[]]]; [exact (C _ _ X)|]. injection X as _ <-. exact W.
Qed.
Lemma remove_nth_in {A} k (l : list A) x : In x (remove_nth k l) -> In x l.
Proof.
  revert k. induction l as [|y l IH]; intros [|k] H; unfold remove_nth in *; cbn [firstn skipn app] in H; auto; [right; exact H|].
  destruct H as [H|H]; [left; exact H|right; exact (IH k H)].
Qed.
Lemma wired_step s l s' ev : wired s -> step s l = Some (s', ev) -> wired s' /\ Forall wire_event ev.
Proof.
  intros [C M0] H.
  assert (DL : forall i m, In (EvDeliver i m) ev -> wire_message m).
  { intros i m X. destruct (step_deliver _ _ _ _ _ _ H X) as (r & d & D & -> & _). exact (decode_wire _ _ _ D). }
  assert (CB : (forall n r, In (EvCallback n r) ev -> SpecConfig.decoded r) -> Forall wire_event ev).
  { intros X. apply Forall_forall. intros e I. destruct e; try exact Logic.I; cbn; eauto. }
  assert (Same : c_callbacks s' = c_callbacks s -> (c_mode s' = c_mode s \/ match c_mode s' with RControl _ _ _ _ _ => False | _ => True end) ->
    (forall n r, ~ In (EvCallback n r) ev) -> wired s' /\ Forall wire_event ev).
  { intros E1 E2 N. split; [|apply CB; intros n r X; destruct (N _ _ X)]. split; [now rewrite E1|].
    destruct E2 as [->|E2]; [exact M0|]. destruct (c_mode s'); auto. destruct E2. }
  assert (F : forall (P : event -> Prop), Forall P ev -> (forall n r, P (EvCallback n r) -> False) -> forall n r, ~ In (EvCallback n r) ev).
  { intros P V NP n r X. rewrite Forall_forall in V. exact (NP _ _ (V _ X)). }
  apply step_inv in H. destruct H as
  [M|k T|data w t er|i0 Fi|w p again q W Q|w i0 W|w i0 W|k i0 s' ev T E|k loop p T A|k n r T|stale chunk room M|M
  |o a s' ev M IC|i0 rcv b m0 pr vi lo p s' ev M Ip Ep Iv VC|b m0 pr vi lo s1 ev1 M FA SP];
  try (apply Same; [reflexivity|solve [conn_simpl; auto]|intros n0 r0 X; cbn in X; intuition discriminate]).
  - apply Same; [reflexivity|conn_simpl; auto|]. intros n0 r0 X. destruct (mem i0 (c_open s)); cbn in X; intuition discriminate.
  - apply expire_fields in E. destruct E as [E [_ V]].
    apply Same; [rewrite E; reflexivity|rewrite E; left; reflexivity|]. apply (F _ V). cbn. auto.
  - split; [|constructor; [|constructor]].
    + split; [|exact M0]. conn_simpl. intros n0 r0 X. exact (C n0 r0 (remove_nth_in _ _ _ X)).
    + cbn. apply nth_error_In in T. exact (C _ _ T).
  - destruct IC as [E|E P|b0 tl r0 d0 E0 D0 L0|r0 d0 E0 D0 L0 M1|b0 tl r0 d0 E0 D0 L0|r0 d0 s2 ev2 _ D0 N0 _ _ DV C2|r0 d0 s2 ev2 s3 ev3 E0 D0 N0 N1 LE DV C2 SP];
      try (apply Same; [reflexivity|solve [conn_simpl; auto]|intros n1 r1 X; cbn in X; intuition discriminate]).
    + split; [|constructor]. split; [exact C|]. conn_simpl. exact (decode_wire _ _ _ D0).
    + apply deliver_fields in DV. destruct DV as [E [_ V]].
      apply Same; [rewrite E; reflexivity|rewrite E; conn_simpl; auto|]. apply (F _ V). cbn. auto.
    + pose proof (deliver_fields _ _ _ _ _ _ _ DV) as [E [_ V]].
      destruct (spawn_wire _ _ _ _ SP (decode_wire _ _ _ D0)) as (C3 & M3 & V3).
      { rewrite E. conn_simpl. exact C. }
      split.
      * split; [conn_simpl; exact C3|]. conn_simpl. rewrite M3, E. conn_simpl. exact M0.
      * apply CB. intros n1 r1 X. apply in_app_or in X. destruct X as [X|X].
        -- rewrite Forall_forall in V. destruct (V _ X).
        -- apply in_app_or in X. destruct X as [X|[X|[X|[]]]]; try discriminate.
           rewrite Forall_forall in V3. exact (V3 _ X).
  - apply visit_fields in VC. destruct VC as [E [_ V]]. split.
    + split; [conn_simpl; rewrite E; exact C|]. rewrite M in M0. rewrite E. exact M0.
    + apply CB. intros n r X. rewrite Forall_forall in V. destruct (V _ X).
  - rewrite M in M0. destruct (spawn_wire _ _ _ _ SP M0 C) as (C3 & M3 & V3). split.
    + split; [conn_simpl; exact C3|exact I].
    + apply Forall_app. split; [exact V3|repeat constructor].
Qed.
Lemma wired_run ls : forall s s' tr, wired s -> run s ls = Some (s', tr) -> wired s' /\ Forall wire_event tr.
Proof.
  induction ls as [|l ls IH]; intros s s' tr W R; cbn [run] in R; [injection R as <- <-; auto|].
  destruct (step s l) as [[s1 e1]|] eqn:S; [|discriminate]. destruct (run s1 ls) as [[s2 e2]|] eqn:R2; [|discriminate].
  injection R as <- <-. destruct (wired_step _ _ _ _ W S) as [W1 V1]. destruct (IH _ _ _ W1 R2) as [W2 V2].
  split; [exact W2|]. apply Forall_app. auto.
Qed.
Lemma wired_init : wired init.
Proof. split; [intros n r []|exact I]. Qed.

(** ** The controller *)
Section Fmt.
Variable fmt : spec_float -> text.
Hypothesis FMT : forall f, is_double f -> faithful fmt f.

Definition room (d : disc) : Prop :=
  match d with
  | DcLoop i rest => (i + List.length rest <= 232)%nat
  | DcAdded i rest | DcPushed i rest => (i + 1 + List.length rest <= 232)%nat
  | _ => True
  end.
Record sane (st : cst) : Prop := mkSane {
  sn_list : node_list (c_nodes st);
  sn_nodes : forall id n, In (id, n) (c_nodes st) -> storable fmt n;
  sn_room : room (c_disc st) }.
Definition wire_input (l : clabel) : Prop :=
  match l with
  | CAnswer m => wire_message m
  | CReport _ r => SpecConfig.decoded r
  | CIdent _ n _ => storable fmt n
  | _ => True
  end.

Lemma zset_in {V} k (v : V) m k' v' : In (k', v') (zset k v m) -> (k' = k /\ v' = v) \/ In (k', v') m.
Proof.
  induction m as [|[j w] m IH]; cbn [zset]; [intros [H|[]]; injection H as <- <-; auto|].
  destruct (k =? j)%Z eqn:E; intros [H|H]; try (injection H as <- <-; auto); [right; right; exact H|right; left; reflexivity|].
  destruct (IH H) as [X|X]; [auto|right; right; exact X].
Qed.
Lemma list_set id n m : node_list m -> n_id n = id -> node_list (zset id n m).
Proof.
  intros [A B] E. split; [now apply zset_nodup|]. intros k n' I. apply zset_in in I. destruct I as [[-> ->]|I]; [exact E|exact (B _ _ I)].
Qed.
Lemma sane_set st st' id n : sane st -> n_id n = id -> storable fmt n -> c_nodes st' = zset id n (c_nodes st) ->
  room (c_disc st') -> sane st'.
Proof.
  intros [L N R] E S C D. split; [rewrite C; now apply list_set| |exact D].
  rewrite C. intros k n' I. apply zset_in in I. destruct I as [[_ ->]|I]; [exact S|exact (N _ _ I)].
Qed.
Lemma sane_same st st' : sane st -> c_nodes st' = c_nodes st -> room (c_disc st') -> sane st'.
Proof. intros [L N R] E D. split; [now rewrite E|rewrite E; exact N|exact D]. Qed.
Lemma sane_events st1 st' o id evs : node_events st1 id evs = Ok (st', o) -> sane st1 -> sane st'.
Proof.
  intros H S. apply node_events_ok in H. destruct H as [-> _].
  destruct (pushes_frame (map EUpdated evs) st1) as (_ & N & _ & _ & C & _).
  apply (sane_same st1); [exact S|exact N|rewrite C; apply (sn_room _ S)].
Qed.
Lemma sane_in st id n : sane st -> zlookup id (c_nodes st) = Some n -> storable fmt n /\ n_id n = id.
Proof.
  intros [[L K] N _] Z. apply ProofConfig.zlookup_in in Z; [|exact L]. split; [exact (N _ _ Z)|exact (K _ _ Z)].
Qed.
Lemma link_storable n : storable fmt n -> storable fmt (link_node n).
Proof.
  intros [A B C D E F G H I]. constructor; cbn; auto. intros l e X Y. destruct (n_endpoints n) as [l0|]; [|discriminate].
  injection X as <-. apply in_map_iff in Y. destruct Y as (e0 & <- & Y). exact (G _ _ eq_refl Y).
Qed.
Lemma sane_step st l st' o : sane st -> cstep st l = Some (Ok (st', o)) -> wire_input l -> sane st'.
Proof.
  intros S E W. pose proof (sn_room _ S) as R.
  assert (Same : c_nodes st' = c_nodes st -> c_disc st' = c_disc st -> sane st')
    by (intros E1 E2; apply (sane_same st); [exact S|exact E1|rewrite E2; exact R]).
  destruct l as [| |m| |b r|i|i n ann| | | | |d]; cbn [cstep] in E.
  - destruct (c_disc st); try discriminate. injection E as <- <-. apply (sane_same st); [exact S|reflexivity|exact I].
  - destruct (c_disc st) eqn:D; try discriminate; injection E as <- <-; exact S.
  - destruct (c_disc st) eqn:D; try discriminate. destruct m as [m|].
    + cbn in W. destruct (m_data m) as [[c k r|bm|pi]|]; injection E as <- <-;
        (apply (sane_same st); [exact S|reflexivity|]); try exact I. cbn. lia.
    + injection E as <- <-. apply (sane_same st); [exact S|reflexivity|exact I].
  - destruct (c_disc st) as [| |i [|a r]|i r|i r|] eqn:D; try discriminate; cbn [room List.length] in R.
    + injection E as <- <-. apply (sane_same st); [exact S|reflexivity|exact I].
    + destruct (negb a); [injection E as <- <-; apply (sane_same st); [exact S|reflexivity|cbn; lia]|].
      destruct (Nat.eqb i 0); [injection E as <- <-; apply (sane_same st); [exact S|reflexivity|cbn; lia]|].
      destruct (zlookup (Z.of_nat i + 1) (c_nodes st)); injection E as <- <-.
      * apply (sane_same st); [exact S|reflexivity|cbn; lia].
      * eapply (sane_set st); [exact S| | |reflexivity|cbn; lia]; [reflexivity|].
        apply link_storable, new_storable. unfold int64. lia.
    + injection E as <- <-. apply (sane_same st); [exact S|reflexivity|cbn; lia].
    + injection E as <- <-. apply (sane_same st); [exact S|reflexivity|cbn; lia].
  - destruct (zlookup (Z.of_N (b2N b)) (c_nodes st)) as [n|] eqn:Z; [|injection E as <- <-; exact S].
    destruct (process_event n r) as [[[n' evs] op]| |] eqn:P; cbn [bind] in E; try discriminate.
    match type of E with Some ?x = Some ?z => assert (E' : x = z) by congruence end.
    apply sane_events in E'; [exact E'|]. destruct (sane_in _ _ _ S Z) as [G K].
    pose proof (process_good fmt FMT _ _ _ _ _ G (decoded_plain _ W) P) as G'. apply process_event_events in P. destruct P as [_ I].
    destruct op; (eapply (sane_set st); [exact S|rewrite I; exact K|exact G'|reflexivity|exact R]).
  - destruct (existsb (Z.eqb i) (c_windows st)); [|discriminate].
    destruct (zlookup i (c_nodes st)) as [n|] eqn:Z; [|discriminate].
    destruct (alarm_window_end n) as [[n' evs]| |] eqn:P; cbn [bind] in E; try discriminate.
    match type of E with Some ?x = Some ?z => assert (E' : x = z) by congruence end.
    apply sane_events in E'; [exact E'|]. destruct (sane_in _ _ _ S Z) as [G K].
    pose proof (window_good fmt FMT _ _ _ G P) as G'. apply window_end_events in P. destruct P as [_ I].
    eapply (sane_set st); [exact S|rewrite I; exact K|exact G'|reflexivity|exact R].
  - destruct (existsb (Z.eqb i) (c_ident st)); [|discriminate]. cbn [andb] in E.
    destruct (Z.eqb_spec (n_id n) i) as [I|]; [|discriminate].
    match type of E with Some ?x = Some ?z => assert (E' : x = z) by congruence end.
    apply sane_events in E'; [exact E'|]. eapply (sane_set st); [exact S|exact I|exact W|reflexivity|exact R].
  - destruct (c_queue st); [discriminate|]. injection E as <- <-. apply Same; reflexivity.
  - destruct (c_trig st); [discriminate|]. destruct (c_deb st); try discriminate; injection E as <- <-; apply Same; reflexivity.
  - destruct (c_deb st); try discriminate. destruct (save_delay <=? age)%N; [|discriminate].
    destruct (c_file st); injection E as <- <-; apply Same; reflexivity.
  - destruct (c_deb st); try discriminate. injection E as <- <-. apply Same; reflexivity.
  - destruct (c_deb st); injection E as <- <-; apply Same; reflexivity.
Qed.
Lemma sane_run ls : forall st st' o, sane st -> crun st ls = Some (Ok (st', o)) -> Forall wire_input ls -> sane st'.
Proof.
  induction ls as [|l ls IH]; intros st st' o S R F; [injection R as <- _; exact S|].
  apply crun_cons in R. destruct R as (s1 & o1 & o2 & E & R & _). inversion F; subst.
  eapply IH; [|exact R|assumption]. eapply sane_step; eassumption.
Qed.
Lemma sane_load ns : forall st, sane st -> (forall n, In n ns -> storable fmt n) -> sane (load_nodes st ns).
Proof.
  induction ns as [|n ns IH]; intros st S G; [exact S|]. cbn [load_nodes]. apply IH; [|intros x X; apply G; right; exact X].
  match goal with |- sane (push ?x ?e) => destruct (pushes_frame [e] x) as (_ & N & _ & _ & C & _) end.
  cbn [pushes] in N, C. eapply (sane_set st); [exact S| | |exact N|].
  - reflexivity.
  - apply link_storable, G. left. reflexivity.
  - rewrite C. apply (sn_room _ S).
Qed.

(** ** The whole program *)
Lemma led_wire ev cls : led ev cls -> Forall wire_event ev ->
  (forall b r, In (CReport b r) cls -> SpecConfig.decoded r) /\ (forall m, In (CAnswer m) cls -> wire_message m).
Proof.
  intros [A B] V. rewrite Forall_forall in V. split.
  - intros b r I. assert (X : In (b, r) (reports_in cls)).
    { unfold reports_in. apply in_flat_map. exists (CReport b r). split; [exact I|left; reflexivity]. }
    rewrite A in X. unfold called_back in X. apply in_flat_map in X. destruct X as (e & I1 & I2).
    destruct e; try (destruct I2; fail). destruct I2 as [I2|[]]. injection I2 as -> ->. exact (V _ I1).
  - intros [m|] I; [|exact Logic.I]. destruct (B m I) as [i X]. exact (V _ X).
Qed.
Lemma sane_yrun y ls y' ev o : yrun y ls = Some (Ok (y', ev, o)) -> wired (y_conn y) -> sane (y_ctl y) ->
  (forall id n a, In (YCtl (CIdent id n a)) ls -> storable fmt n) ->
  wired (y_conn y') /\ sane (y_ctl y').
Proof.
  intros R W S G. destruct (yrun_spec _ _ _ _ _ R) as [C (cls & CR & L & O)].
  destruct (wired_run _ _ _ _ W C) as [W' V]. split; [exact W'|].
  apply (sane_run _ _ _ _ S CR). destruct (led_wire _ _ L V) as [L1 L2]. apply Forall_forall. intros c I.
  destruct c; try exact Logic.I; cbn.
  - exact (L2 _ I).
  - exact (L1 _ _ I).
  - exact (G _ _ _ (O _ I eq_refl)).
Qed.
Record wsane (w : whole) : Prop := mkWsane {
  ws_conn : wired (y_conn (w_sys w)); ws_ctl : sane (y_ctl (w_sys w));
  ws_ans : forall id j, zlookup id (w_jobs w) = Some j ->
    match j_ans j with Some (AReport (Some r)) => SpecConfig.decoded r | _ => True end }.
Lemma hear_ans id j e : wire_event e ->
  match j_ans j with Some (AReport (Some r)) => SpecConfig.decoded r | _ => True end ->
  match j_ans (hear id j e) with Some (AReport (Some r)) => SpecConfig.decoded r | _ => True end.
Proof.
  intros V H. destruct e as [| |i bs| | |i| |i m|i| | | | | | | |b r|]; cbn [hear]; try exact H.
  - destruct (own_request j i); exact H.
  - destruct (own_request j i); exact H.
  - destruct (_ && _); [|exact H]. destruct (is_info (j_pc j)); [exact I|].
    destruct m as [msg|]; [|exact H]. cbn in V. destruct (m_data msg) as [[c k r|bm|pi]|]; try exact H. exact V.
  - destruct (_ && _); [|exact H]. cbn. destruct (is_info (j_pc j)); exact I.
  - destruct r; try exact H. destruct (_ =? _)%Z; [|exact H].
    destruct (istep _ _) as [[st io]|]; exact H.
Qed.
Lemma hears_ans ev : forall id j, Forall wire_event ev ->
  match j_ans j with Some (AReport (Some r)) => SpecConfig.decoded r | _ => True end ->
  match j_ans (fold_left (hear id) ev j) with Some (AReport (Some r)) => SpecConfig.decoded r | _ => True end.
Proof.
  induction ev as [|e ev IH]; intros id j V H; [exact H|]. cbn [fold_left]. inversion V; subst. apply IH; [assumption|].
  now apply hear_ans.
Qed.
Lemma wsane_step w l w' ev o : wsane w -> wstep w l = Some (Ok (w', ev, o)) -> wsane w'.
Proof.
  intros [W S A] H.
  destruct (wstep_job _ _ _ _ _ H) as [(yl & -> & PL & YS & WJ)|(id & j & n & il & st & io & L & J & N & JL & IS & YR & WJ)].
  - destruct (ystep_spec _ _ _ _ _ YS) as [C _]. destruct (wired_run _ _ _ _ W C) as [_ V].
    assert (R : yrun (w_sys w) [yl] = Some (Ok (w_sys w', ev ++ [], o ++ []))) by (cbn [yrun]; rewrite YS; reflexivity).
    destruct (sane_yrun _ _ _ _ _ R W S) as [W' S'].
    { intros id n a [X|[]]. subst yl. discriminate. }
    split; [exact W'|exact S'|]. rewrite WJ. intros id j J. destruct (started_jobs _ _ _ _ J) as [X|[-> X]]; [|exact I].
    unfold hears in X. rewrite (zlookup_map (fun i j => fold_left (hear i) ev j)) in X.
    destruct (zlookup id (w_jobs w)) as [j0|] eqn:J0; [|discriminate]. injection X as <-. exact (hears_ans _ _ _ V (A _ _ J0)).
  - destruct (sane_in _ _ _ S N) as [G _].
    assert (G' : storable fmt (i_node st)).
    { apply (istep_good fmt FMT (mkI (j_pc j) n (j_chan j) (j_fresh j)) il st io G); [|exact IS]. specialize (A _ _ J).
      destruct L as [->|[->| ->]]; cbn [job_label] in JL.
      - destruct (j_busy j); [discriminate|]. injection JL as <-. exact I.
      - injection JL as <-. exact I.
      - destruct (j_ans j) as [[m|[r|]]|]; try discriminate; injection JL as <-; try exact I. exact A. }
    destruct (sane_yrun _ _ _ _ _ YR W S) as [W' S'].
    { intros i n' a X. unfold job_effect in X. destruct (commands_of io) as [|m r].
      - destruct (events_of io) as [|e es]; [destruct X as [X|[]]; injection X as _ <- _; exact G'|].
        apply in_map_iff in X. destruct X as (_ & X & _). injection X as _ <- _. exact G'.
      - destruct (request_kind (i_pc st)) as [[wt t] er]. destruct X as [X|[]]. discriminate. }
    split; [exact W'|exact S'|]. rewrite WJ. intros i j' X. rewrite zlookup_set in X.
    destruct (Z.eqb_spec i id) as [->|_]; [|exact (A _ _ X)]. injection X as <-. unfold job_after.
    destruct (commands_of io); exact I.
Qed.
Lemma wsane_start file ns : (forall n, In n ns -> storable fmt n) -> wsane (wstart file ns).
Proof.
  intros G. split; cbn [wstart w_sys ystart y_conn y_ctl w_jobs].
  - exact wired_init.
  - apply sane_load; [|exact G]. split; [split; [constructor|intros k n []]|intros k n []|exact I].
  - intros id j H. discriminate.
Qed.
End Fmt.
