(** Proofs about the whole program: from its start to the end of all identifications. *)
From Verif Require Import ModelBase ModelReports ModelSerial ModelCommands ModelNodes ModelList DataDevices ModelDatabase.
From Verif Require Import ModelIdentify ModelController ModelConnection ModelSystem ModelWhole.
From Verif Require Import SpecFrame SpecDecode SpecMessage SpecReports SpecConnection SpecIdentify SpecController SpecNodes SpecSystem SpecWhole SpecComplete.
From Verif Require Import ProofBase ProofReports ProofSerial ProofMessage ProofConnection ProofLink ProofReader ProofContent ProofIdentify ProofController ProofSystem ProofDiscovery ProofDelivery ProofWhole ProofWholeWait ProofAnswer ProofComplete ProofResume ProofNetwork.
From Coq Require Import Lia.
Local Opaque definitions devices get_mandatory device_new.

(** ** The question for the nodes *)
Lemma asked c : c_disc c = DcIdle -> exists s c1 ev, wrun (mkW (mkSys init c None) []) (map WSys (ask_labels ++ ack_labels)) =
    Some (Ok (mkW (mkSys s c1 (Some (0, true))) [], ev, [])) /\
  c_nodes c1 = c_nodes c /\ c_disc c1 = DcAsked /\ c_mode s = RReading /\ c_crashed s = false /\ Forall (only [[x06]]) ev /\
  In (EvCall 0 [x02] WaitMessage true x00) ev /\ In 0 (written ev) /\ In (EvGot 0) ev /\ replies 0 ev = [].
Proof.
  intros D. destruct c as [fi no se qu tr de di id wi]. cbn [c_disc] in D. subst di.
  do 3 eexists. split; [vm_compute; reflexivity|]. cbn [c_nodes c_disc c_mode c_crashed].
  repeat (split; [reflexivity|]). split; [repeat constructor; cbn; auto|].
  split; [cbn; tauto|]. split; [cbn; tauto|]. split; [cbn; tauto|reflexivity].
Qed.

(** ** The answer *)
Lemma follow_calm ev : forall a c a' c' o, Forall tame ev -> c_disc c <> DcAsked -> follow a c ev = Some (Ok (a', c', o)) -> c' = c.
Proof.
  induction ev as [|e ev IH]; intros a c a' c' o F D H; [injection H as _ <- _; reflexivity|].
  inversion F as [|? ? Fe Fr]; subst. cbn [follow] in H.
  assert (R : react a c e = None).
  { destruct e; try (destruct Fe; fail); try reflexivity; cbn [react]; destruct a as [[k []]|]; try reflexivity;
      destruct (c_disc c); try reflexivity; destruct (D eq_refl). }
  rewrite R in H. exact (IH _ _ _ _ _ Fr D H).
Qed.
Lemma follow_list m bm ev : m_data m = Some (PNodes bm) -> Forall tame ev -> forall c a' c' o, c_disc c = DcAsked ->
  In (EvDeliver 0 (Some m)) ev -> replies 0 ev = [Message; Closed] ->
  follow (Some (0, true)) c ev = Some (Ok (a', c', o)) -> c' = with_disc c (DcLoop 0 bm).
Proof.
  intros MD. induction ev as [|e ev IH]; intros F c a' c' o D I RP H; [destruct I|]. inversion F as [|? ? Fe Fr]; subst.
  change (e :: ev) with ([e] ++ ev) in RP. rewrite replies_app in RP. cbn [follow] in H.
  assert (NO : react (Some (0, true)) c e = None -> hold (Some (0, true)) e = Some (0, true) -> e <> EvDeliver 0 (Some m) -> replies 0 [e] = [] -> c' = with_disc c (DcLoop 0 bm)).
  { intros R HO NE R0. rewrite R, HO in H. rewrite R0 in RP. destruct I as [I|I]; [contradiction|]. exact (IH Fr _ _ _ _ D I RP H). }
  destruct e; try (destruct Fe; fail); try (apply NO; [reflexivity|reflexivity|discriminate|reflexivity]).
  - cbn [react] in H, NO. rewrite D in H, NO. cbn [replies flat_map app] in RP, NO. destruct (Nat.eqb id 0) eqn:E.
    + apply Nat.eqb_eq in E. subst id. injection RP as RP.
      destruct I as [I|I].
      * injection I as ->. cbn [cstep] in H. rewrite D, MD in H.
        destruct (follow _ _ ev) as [[[[a2 c2] o2]| |]|] eqn:FO; try discriminate. injection H as _ <- _.
        apply (follow_calm _ _ _ _ _ _ Fr) in FO; [exact FO|]. discriminate.
      * exfalso. assert (X : In Message (replies 0 ev)) by (unfold replies; apply in_flat_map; eexists; split; [exact I|left; reflexivity]).
        rewrite RP in X. destruct X as [X|[]]; discriminate.
    + apply NO; [reflexivity|reflexivity| |reflexivity]. intros X. injection X as -> _. discriminate.
  - cbn [react] in H, NO. rewrite D in H, NO. cbn [replies flat_map app] in RP, NO. destruct (Nat.eqb id 0) eqn:E.
    + discriminate RP.
    + apply NO; [reflexivity|reflexivity|discriminate|reflexivity].
Qed.
Lemma list_bytes f : node_list f -> exists m bm, message_of f = Some m /\ m_data m = Some (PNodes bm) /\ (10 <= List.length f)%nat /\
  nth_error f 3 = Some x02 /\ forall id, active_in bm id <-> lists_node f id.
Proof.
  intros (SC & m & bm & M & D). exists m, bm. split; [exact M|]. split; [exact D|].
  assert (X : (10 <= List.length f)%nat /\ nth_error f 3 = Some x02).
  { unfold message_of in M. destruct (content f) as [pl| |] eqn:C; try discriminate. injection M as <-. cbn in D. injection D as ->.
    unfold content in C. destruct (byte_at f 3 =? 4)%N; [destruct (SpecMessage.announced f) as [|c [|k d]]; try discriminate;
      destruct (reports_new c k d); discriminate|].
    destruct (N.eqb_spec (byte_at f 3) 2) as [E3|]; [|destruct (byte_at f 3 =? 65)%N;
      [destruct (new_protocol_info (skipn 4 (cleared f))); discriminate|discriminate]].
    destruct (new_discovered_nodes (SpecMessage.announced f)) as [a| |] eqn:ND; try discriminate.
    assert (L : (6 <= List.length (SpecMessage.announced f))%nat).
    { destruct (Nat.le_gt_cases 6 (List.length (SpecMessage.announced f))) as [X|X]; [exact X|].
      revert ND. unfold new_discovered_nodes. apply Nat.ltb_lt in X. rewrite X. discriminate. }
    unfold SpecMessage.announced in L. rewrite firstn_length, skipn_length in L. unfold cleared in L. rewrite clear_at_length in L. split; [lia|].
    rewrite (nth_error_nth' f x00) by lia. f_equal. unfold byte_at in E3.
    apply (f_equal Byte.of_N) in E3. rewrite Byte.of_to_N in E3. injection E3 as E3. exact E3. }
  destruct X as [L E]. split; [exact L|]. split; [exact E|]. intros id. exact (nodes_message f m bm id SC M D).
Qed.

Lemma list_arrives file ns f : node_list f -> exists ls w ev o bm, wrun (wstart file ns) ls = Some (Ok (w, ev, o)) /\
  Forall (only [[x06]; f]) ev /\ c_crashed (y_conn (w_sys w)) = false /\ c_mode (y_conn (w_sys w)) = RReading /\
  w_jobs w = [] /\ c_nodes (y_ctl (w_sys w)) = c_nodes (loaded file ns) /\ c_disc (y_ctl (w_sys w)) = DcLoop 0 bm /\
  forall id, active_in bm id <-> lists_node f id.
Proof.
  intros NL. destruct (list_bytes f NL) as (m & bm & MG & MD & L & B3 & AC). destruct NL as (SC & _).
  destruct (load_trig file ns) as (_ & _ & IDLE & _). destruct (asked (loaded file ns) IDLE) as (s & c1 & ev & R & N1 & D1 & M & C & F & CA & WR & GO & RP).
  change (mkW (mkSys init (loaded file ns) None) []) with (wstart file ns) in R. set (w := mkW (mkSys s c1 (Some (0, true))) []) in *.
  assert (X : exists s1, step (y_conn (w_sys w)) (LRead true f 0) = Some (s1, [EvArrive true f]) /\ c_mode s1 = RParsing /\ c_crashed s1 = false /\ els (c_buf s1) = f).
  { unfold step. cbn [w w_sys y_conn]. rewrite C, M. eexists. split; [reflexivity|]. conn_simpl. split; [reflexivity|]. split; [exact C|].
    unfold append_chunk. cbn [spare els List.length]. destruct (Nat.leb_spec (List.length f) 0); [lia|]. reflexivity. }
  destruct X as (s1 & S1 & M1 & C1 & E1).
  set (w1 := mkW (mkSys s1 c1 (Some (0, true))) []).
  assert (W1 : wstep w (WSys (YConn (LRead true f 0))) = Some (Ok (w1, [EvArrive true f], []))).
  { cbn [wstep plain ystep]. rewrite S1. reflexivity. }
  pose proof (wrun_app _ _ _ _ _ [WSys (YConn (LRead true f 0))] w1 [EvArrive true f] [] R ltac:(cbn [wrun]; rewrite W1; reflexivity)) as R1.
  destruct (wrun_conn _ _ _ _ _ _ R1) as [cl CR]. cbn [w1 w_sys y_conn] in CR.
  destruct (iter_takes s1 f m [0] M1 C1 SC ltac:(lia) E1 MG) as (s2 & e2 & S2 & C2 & M2 & E2 & I2 & V2 & _).
  assert (RP1 : replies 0 (ev ++ [EvArrive true f]) = []) by (rewrite replies_app, RP; reflexivity).
  assert (IN : forall e, In e ev -> In e (ev ++ [EvArrive true f])) by (intros e I; apply in_or_app; left; exact I).
  destruct (frame_reaches _ _ _ _ _ _ _ _ _ _ _ _ _ _ CR S2 C2 I2 L (IN _ CA) ltac:(discriminate) ltac:(rewrite written_app; apply in_or_app; left; exact WR) RP1) as [CL DL].
  assert (AB : answered_by [x02] x00 f).
  { unfold answered_by. cbn [nth List.length Nat.ltb Nat.leb]. split; [left; right; exact B3|right]. split; [left; reflexivity|]. split; left; reflexivity. }
  assert (IC : In (EvClose 0) e2) by (apply CL; exact AB).
  assert (ID : In (EvDeliver 0 (Some m)) e2) by (apply DL; [exact AB|exact (IN _ GO)|left; reflexivity]).
  assert (RUN1 : run init (cl ++ [LIter [] [0]]) = Some (s2, (ev ++ [EvArrive true f]) ++ e2)).
  { rewrite run_app, CR. cbn [run]. rewrite S2. rewrite app_nil_r. reflexivity. }
  assert (RE : replies 0 e2 = [Message; Closed]).
  { destruct (replies_invariant _ _ _ RUN1) as [_ GI]. destruct (GI 0) as [GD _]. rewrite replies_app, RP1 in GD. cbn [app] in GD.
    assert (X1 : In Message (replies 0 e2)) by (unfold replies; apply in_flat_map; eexists; split; [exact ID|left; reflexivity]).
    assert (X2 : In Closed (replies 0 e2)) by (unfold replies; apply in_flat_map; eexists; split; [exact IC|left; reflexivity]).
    unfold good in GD. cbn [In] in GD. destruct GD as [GD|[GD|[GD|[GD|[]]]]]; rewrite <- GD in X1, X2 |- *; cbn in X1, X2; intuition discriminate. }
  destruct (follow_ok e2 (Some (0, true)) c1 (tame_no_callback _ V2)) as (a & c2 & o2 & FO & N2).
  pose proof (follow_list _ _ _ MD V2 _ _ _ _ D1 ID RE FO) as E. subst c2.
  set (w2 := mkW (mkSys s2 (with_disc c1 (DcLoop 0 bm)) a) []).
  assert (W2 : wstep w1 (WSys (YConn (LIter [] [0]))) = Some (Ok (w2, e2, o2))).
  { cbn [wstep plain ystep w1 w_sys y_conn y_ask y_ctl w_jobs]. rewrite S2, FO. unfold w2. rewrite started_quiet by exact (follow_quiet _ _ _ _ _ _ FO). reflexivity. }
  set (w3 := mkW (mkSys (set_c_mode RReading s2) (with_disc c1 (DcLoop 0 bm)) a) []).
  assert (W3 : wstep w2 (WSys (YConn (LIter [] []))) = Some (Ok (w3, [], []))).
  { cbn [wstep plain ystep w2 w_sys y_conn y_ask y_ctl w_jobs]. rewrite (step_iter_wait _ M2 C2 (or_introl E2)). reflexivity. }
  assert (R3 : wrun w1 [WSys (YConn (LIter [] [0])); WSys (YConn (LIter [] []))] = Some (Ok (w3, e2 ++ [], o2 ++ []))).
  { cbn [wrun]. rewrite W2, W3. rewrite !app_nil_r. reflexivity. }
  eexists. exists w3. do 2 eexists. exists bm. split; [exact (wrun_app _ _ _ _ _ _ _ _ _ R1 R3)|].
  split.
  { apply Forall_app. split; [|rewrite app_nil_r; exact (tame_only _ _ V2)]. apply Forall_app. split; [|constructor; [right; left; reflexivity|constructor]].
    revert F. apply Forall_impl. intros []; cbn; tauto. }
  unfold w3. cbn [w_sys y_conn y_ctl w_jobs with_disc c_nodes c_disc]. conn_simpl. auto 10.
Qed.

(** ** The loop over the nodes *)
Definition from_disc (w : whole) (i : nat) (rest : list bool) (w' : whole) : Prop :=
  y_conn (w_sys w') = y_conn (w_sys w) /\
  (forall id j, (id <= Z.of_nat i)%Z -> zlookup id (w_jobs w) = Some j -> zlookup id (w_jobs w') = Some j) /\
  (forall id, (id <= Z.of_nat i)%Z -> zlookup id (c_nodes (y_ctl (w_sys w'))) = zlookup id (c_nodes (y_ctl (w_sys w)))) /\
  forall m, nth_error rest m = Some true -> (1 <= i + m)%nat -> let id := (Z.of_nat (i + m) + 1)%Z in
    zlookup id (w_jobs w') = Some new_job /\
    zlookup id (c_nodes (y_ctl (w_sys w'))) = Some match zlookup id (c_nodes (y_ctl (w_sys w))) with Some n => n | None => new_node id end.
Lemma disc_step w c o : cstep (y_ctl (w_sys w)) CDisc = Some (Ok (c, o)) ->
  wstep w (WSys (YCtl CDisc)) = Some (Ok (mkW (mkSys (y_conn (w_sys w)) c (y_ask (w_sys w))) (started o (w_jobs w)), [], o)).
Proof.
  intros S. cbn [wstep plain ystep own_step]. rewrite S. unfold hears. cbn [fold_left].
  assert (E : map (fun x : Z * job => (fst x, snd x)) (w_jobs w) = w_jobs w).
  { generalize (w_jobs w). intros l. induction l as [|[i j] l IH]; [reflexivity|]. cbn [map fst snd]. rewrite IH. reflexivity. }
  rewrite E. reflexivity.
Qed.
Lemma disc_loop rest : forall i w, c_disc (y_ctl (w_sys w)) = DcLoop i rest ->
  exists ls w' o, wrun w ls = Some (Ok (w', [], o)) /\ from_disc w i rest w'.
Proof.
  induction rest as [|active rest IH]; intros i w D.
  - exists [], w, []. split; [reflexivity|]. split; [reflexivity|]. split; [auto|]. split; [reflexivity|]. intros m E. destruct m; discriminate.
  - assert (GO : forall ls w1 o1, wrun w ls = Some (Ok (w1, [], o1)) -> c_disc (y_ctl (w_sys w1)) = DcLoop (S i) rest ->
      y_conn (w_sys w1) = y_conn (w_sys w) ->
      (forall id, id <> (Z.of_nat i + 1)%Z -> zlookup id (w_jobs w1) = zlookup id (w_jobs w) /\
        zlookup id (c_nodes (y_ctl (w_sys w1))) = zlookup id (c_nodes (y_ctl (w_sys w)))) ->
      (active = true -> (1 <= i)%nat -> let id := (Z.of_nat i + 1)%Z in zlookup id (w_jobs w1) = Some new_job /\
        zlookup id (c_nodes (y_ctl (w_sys w1))) = Some match zlookup id (c_nodes (y_ctl (w_sys w))) with Some n => n | None => new_node id end) ->
      exists ls w' o, wrun w ls = Some (Ok (w', [], o)) /\ from_disc w i (active :: rest) w').
    { intros ls w1 o1 R D1 Y1 K1 A1. destruct (IH (S i) w1 D1) as (ls' & w' & o' & R' & Y & J & N & A).
      exists (ls ++ ls'), w', (o1 ++ o'). split; [exact (wrun_app _ _ _ _ _ _ _ _ _ R R')|]. split; [congruence|]. split.
      { intros id j LE X. apply J; [lia|]. rewrite (proj1 (K1 id ltac:(lia))). exact X. }
      split; [intros id LE; rewrite N by lia; exact (proj2 (K1 id ltac:(lia)))|].
      intros [|m] E G; cbn [nth_error] in E.
      - injection E as ->. cbn zeta in *. rewrite Nat.add_0_r in *. destruct (A1 eq_refl G) as [X1 X2].
        split; [apply J; [lia|exact X1]|]. rewrite N by lia. exact X2.
      - cbn zeta. specialize (A m E ltac:(lia)). cbn zeta in A. replace (S i + m)%nat with (i + S m)%nat in A by lia.
        rewrite (proj2 (K1 (Z.of_nat (i + S m) + 1)%Z ltac:(lia))) in A. exact A. }
    assert (ONE : forall c o, cstep (y_ctl (w_sys w)) CDisc = Some (Ok (c, o)) ->
      wrun w [WSys (YCtl CDisc)] = Some (Ok (mkW (mkSys (y_conn (w_sys w)) c (y_ask (w_sys w))) (started o (w_jobs w)), [], o ++ []))).
    { intros c o S. cbn [wrun]. rewrite (disc_step _ _ _ S). reflexivity. }
    set (id := (Z.of_nat i + 1)%Z). destruct active.
    + destruct (Nat.eqb_spec i 0) as [->|NZ].
      * eapply GO; [apply ONE; cbn [cstep]; rewrite D; reflexivity|reflexivity|reflexivity|intros x _; split; reflexivity|intros _ X; lia].
      * assert (E0 : Nat.eqb i 0 = false) by (apply Nat.eqb_neq; exact NZ).
        destruct (zlookup id (c_nodes (y_ctl (w_sys w)))) as [n|] eqn:Z1.
        -- eapply GO; [apply ONE; cbn [cstep]; rewrite D; cbn [negb]; rewrite E0; fold id; rewrite Z1; reflexivity|reflexivity|reflexivity| |].
           ++ intros x NE. cbn [w_jobs w_sys y_ctl started fold_left with_ident with_disc c_nodes]. rewrite zlookup_set.
              destruct (Z.eqb_spec x id); [contradiction|split; reflexivity].
           ++ intros _ _. cbn zeta. fold id. cbn [w_jobs w_sys y_ctl started fold_left with_ident with_disc c_nodes]. rewrite zlookup_set, Z.eqb_refl, Z1. split; reflexivity.
        -- set (c1 := with_disc (add_node (y_ctl (w_sys w)) (new_node id)) (DcAdded i rest)).
           set (c2 := with_disc (push c1 (EDiscovered id)) (DcPushed i rest)).
           set (c3 := with_ident (with_setup (with_disc c2 (DcLoop (S i) rest)) id) id).
           set (w1 := mkW (mkSys (y_conn (w_sys w)) c1 (y_ask (w_sys w))) (w_jobs w)).
           set (w2 := mkW (mkSys (y_conn (w_sys w)) c2 (y_ask (w_sys w))) (w_jobs w)).
           set (w3 := mkW (mkSys (y_conn (w_sys w)) c3 (y_ask (w_sys w))) (zset id new_job (w_jobs w))).
           assert (S1 : wstep w (WSys (YCtl CDisc)) = Some (Ok (w1, [], []))).
           { apply (disc_step w c1 []). cbn [cstep]. rewrite D. cbn [negb]. rewrite E0. fold id. rewrite Z1. reflexivity. }
           assert (S2 : wstep w1 (WSys (YCtl CDisc)) = Some (Ok (w2, [], [COPush (EDiscovered id)]))) by exact (disc_step w1 c2 [COPush (EDiscovered id)] eq_refl).
           assert (S3 : wstep w2 (WSys (YCtl CDisc)) = Some (Ok (w3, [], [COIdentify id]))).
           { exact (disc_step w2 c3 [COIdentify id] eq_refl). }
           assert (NN : c_nodes c3 = zset id (new_node id) (c_nodes (y_ctl (w_sys w)))).
           { reflexivity. }
           eapply (GO [WSys (YCtl CDisc); WSys (YCtl CDisc); WSys (YCtl CDisc)] w3).
           ++ cbn [wrun]. rewrite S1, S2, S3. reflexivity.
           ++ reflexivity.
           ++ reflexivity.
           ++ intros x NE. unfold w3. cbn [w_jobs w_sys y_ctl]. rewrite NN, !zlookup_set. destruct (Z.eqb_spec x id); [contradiction|split; reflexivity].
           ++ intros _ _. cbn zeta. fold id. unfold w3. cbn [w_jobs w_sys y_ctl]. rewrite NN, !zlookup_set, Z.eqb_refl, Z1. split; reflexivity.
    + eapply GO; [apply ONE; cbn [cstep]; rewrite D; reflexivity|reflexivity|reflexivity|intros x _; split; reflexivity|discriminate].
Qed.

(** ** The theorem *)
Lemma start_completes : forall file ns f bs r, node_list f -> NoDup bs ->
  (forall b, In b bs -> (2 <= address b)%Z /\ lists_node f (address b) /\ answers_all b (first_known file ns b) (r b)) ->
  exists ls w tr o, wrun (wstart file ns) ls = Some (Ok (w, tr, o)) /\
    Forall (only ([x06] :: f :: flat_map (fun b => frames_for (first_known file ns b) (r b)) bs)) tr /\
    c_crashed (y_conn (w_sys w)) = false /\
    forall b, In b bs -> returned w b /\ exists n, node_of (w_sys w) b = Some n /\ told b (first_known file ns b) (r b) n.
Proof.
  intros file ns f bs r NL ND A. destruct (list_arrives file ns f NL) as (l1 & w1 & e1 & o1 & bm & R1 & F1 & C1 & M1 & J1 & N1 & D1 & AC).
  destruct (disc_loop bm 0 w1 D1) as (l2 & w2 & o2 & R2 & Y2 & _ & _ & K2).
  pose proof (wrun_app _ _ _ _ _ _ _ _ _ R1 R2) as R12.
  assert (READY : forall b, In b bs -> not_begun w2 b /\ node_of (w_sys w2) b = Some (first_known file ns b)).
  { intros b I. destruct (A b I) as (GE & LS & _). apply AC in LS. destruct LS as [P1 NE].
    specialize (K2 _ NE ltac:(lia)). cbn zeta in K2. replace (Z.of_nat (0 + Z.to_nat (address b - 1)) + 1)%Z with (address b) in K2 by lia.
    destruct K2 as [K2 K3]. split; [exact K2|]. unfold node_of. rewrite K3. unfold first_known, node_of, ystart. cbn [y_ctl]. rewrite N1. reflexivity. }
  destruct (network_completes file ns _ w2 _ _ bs r R12 ltac:(congruence) ltac:(congruence) ND) as (l3 & w3 & e3 & o3 & R3 & F3 & _ & C3 & K3).
  { intros b I. destruct (READY b I) as [X Y]. split; [exact X|]. eexists. split; [exact Y|]. exact (proj2 (proj2 (A b I))). }
  exists ((l1 ++ l2) ++ l3), w3. do 2 eexists. split; [exact (wrun_app _ _ _ _ _ _ _ _ _ R12 R3)|]. split.
  { apply Forall_app. split.
    - rewrite app_nil_r. revert F1. apply Forall_impl. intros []; cbn; tauto.
    - revert F3. apply Forall_impl. intros []; cbn; try exact (fun x => x). intros I. right. right.
      apply in_flat_map in I. destruct I as (c & Ic & I). apply in_flat_map. exists c. split; [exact Ic|].
      unfold frames_of in I. rewrite (proj2 (READY c Ic)) in I. exact I. }
  split; [exact C3|]. intros b I. destruct (K3 b I) as (X & n0 & n & Q0 & Q1 & T). split; [exact X|]. exists n. split; [exact Q1|].
  rewrite (proj2 (READY b I)) in Q0. injection Q0 as <-. exact T.
Qed.
