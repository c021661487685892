(** Proofs about the whole program: an identification that waits for the type
    of its node can be completed. *)
From Verif Require Import ModelBase ModelReports ModelSerial ModelCommands ModelNodes ModelList DataDevices ModelDatabase.
From Verif Require Import ModelIdentify ModelController ModelConnection ModelSystem ModelWhole.
From Verif Require Import SpecFrame SpecDecode SpecMessage SpecReports SpecConnection SpecIdentify SpecController SpecNodes SpecSystem SpecWhole SpecComplete.
From Verif Require Import ProofBase ProofReports ProofSerial ProofMessage ProofConnection ProofLink ProofReader ProofContent ProofIdentify ProofController ProofSystem ProofDiscovery ProofDelivery ProofWhole ProofWholeWait ProofAnswer.
From Verif Require ProofDatabase.
From Coq Require Import Lia Permutation.
Local Opaque definitions devices get_mandatory device_new.

(** ** Steps of the connection in the whole program *)
Definition no_callback (e : event) : Prop := match e with EvCallback _ _ => False | _ => True end.
Lemma follow_ok ev : forall ask c, Forall no_callback ev ->
  exists a c' o, follow ask c ev = Some (Ok (a, c', o)) /\ c_nodes c' = c_nodes c.
Proof.
  induction ev as [|e ev IH]; intros ask c F; [do 3 eexists; split; reflexivity|]. inversion F as [|? ? Fe Fr]; subst. cbn [follow].
  destruct (react ask c e) as [l|] eqn:RE; [|apply IH; exact Fr].
  assert (X : exists c1 o1, cstep c l = Some (Ok (c1, o1)) /\ c_nodes c1 = c_nodes c).
  { destruct e; cbn [react] in RE; try discriminate; try (destruct Fe; fail);
      (destruct ask as [[k []]|]; try discriminate; destruct (c_disc c) eqn:D; try discriminate;
       destruct (Nat.eqb _ _); try discriminate; injection RE as <-; cbn [cstep]; rewrite D).
    - destruct m as [msg|]; [destruct (m_data msg) as [[]|]|]; do 2 eexists; split; reflexivity.
    - do 2 eexists; split; reflexivity. }
  destruct X as (c1 & o1 & -> & N1). destruct (IH (hold ask e) c1 Fr) as (a & c2 & o2 & -> & N2).
  do 3 eexists. split; [reflexivity|]. congruence.
Qed.
Lemma lift_step w l s' ev : step (y_conn (w_sys w)) l = Some (s', ev) -> Forall no_callback ev ->
  exists w' o, wstep w (WSys (YConn l)) = Some (Ok (w', ev, o)) /\ y_conn (w_sys w') = s' /\
    c_nodes (y_ctl (w_sys w')) = c_nodes (y_ctl (w_sys w)) /\
    forall id j, zlookup id (w_jobs w) = Some j -> zlookup id (w_jobs w') = Some (fold_left (hear id) ev j).
Proof.
  intros S F. destruct (follow_ok ev (y_ask (w_sys w)) (y_ctl (w_sys w)) F) as (a & c & o & FO & N).
  cbn [wstep plain ystep]. rewrite S, FO. do 2 eexists. split; [reflexivity|]. cbn [w_sys y_conn y_ctl w_jobs].
  split; [reflexivity|]. split; [exact N|]. intros id j J.
  rewrite started_quiet by exact (follow_quiet _ _ _ _ _ _ FO). unfold hears.
  rewrite (zlookup_map (fun i0 j0 => fold_left (hear i0) ev j0)), J. reflexivity.
Qed.
Definition goes (b : byte) (fs : list (list byte)) (w w' : whole) : Prop :=
  exists ls ev o, wrun w ls = Some (Ok (w', ev, o)) /\ Forall (only fs) ev /\ Forall (moves b) ls.
Definition reached (file : bool) (ns : list node) (w : whole) : Prop := exists ls ev o, wrun (wstart file ns) ls = Some (Ok (w, ev, o)).
Definition tame (e : event) : Prop := match e with EvCallback _ _ | EvArrive _ _ => False | _ => True end.
Lemma tame_only fs ev : Forall tame ev -> Forall (only fs) ev.
Proof. apply Forall_impl. intros []; cbn; tauto. Qed.
Lemma tame_no_callback ev : Forall tame ev -> Forall no_callback ev.
Proof. apply Forall_impl. intros []; cbn; tauto. Qed.
Lemma wrun_app l1 : forall w w1 e1 o1 l2 w2 e2 o2, wrun w l1 = Some (Ok (w1, e1, o1)) -> wrun w1 l2 = Some (Ok (w2, e2, o2)) ->
  wrun w (l1 ++ l2) = Some (Ok (w2, e1 ++ e2, o1 ++ o2)).
Proof.
  induction l1 as [|l l1 IH]; intros w w1 e1 o1 l2 w2 e2 o2 A B; cbn [wrun app] in *; [injection A as -> <- <-; exact B|].
  destruct (wstep w l) as [[[[wa ea] oa]| |]|]; try discriminate.
  destruct (wrun wa l1) as [[[[wb eb] ob]| |]|] eqn:E; try discriminate. injection A as -> <- <-.
  rewrite (IH _ _ _ _ _ _ _ _ E B), !app_assoc. reflexivity.
Qed.
Lemma goes_trans {b} fs w1 w2 w3 : goes b fs w1 w2 -> goes b fs w2 w3 -> goes b fs w1 w3.
Proof.
  intros (l1 & e1 & o1 & A & FA & MA) (l2 & e2 & o2 & B & FB & MB). do 3 eexists. split; [exact (wrun_app _ _ _ _ _ _ _ _ _ A B)|].
  split; apply Forall_app; auto.
Qed.
Lemma goes_refl {b} fs w : goes b fs w w.
Proof. exists [], [], []. split; [reflexivity|]. split; constructor. Qed.
Lemma goes_own {b} fs w l w' ev o : moves b l -> wstep w l = Some (Ok (w', ev, o)) -> Forall (only fs) ev -> goes b fs w w'.
Proof.
  intros MV S F. exists [l], (ev ++ []), (o ++ []). cbn [wrun]. rewrite S. split; [reflexivity|]. rewrite app_nil_r.
  split; [exact F|constructor; [exact MV|constructor]].
Qed.
Lemma goes_one {b} fs w l w' ev o : wstep w (WSys l) = Some (Ok (w', ev, o)) -> Forall (only fs) ev -> goes b fs w w'.
Proof. exact (goes_own fs w (WSys l) w' ev o I). Qed.
Lemma lift_run {b} fs ls : forall w s' ev, run (y_conn (w_sys w)) ls = Some (s', ev) -> Forall tame ev ->
  exists w', goes b fs w w' /\ y_conn (w_sys w') = s' /\ c_nodes (y_ctl (w_sys w')) = c_nodes (y_ctl (w_sys w)) /\
    forall id j, zlookup id (w_jobs w) = Some j -> zlookup id (w_jobs w') = Some (fold_left (hear id) ev j).
Proof.
  induction ls as [|l ls IH]; intros w s' ev R F; cbn [run] in R.
  - injection R as <- <-. exists w. split; [apply goes_refl|]. auto.
  - destruct (step (y_conn (w_sys w)) l) as [[s1 e1]|] eqn:S; [|discriminate].
    destruct (run s1 ls) as [[s2 e2]|] eqn:R2; [|discriminate]. injection R as <- <-.
    apply Forall_app in F. destruct F as [F1 F2].
    destruct (lift_step _ _ _ _ S (tame_no_callback _ F1)) as (w1 & o1 & S1 & C1 & N1 & J1). rewrite <- C1 in R2.
    destruct (IH _ _ _ R2 F2) as (w2 & G2 & C2 & N2 & J2).
    exists w2. split; [exact (goes_trans _ _ _ _ (goes_one _ _ _ _ _ _ S1 (tame_only _ _ F1)) G2)|]. split; [exact C2|]. split; [congruence|].
    intros id j J. rewrite fold_left_app. apply J2, J1, J.
Qed.

(** ** The writers get to a request *)
Definition quiet_event (e : event) : Prop := match e with EvWire _ _ | EvSendTimeout _ | EvGot _ => True | _ => False end.
Lemma quiet_tame ev : Forall quiet_event ev -> Forall tame ev.
Proof. apply Forall_impl. intros []; cbn; auto. Qed.
Definition like (s s' : conn) : Prop :=
  c_crashed s' = c_crashed s /\ c_mode s' = c_mode s /\ c_open s' = c_open s /\ List.length (c_writers s') = List.length (c_writers s).
Lemma like_trans a b c : like a b -> like b c -> like a c.
Proof. intros (A1 & A2 & A3 & A4) (B1 & B2 & B3 & B4). repeat split; congruence. Qed.
Lemma make_idle s : c_crashed s = false -> c_writers s <> [] ->
  exists ls s' ev, run s ls = Some (s', ev) /\ Forall quiet_event ev /\ like s s' /\ c_sendq s' = c_sendq s /\
    nth_error (c_writers s') 0 = Some WIdle.
Proof.
  intros C W. destruct (c_writers s) as [|x ws] eqn:E; [congruence|]. destruct x as [|i|i].
  - exists [], s, []. split; [reflexivity|]. split; [constructor|]. split; [repeat split|]. split; [reflexivity|]. rewrite E. reflexivity.
  - exists [LAckTimeout 0; LFinish 0]. do 2 eexists. cbn [run]. unfold step at 1. rewrite C, E. cbn [nth_error].
    unfold step. conn_simpl. rewrite C. cbn [nth_error set_nth]. split; [reflexivity|]. split; [repeat constructor|].
    unfold like. conn_simpl. rewrite E. cbn [set_nth List.length nth_error]. repeat split; assumption.
  - exists [LFinish 0]. do 2 eexists. cbn [run]. unfold step. rewrite C, E. cbn [nth_error]. split; [reflexivity|]. split; [repeat constructor|].
    unfold like. conn_simpl. rewrite E. cbn [set_nth List.length nth_error]. repeat split; assumption.
Qed.
Lemma run_then s l1 s1 e1 l2 s2 e2 : run s l1 = Some (s1, e1) -> run s1 l2 = Some (s2, e2) -> run s (l1 ++ l2) = Some (s2, e1 ++ e2).
Proof. intros A B. rewrite run_app, A, B. reflexivity. Qed.
Lemma get_written q : forall s p rest, c_crashed s = false -> c_writers s <> [] -> c_sendq s = q ++ (p, false) :: rest ->
  exists ls s' ev, run s ls = Some (s', ev) /\ Forall quiet_event ev /\ like s s' /\
    In (EvWire (p_id p) (p_message p)) ev /\ (p_want p <> NoWait -> In (p_id p) (c_fetch s')).
Proof.
  induction q as [|[p0 again] q IH]; intros s p rest C W Q.
  - destruct (make_idle s C W) as (l1 & s1 & e1 & R1 & V1 & K1 & Q1 & I1). pose proof K1 as (KC & KM & KO & KL).
    rewrite Q in Q1. cbn [app] in Q1. rewrite C in KC.
    assert (X : exists s2, step s1 (LTake 0) = Some (s2, [EvWire (p_id p) (p_message p)]) /\ like s1 s2 /\
      (p_want p <> NoWait -> In (p_id p) (c_fetch s2))).
    { unfold step. rewrite KC, I1, Q1. eexists. split; [reflexivity|]. split.
      - unfold like. conn_simpl. repeat split. rewrite set_nth_length. reflexivity.
      - conn_simpl. destruct (p_want p); [congruence|left; reflexivity|left; reflexivity]. }
    destruct X as (s2 & S2 & K2 & F2). exists (l1 ++ [LTake 0]), s2, (e1 ++ [EvWire (p_id p) (p_message p)] ++ []).
    split; [apply (run_then _ _ _ _ _ _ _ R1); cbn [run]; rewrite S2; reflexivity|].
    split; [apply Forall_app; split; [exact V1|repeat constructor]|]. split; [exact (like_trans _ _ _ K1 K2)|].
    split; [apply in_or_app; right; left; reflexivity|exact F2].
  - destruct (make_idle s C W) as (l1 & s1 & e1 & R1 & V1 & K1 & Q1 & I1). pose proof K1 as (KC & KM & KO & KL).
    rewrite Q in Q1. cbn [app] in Q1. rewrite C in KC.
    assert (X : exists s2, step s1 (LTake 0) = Some (s2, [EvWire (p_id p0) (p_message p0)]) /\ like s1 s2 /\ c_sendq s2 = q ++ (p, false) :: rest).
    { unfold step. rewrite KC, I1, Q1. eexists. split; [reflexivity|]. split.
      - unfold like. conn_simpl. repeat split. rewrite set_nth_length. reflexivity.
      - conn_simpl. reflexivity. }
    destruct X as (s2 & S2 & K2 & Q2). pose proof K2 as (KC2 & KM2 & KO2 & KL2).
    destruct (IH s2 p rest) as (l3 & s3 & e3 & R3 & V3 & K3 & W3 & F3).
    { congruence. }
    { intros E. rewrite E in KL2. cbn in KL2. rewrite KL in KL2. destruct (c_writers s); [congruence|discriminate]. }
    { exact Q2. }
    exists (l1 ++ LTake 0 :: l3), s3, (e1 ++ [EvWire (p_id p0) (p_message p0)] ++ e3).
    split; [apply (run_then _ _ _ _ _ _ _ R1); cbn [run]; rewrite S2, R3; reflexivity|].
    split; [apply Forall_app; split; [exact V1|apply Forall_app; split; [repeat constructor|exact V3]]|].
    split; [exact (like_trans _ _ _ K1 (like_trans _ _ _ K2 K3))|].
    split; [apply in_or_app; right; right; exact W3|exact F3].
Qed.

(** ** What the goroutine notices *)
Lemma hear_quiet id i ev : forall j, Forall quiet_event ev -> j_req j = Some i ->
  j_pc (fold_left (hear id) ev j) = j_pc j /\ j_ans (fold_left (hear id) ev j) = j_ans j /\
  j_chan (fold_left (hear id) ev j) = j_chan j /\ j_fresh (fold_left (hear id) ev j) = j_fresh j /\
  (j_busy j = false \/ (exists x, In (EvWire i x) ev) -> j_busy (fold_left (hear id) ev j) = false) /\
  (j_holds j = true \/ In (EvGot i) ev -> j_holds (fold_left (hear id) ev j) = true).
Proof.
  induction ev as [|e ev IH]; intros j F Q.
  { cbn [fold_left]. repeat split; intros [X|X]; try exact X; [destruct X as [x []]|destruct X]. }
  inversion F as [|? ? Fe Fr]; subst. cbn [fold_left].
  assert (Q1 : j_req (hear id j e) = Some i) by (rewrite (proj1 (hear_pc id j e)); exact Q).
  destruct (IH _ Fr Q1) as (A & B & C & D & E & G). rewrite A, B, C, D.
  destruct e as [| |k b| |k|k| | | | | | | | | | | |]; try (destruct Fe; fail); cbn [hear] in *.
  - destruct (own_request j k) eqn:O; cbn [j_pc j_ans j_chan j_fresh j_busy j_holds] in *.
    + repeat split; intros X; [apply E; left; reflexivity|]. apply G. destruct X as [X|[X|X]]; [left; exact X|discriminate|right; exact X].
    + repeat split; intros X; [apply E|apply G].
      * destruct X as [X|[x [X|X]]]; [left; exact X| |right; exists x; exact X]. injection X as -> _.
        unfold own_request in O. rewrite Q, Nat.eqb_refl in O. discriminate.
      * destruct X as [X|[X|X]]; [left; exact X|discriminate|right; exact X].
  - repeat split; intros X; [apply E|apply G].
    + destruct X as [X|[x [X|X]]]; [left; exact X|discriminate|right; exists x; exact X].
    + destruct X as [X|[X|X]]; [left; exact X|discriminate|right; exact X].
  - destruct (own_request j k) eqn:O; cbn [j_pc j_ans j_chan j_fresh j_busy j_holds] in *.
    + repeat split; intros X; [|apply G; left; reflexivity]. apply E. destruct X as [X|[x [X|X]]]; [left; exact X|discriminate|right; exists x; exact X].
    + repeat split; intros X; [apply E|apply G].
      * destruct X as [X|[x [X|X]]]; [left; exact X|discriminate|right; exists x; exact X].
      * destruct X as [X|[X|X]]; [left; exact X| |right; exact X]. injection X as ->.
        unfold own_request in O. rewrite Q, Nat.eqb_refl in O. discriminate.
Qed.

(** ** States from which Identify of a node goes on *)
Section Walk.
  Context (file : bool) (ns : list node) (b : byte) (fs : list (list byte)).
  Record stands (w : whole) (j : job) (n : node) : Prop := mkStands {
    sd_reached : reached file ns w;
    sd_alive : c_crashed (y_conn (w_sys w)) = false;
    sd_reads : c_mode (y_conn (w_sys w)) = RReading;
    sd_job : zlookup (address b) (w_jobs w) = Some j;
    sd_node : zlookup (address b) (c_nodes (y_ctl (w_sys w))) = Some n }.
  Lemma reached_goes w w' : reached file ns w -> goes b fs w w' -> reached file ns w'.
  Proof. intros (l1 & e1 & o1 & A) (l2 & e2 & o2 & B & _ & _). do 3 eexists. exact (wrun_app _ _ _ _ _ _ _ _ _ A B). Qed.
  Lemma stands_id w j n : stands w j n -> n_id n = address b.
  Proof. intros [(ls & tr & o & R) _ _ _ N]. exact (pv_id _ _ _ _ (wi_nodes _ _ _ (winv_run _ _ _ _ _ _ R) _ _ N)). Qed.
  Lemma has_writer w : reached file ns w -> c_mode (y_conn (w_sys w)) = RReading -> c_writers (y_conn (w_sys w)) <> [].
  Proof.
    intros (ls & tr & o & R) M. destruct (wrun_conn _ _ _ _ _ _ R) as [cl CR].
    assert (G : forall cl s tr, run init cl = Some (s, tr) -> c_writers s = [] -> c_mode s = RStopped).
    { clear. apply (run_ind_from init (fun _ s _ => c_writers s = [] -> c_mode s = RStopped)); [reflexivity|].
      intros ls s tr l s' ev R IH H E. pose proof (writers_connects _ _ _ R) as WC.
      assert (R' : run init (ls ++ [l]) = Some (s', tr ++ ev)) by (rewrite run_app, R; cbn [run]; rewrite H, app_nil_r; reflexivity).
      pose proof (writers_connects _ _ _ R') as WC'. rewrite E in WC'. rewrite connects_app in WC'. cbn [List.length] in WC'.
      destruct (c_writers s) as [|x xs] eqn:W; [|cbn in WC; lia]. specialize (IH eq_refl).
      revert H. unfold step. destruct (c_crashed s); [discriminate|]. rewrite IH.
      destruct l; try discriminate; try (rewrite ?W; destruct (nth_error [] _) eqn:NE; [destruct w; discriminate|discriminate]).
      - cbn in WC'. lia.
      - destruct (c_contimers s); [discriminate|]. intros X. injection X as <- _. exact IH.
      - intros X. injection X as <- _. exact IH.
      - destruct (mem id (c_fetch s)); [|discriminate]. intros X. injection X as <- _. exact IH.
      - destruct (nth_error (c_timers s) k); [|discriminate]. unfold expire, close_pkg. intros X.
        destruct (find_pkg _ _); [destruct (mem _ _)|]; injection X as <- _; exact IH.
      - destruct (nth_error (c_resend s) k); [|discriminate]. destruct (assoc _ _); [|discriminate]. intros X. injection X as <- _. exact IH.
      - destruct (nth_error (c_callbacks s) k) as [[]|]; [|discriminate]. intros X. injection X as <- _. exact IH. }
    intros E. rewrite (G _ _ _ CR E) in M. discriminate.
  Qed.

  (** Identify runs without sending. *)
  Lemma idents_conn id n es : forall y y' ev o, yrun y (map (fun _ : Z => YCtl (CIdent id n true)) es) = Some (Ok (y', ev, o)) -> y_conn y' = y_conn y.
  Proof.
    induction es as [|e es IH]; intros y y' ev o R; cbn [map yrun] in R; [injection R as <- _ _; reflexivity|].
    destruct (ystep y (YCtl (CIdent id n true))) as [[[[y1 e1] o1]| |]|] eqn:S; try discriminate.
    destruct (yrun y1 _) as [[[[y2 e2] o2]| |]|] eqn:R2; try discriminate. injection R as <- _ _.
    rewrite (IH _ _ _ _ R2). unfold ystep in S. cbn [own_step] in S. destruct (cstep _ _) as [[[c o3]| |]|]; try discriminate.
    injection S as <- _ _. reflexivity.
  Qed.
  Lemma goes_quiet w j n l il st io : stands w j n -> (l = WGo (address b) \/ l = WTimer (address b) \/ l = WAnswer (address b)) ->
    job_label l j = Some il -> istep (mkI (j_pc j) n (j_chan j) (j_fresh j)) il = Some (st, io) -> commands_of io = [] ->
    n_id (i_node st) = n_id n ->
    exists w', goes b fs w w' /\ stands w' (mkJob (i_pc st) (i_chan st) (i_fresh st) None false false None) (i_node st).
  Proof.
    intros SD L JL IS CO NI. pose proof (stands_id _ _ _ SD) as ID. destruct SD as [RE C M J N].
    pose proof RE as (ls & tr & o & R). pose proof (winv_run _ _ _ _ _ _ R) as WI.
    pose proof (job_ident _ _ _ _ _ _ R _ _ J) as IDT. pose proof (ci_ident _ (wi_ctl _ _ _ WI) _ IDT) as IST.
    rewrite ID in NI.
    assert (X : exists y' o', yrun (w_sys w) (job_effect (address b) st io) = Some (Ok (y', [], o')) /\ y_conn y' = y_conn (w_sys w) /\
      zlookup (address b) (c_nodes (y_ctl y')) = Some (i_node st)).
    { unfold job_effect. rewrite CO. destruct (events_of io) as [|e es].
      - assert (X : exists y' o', yrun (w_sys w) [YCtl (CIdent (address b) (i_node st) false)] = Some (Ok (y', [], o')) /\ y_conn y' = y_conn (w_sys w)).
        { cbn [yrun ystep own_step cstep]. assert (X : existsb (Z.eqb (address b)) (c_ident (y_ctl (w_sys w))) = true)
            by (apply existsb_exists; exists (address b); split; [exact IDT|apply Z.eqb_refl]).
          rewrite X, NI, Z.eqb_refl. cbn [andb node_events]. do 2 eexists. split; reflexivity. }
        destruct X as (y' & o' & X & Y). exists y', o'. split; [exact X|]. split; [exact Y|].
        rewrite (proj2 (ident_nodes _ _ _ _ _ _ X)), Z.eqb_refl. reflexivity.
      - destruct (idents_run (address b) (i_node st) (e :: es) _ IDT IST NI) as (y' & o' & X). exists y', o'. split; [exact X|].
        split; [exact (idents_conn _ _ _ _ _ _ _ X)|]. rewrite (proj2 (idents_nodes (address b) (i_node st) (e :: es) _ _ _ _ X)), Z.eqb_refl. reflexivity. }
    destruct X as (y' & o' & X & YC & YN).
    assert (S : wstep w l = Some (Ok (mkW y' (zset (address b) (mkJob (i_pc st) (i_chan st) (i_fresh st) None false false None) (w_jobs w)), [], o'))).
    { assert (JA : job_after w j st io = mkJob (i_pc st) (i_chan st) (i_fresh st) None false false None) by (unfold job_after; rewrite CO; reflexivity).
      destruct L as [->|[->| ->]]; cbn [wstep]; rewrite J, N, JL, IS, X, JA; reflexivity. }
    assert (MV : moves b l) by (destruct L as [->|[->| ->]]; reflexivity).
    eexists. split; [exact (goes_own _ _ _ _ _ _ MV S (Forall_nil _))|]. split; cbn [w_sys w_jobs].
    - exact (reached_goes _ _ RE (goes_own _ _ _ _ _ _ MV S (Forall_nil _))).
    - rewrite YC. exact C.
    - rewrite YC. exact M.
    - rewrite zlookup_set, Z.eqb_refl. reflexivity.
    - exact YN.
  Qed.

  (** Identify sends a request, and it gets to the port. *)
  Lemma goes_sends w j n st io m r : stands w j n -> j_busy j = false ->
    istep (mkI (j_pc j) n (j_chan j) (j_fresh j)) IGo = Some (st, io) -> commands_of io = m :: r ->
    exists w' j', goes b fs w w' /\ stands w' j' n /\ j_pc j' = i_pc st /\ j_busy j' = false /\ j_ans j' = None /\
      (fst (fst (request_kind (i_pc st))) <> NoWait -> j_holds j' = true).
  Proof.
    intros SD BU IS CO. destruct SD as [RE C M J N]. set (i := c_next (y_conn (w_sys w))).
    destruct (request_kind (i_pc st)) as [[wt t] er] eqn:RK. cbn [fst].
    assert (X : exists w1 ev o, wstep w (WGo (address b)) = Some (Ok (w1, ev, o)) /\ Forall tame ev /\
      y_conn (w_sys w1) = set_c_open (match wt with NoWait => c_open (y_conn (w_sys w)) | _ => i :: c_open (y_conn (w_sys w)) end)
        (set_c_sendq (c_sendq (y_conn (w_sys w)) ++ [(new_send_package i m wt t er, false)]) (set_c_next (S i) (y_conn (w_sys w)))) /\
      y_ctl (w_sys w1) = y_ctl (w_sys w) /\
      zlookup (address b) (w_jobs w1) = Some (mkJob (i_pc st) (i_chan st) (i_fresh st) (Some i) true false None)).
    { cbn [wstep]. rewrite J, N. cbn [job_label]. rewrite BU, IS. unfold job_effect, job_after. rewrite CO, RK. cbn [yrun ystep].
      unfold step. rewrite C. cbn [follow react hold]. do 3 eexists. split; [reflexivity|]. split; [repeat constructor|]. cbn [w_sys y_conn y_ctl w_jobs].
      split; [reflexivity|]. split; [destruct (y_ask (w_sys w)) as [[]|]; reflexivity|].
      rewrite zlookup_set, Z.eqb_refl. reflexivity. }
    destruct X as (w1 & ev & o & S1 & TM & Y1 & T1 & J1).
    assert (G1 : goes b fs w w1) by exact (goes_own _ _ (WGo (address b)) _ _ _ eq_refl S1 (tame_only _ _ TM)). assert (RE1 : reached file ns w1) by exact (reached_goes _ _ RE G1).
    assert (C1 : c_crashed (y_conn (w_sys w1)) = false) by (rewrite Y1; exact C).
    assert (M1 : c_mode (y_conn (w_sys w1)) = RReading) by (rewrite Y1; exact M).
    destruct (get_written (c_sendq (y_conn (w_sys w))) (y_conn (w_sys w1)) (new_send_package i m wt t er) [] C1 (has_writer _ RE1 M1))
      as (l2 & s2 & e2 & R2 & V2 & (KC & KM & KO & KL) & W2 & F2).
    { rewrite Y1. reflexivity. }
    change (p_id (new_send_package i m wt t er)) with i in W2, F2. change (p_want (new_send_package i m wt t er)) with wt in F2.
    assert (X : exists l3 s3 e3, run s2 l3 = Some (s3, e3) /\ Forall quiet_event e3 /\ c_crashed s3 = false /\ c_mode s3 = RReading /\ (wt <> NoWait -> In (EvGot i) e3)).
    { assert (D : wt = NoWait \/ wt <> NoWait) by (destruct wt; [left; reflexivity|right; discriminate|right; discriminate]).
      destruct D as [D|NW].
      - exists [], s2, []. split; [reflexivity|]. split; [constructor|]. split; [congruence|]. split; [congruence|]. contradiction.
      - specialize (F2 NW). apply mem_In in F2. exists [LFetch i]. do 2 eexists. cbn [run]. unfold step. rewrite KC, C1, F2.
        assert (O : mem i (c_open s2) = true).
        { rewrite KO, Y1. conn_simpl. destruct wt; [congruence| |]; unfold mem; cbn [existsb]; rewrite Nat.eqb_refl; reflexivity. }
        rewrite O. split; [reflexivity|]. split; [repeat constructor|]. conn_simpl. split; [congruence|]. split; [congruence|]. intros _. left. reflexivity. }
    destruct X as (l3 & s3 & e3 & R3 & V3 & C3 & M3 & G3).
    destruct (lift_run (b:=b) fs _ _ _ _ (run_then _ _ _ _ _ _ _ R2 R3)) as (w2 & G2 & Y2 & N2 & J2).
    { apply quiet_tame, Forall_app. auto. }
    specialize (J2 _ _ J1).
    destruct (hear_quiet (address b) i (e2 ++ e3) (mkJob (i_pc st) (i_chan st) (i_fresh st) (Some i) true false None)) as (A1 & A2 & _ & _ & A3 & A4).
    { apply Forall_app. auto. }
    { reflexivity. }
    exists w2. eexists. split; [exact (goes_trans _ _ _ _ G1 G2)|]. split.
    { split; [exact (reached_goes _ _ RE1 G2)|congruence|congruence|exact J2|]. rewrite N2, T1. exact N. }
    split; [exact A1|]. split; [apply A3; right; eexists; apply in_or_app; left; exact W2|]. split; [exact A2|].
    intros NW. apply A4. right. apply in_or_app. right. exact (G3 NW).
  Qed.

  (** An answer arrives. *)
  Lemma iter_takes s f msg accepts : c_mode s = RParsing -> c_crashed s = false -> self_contained f -> (9 <= List.length f)%nat ->
    els (c_buf s) = f -> message_of f = Some msg ->
    exists s' ev, step s (LIter [] accepts) = Some (s', ev) /\ c_crashed s' = false /\ c_mode s' = RParsing /\ els (c_buf s') = [] /\
      In (EvFrame f (Some msg)) ev /\ Forall tame ev /\
      c_callbacks s' = c_callbacks s ++ match m_data msg with Some (PCommand _ _ r) => [(ModelSerial.m_node msg, r)] | _ => [] end.
  Proof.
    intros M C SC L E MS.
    assert (X : exists s' ev, step s (LIter [] accepts) = Some (s', ev)) by (unfold step; rewrite C, M; destruct (iteration [] accepts s); eauto).
    destruct X as (s' & ev & S). pose proof (decode_content f [] (spare (c_buf s)) SC) as D. rewrite !app_nil_r in D.
    assert (B : c_buf s = mkSlice f (spare (c_buf s))) by (destruct (c_buf s); cbn in *; subst; reflexivity).
    rewrite <- B in D.
    assert (C' : c_crashed s' = false).
    { apply (decoded_frames_do_not_crash _ _ _ _ _ S); [rewrite E; lia|]. do 2 eexists. split; [exact D|]. left. cbn [d_msg]. rewrite MS. discriminate. }
    exists s', ev. split; [exact S|]. split; [exact C'|].
    revert S. unfold step. rewrite C, M. unfold iteration. rewrite E.
    destruct f as [|b0 t0] eqn:F0; [cbn in L; lia|]. rewrite <- F0 in *. rewrite D. cbv iota beta zeta. cbn [d_len d_msg els].
    destruct (Z.eqb_spec (Z.of_nat (List.length f)) 1) as [X|_]; [lia|].
    rewrite cleared_length. destruct (Z.ltb_spec (Z.of_nat (List.length f)) (Z.of_nat (List.length f))) as [X|_]; [lia|].
    destruct (Z.eqb_spec (Z.of_nat (List.length f)) (-1)) as [X|_]; [lia|].
    destruct (deliver (cleared f) (message_of f) accepts (pick [] (c_inflight s)) _) as [s2 ev2] eqn:DL.
    destruct (c_crashed s2) eqn:C2; [intros X; injection X as <- <-; congruence|].
    destruct (spawn_callback (message_of f) s2) as [s3 ev3] eqn:SP. intros X. injection X as <- <-.
    destruct (spawn_callback_fields _ _ _ _ SP) as [S3 V3].
    destruct (deliver_fields _ _ _ _ _ _ _ DL) as (D1 & _ & D2).
    conn_simpl. rewrite Nat2Z.id. rewrite firstn_all. rewrite MS in *. repeat split.
    - rewrite S3. conn_simpl. rewrite D1. reflexivity || (conn_simpl; exact M).
    - unfold drop. cbn [els]. rewrite <- (cleared_length f). apply skipn_all.
    - apply in_or_app. right. apply in_or_app. right. left. reflexivity.
    - apply Forall_app. split.
      + apply (Forall_impl tame (P := reply_event)); [intros []; cbn; auto|]. exact D2.
      + apply Forall_app. split; [destruct V3 as [->|(n & r & ->)]; repeat constructor|repeat constructor].
    - assert (CB : c_callbacks s2 = c_callbacks s) by (rewrite D1; reflexivity). revert SP. unfold spawn_callback.
      destruct (m_data msg) as [[c k r|?|?]|]; intros X; injection X as <- _; conn_simpl; rewrite CB; rewrite ?app_nil_r; reflexivity.
  Qed.

  Lemma goes_answered w j n k f msg a : stands w j n -> j_holds j = true -> j_ans j = None -> awaits (j_pc j) = Some k ->
    In f fs -> self_contained f -> (10 <= List.length f)%nat -> message_of f = Some msg ->
    (forall data wt t er, request_stage data = Some k -> request_node data = Some b -> request_kind (j_pc j) = (wt, t, er) ->
      answered_by data er f) ->
    taken (j_pc j) (message_of f) = Some a ->
    exists w' j', goes b fs w w' /\ stands w' j' n /\ j_pc j' = j_pc j /\ j_ans j' = Some a.
  Proof.
    intros [RE C M J N] H A AW IFS SC L MS AB T.
    assert (PS : pauses (j_pc j) = true) by (destruct (j_pc j) as [| | |s|s|s c|s|[| |]|x|x| | |]; try discriminate; reflexivity).
    assert (X : exists s1, step (y_conn (w_sys w)) (LRead true f 0) = Some (s1, [EvArrive true f]) /\ c_mode s1 = RParsing /\ c_crashed s1 = false /\ els (c_buf s1) = f).
    { unfold step. rewrite C, M. eexists. split; [reflexivity|]. conn_simpl. split; [reflexivity|]. split; [exact C|].
      unfold append_chunk. cbn [spare els List.length]. destruct (Nat.leb_spec (List.length f) 0); [lia|]. reflexivity. }
    destruct X as (s1 & S1 & M1 & C1 & E1).
    destruct (lift_step _ _ _ _ S1) as (w1 & o1 & W1 & Y1 & N1 & J1); [repeat constructor|]. specialize (J1 _ _ J).
    change (fold_left (hear (address b)) [EvArrive true f] j) with j in J1. rewrite <- Y1 in M1, C1, E1.
    assert (G1 : goes b fs w w1) by (apply (goes_one _ _ _ _ _ _ W1); constructor; [exact IFS|constructor]). pose proof (reached_goes _ _ RE G1) as RE1.
    pose proof RE1 as (ls & tr & o & R1). destruct (wrun_conn _ _ _ _ _ _ R1) as [cl CR].
    set (accepts := seq 0 (c_next (y_conn (w_sys w1)))).
    destruct (iter_takes _ f msg accepts M1 C1 SC ltac:(lia) E1 MS) as (s2 & e2 & S2 & C2 & M2 & E2 & I2 & V2 & _).
    destruct (lift_step _ _ _ _ S2 (tame_no_callback _ V2)) as (w2 & o2 & W2 & Y2 & N2 & J2). rewrite <- Y2 in C2, M2, E2.
    assert (AL : all_listen tr accepts).
    { intros i G. apply in_seq. split; [lia|]. exact (got_called _ _ _ _ CR G). }
    destruct (arrives _ _ _ _ _ _ _ _ _ _ _ _ _ _ _ _ _ R1 J1 H A AW W2 C2 I2 SC AL L AB T) as (j2 & JJ & P2 & A2).
    pose proof (goes_one (b:=b) fs _ _ _ _ _ W2 (tame_only _ _ V2)) as G2. pose proof (reached_goes _ _ RE1 G2) as RE2.
    pose proof (step_iter_wait _ M2 C2 (or_introl E2)) as S3.
    destruct (lift_step _ _ _ _ S3) as (w3 & o3 & W3 & Y3 & N3 & J3); [constructor|]. specialize (J3 _ _ JJ). cbn [fold_left] in J3.
    pose proof (goes_one (b:=b) fs _ _ _ _ _ W3 (Forall_nil _)) as G3.
    exists w3, j2. split; [exact (goes_trans _ _ _ _ G1 (goes_trans _ _ _ _ G2 G3))|]. split; [|auto].
    split; [exact (reached_goes _ _ RE2 G3)|rewrite Y3; exact C2|rewrite Y3; reflexivity|exact J3|]. rewrite N3, N2, N1. exact N.
  Qed.

  (** No answer arrives in time. *)
  Lemma goes_late w j n : stands w j n -> j_holds j = true -> j_ans j = None ->
    exists w' j', goes b fs w w' /\ stands w' j' n /\ j_pc j' = j_pc j /\ j_ans j' = Some (if is_info (j_pc j') then AMessage None else AReport None).
  Proof.
    intros [RE C M J N] H A. pose proof RE as (ls & tr & o & R).
    destruct (wait_ends _ _ _ _ _ _ _ _ R C J H A) as (k & w1 & ev & o1 & j1 & S & J1 & P1 & A1).
    assert (X : exists s1, step (y_conn (w_sys w)) (LTimer k) = Some (s1, ev) /\ c_mode s1 = RReading /\ c_crashed s1 = false /\ Forall tame ev).
    { cbn [wstep plain ystep] in S. destruct (step _ (LTimer k)) as [[s1 e1]|] eqn:ST; [|discriminate].
      destruct (follow _ _ e1) as [[[[a1 c1] oo]| |]|]; try discriminate. injection S as _ <- _. exists s1. split; [reflexivity|].
      revert ST. unfold step. rewrite C. destruct (nth_error _ k) as [i|]; [|discriminate]. unfold expire, close_pkg. intros X.
      destruct (find_pkg _ _); [destruct (mem _ _)|]; injection X as <- <-; conn_simpl; (split; [exact M|]); (split; [exact C|]); repeat constructor. }
    destruct X as (s1 & ST & M1 & C1 & V). destruct (lift_step _ _ _ _ ST (tame_no_callback _ V)) as (w2 & o2 & S2 & Y2 & N2 & J2).
    rewrite S in S2. injection S2 as <- <-. rewrite (J2 _ _ J) in J1. injection J1 as <-.
    assert (PC : j_pc (fold_left (hear (address b)) ev j) = j_pc j).
    { destruct (hear_all_pc ev (address b) j) as [E|(s & c & _ & E)]; [exact E|]. rewrite E in P1. discriminate. }
    pose proof (goes_one (b:=b) fs _ _ _ _ _ S (tame_only _ _ V)) as G. exists w1. eexists. split; [exact G|]. split.
    { split; [exact (reached_goes _ _ RE G)|rewrite Y2; exact C1|rewrite Y2; exact M1|exact (J2 _ _ J)|]. rewrite N2. exact N. }
    split; [exact PC|exact A1].
  Qed.

  (** ** The rest of the way *)
  Definition same_known (n n' : node) : Prop :=
    n_info n' = n_info n /\ n_ms n' = n_ms n /\ n_endpoints n' = n_endpoints n /\ n_awake n' = n_awake n.
  Definition finished (w : whole) (n : node) : Prop :=
    exists w' j' n', goes b fs w w' /\ stands w' j' n' /\ j_pc j' = IDone /\ n_identified n' = true /\ same_known n n'.
  Lemma finished_from w n w' n' : goes b fs w w' -> same_known n n' -> finished w' n' -> finished w n.
  Proof.
    intros G (A1 & A2 & A3 & A4) (w2 & j2 & n2 & G2 & SD & P & I & (B1 & B2 & B3 & B4)). exists w2, j2, n2.
    split; [exact (goes_trans _ _ _ _ G G2)|]. repeat (split; [assumption|]). repeat split; congruence.
  Qed.
  Lemma known_same n : same_known n n. Proof. repeat split. Qed.
  Lemma from_final w j n : stands w j n -> j_busy j = false -> j_pc j = IFinal -> finished w n.
  Proof.
    intros SD BU PC.
    destruct (goes_quiet _ _ _ (WGo (address b)) IGo (mkI IDone (set_identified n) (j_chan j) (j_fresh j)) [] SD) as (w' & G & SD').
    - left; reflexivity.
    - cbn [job_label]. rewrite BU. reflexivity.
    - rewrite PC. reflexivity.
    - reflexivity.
    - reflexivity.
    - exists w'. do 2 eexists. split; [exact G|]. split; [exact SD'|]. split; [reflexivity|]. split; [reflexivity|]. repeat split.
  Qed.
  (** A pass over a node of which everything is known. *)
  Lemma from_top w j n pi : stands w j n -> j_busy j = false -> j_pc j = ITop -> n_info n = Some pi -> n_ms n <> None ->
    n_endpoints n <> None -> n_states_ok n = true -> finished w n.
  Proof.
    intros SD BU PC IN MS EP ST.
    set (cc := get_mandatory definitions (pi_generic pi) (pi_specific pi)).
    destruct (goes_quiet _ _ _ (WGo (address b)) IGo (mkI IFinal (set_classes n cc) (j_chan j) (j_fresh j)) [OEvent (n_id n)] SD) as (w' & G & SD').
    - left; reflexivity.
    - cbn [job_label]. rewrite BU. reflexivity.
    - rewrite PC. cbn [istep i_pc i_node]. rewrite IN. unfold after_info, after_ms. cbv zeta. cbn [set_classes n_ms n_endpoints n_states_ok n_id].
      destruct (n_ms n) eqn:E1; [|congruence]. destruct (n_endpoints n) eqn:E2; [|congruence]. rewrite ST. reflexivity.
    - reflexivity.
    - reflexivity.
    - apply (finished_from _ _ _ _ G (known_same n)). apply (from_final _ _ _ SD'); reflexivity.
  Qed.
  (** The states are asked for; no sensor needs to answer. *)
  Lemma from_states l pi : forall w j n, stands w j n -> j_busy j = false -> j_pc j = IStates l -> n_info n = Some pi -> n_ms n <> None ->
    n_endpoints n <> None -> finished w n.
  Proof.
    induction l as [|c l IH]; intros w j n SD BU PC IN MS EP.
    - destruct (goes_quiet _ _ _ (WGo (address b)) IGo (mkI ITop (set_states_ok n) (j_chan j) (j_fresh j)) [] SD) as (w' & G & SD').
      + left; reflexivity.
      + cbn [job_label]. rewrite BU. reflexivity.
      + rewrite PC. reflexivity.
      + reflexivity.
      + reflexivity.
      + apply (finished_from _ _ _ _ G (known_same n)). apply (from_top _ _ _ pi SD'); try reflexivity; assumption.
    - destruct (state_request n c) as [m|] eqn:SR.
      + destruct (goes_sends _ _ _ (mkI (if state_waits c then IAwaitState l else IStates l) n (j_chan j) (j_fresh j)) [OWrite m] m [] SD BU)
          as (w1 & j1 & G1 & SD1 & P1 & B1 & A1 & H1).
        { rewrite PC. cbn [istep i_pc i_node]. rewrite SR. reflexivity. }
        { reflexivity. }
        apply (finished_from _ _ _ _ G1 (known_same n)). cbn [i_pc] in P1, H1.
        destruct (state_waits c).
        * specialize (H1 ltac:(discriminate)). destruct (goes_late _ _ _ SD1 H1 A1) as (w2 & j2 & G2 & SD2 & P2 & A2).
          apply (finished_from _ _ _ _ G2 (known_same n)).
          destruct (goes_quiet _ _ _ (WAnswer (address b)) (IGotReport None) (mkI (IStates l) n (j_chan j2) (j_fresh j2)) [] SD2) as (w3 & G3 & SD3).
          -- right; right; reflexivity.
          -- cbn [job_label]. rewrite A2, P2, P1. reflexivity.
          -- rewrite P2, P1. reflexivity.
          -- reflexivity.
          -- reflexivity.
          -- apply (finished_from _ _ _ _ G3 (known_same n)). apply (IH _ _ _ SD3); try reflexivity; assumption.
        * exact (IH _ _ _ SD1 B1 P1 IN MS EP).
      + destruct (goes_quiet _ _ _ (WGo (address b)) IGo (mkI (IStates l) n (j_chan j) (j_fresh j)) [] SD) as (w' & G & SD').
        * left; reflexivity.
        * cbn [job_label]. rewrite BU. reflexivity.
        * rewrite PC. cbn [istep i_pc i_node]. rewrite SR. reflexivity.
        * reflexivity.
        * reflexivity.
        * apply (finished_from _ _ _ _ G (known_same n)). apply (IH _ _ _ SD'); try reflexivity; assumption.
  Qed.
  (** A node that is awake does not wait before a request; one that sleeps
      does until it says that it woke up. *)
  Context (fw : list byte).
  Definition rouse (n : node) : Prop := n_awake n = true \/ (In fw fs /\ self_contained fw /\ report_of fw = [(b, RWakeUp)]).
  Lemma wake_message : self_contained fw -> report_of fw = [(b, RWakeUp)] ->
    (9 <= List.length fw)%nat /\ exists msg c k, message_of fw = Some msg /\ m_data msg = Some (PCommand c k RWakeUp) /\ ModelSerial.m_node msg = b.
  Proof.
    intros SC R. unfold report_of in R. destruct (content fw) as [[c k r|?|?]| |] eqn:CT; try discriminate. injection R as B ->.
    pose proof CT as CT'. unfold content in CT'. destruct (N.eqb_spec (byte_at fw 3) 4) as [E|_].
    2: { exfalso. destruct (byte_at fw 3 =? 2)%N; [destruct (new_discovered_nodes _); discriminate|].
         destruct (byte_at fw 3 =? 65)%N; [destruct (new_protocol_info _); discriminate|discriminate]. }
    split.
    - destruct (SpecMessage.announced fw) as [|c0 [|k0 data]] eqn:AN; try discriminate.
      unfold SpecMessage.announced in AN. apply (f_equal (@List.length byte)) in AN. rewrite firstn_length, skipn_length, cleared_length in AN. cbn in AN. lia.
    - unfold message_of. rewrite CT. do 3 eexists. split; [reflexivity|]. cbn [m_data ModelSerial.m_node]. split; [reflexivity|].
      unfold sender. rewrite E. exact B.
  Qed.
  Lemma hear_none id ev : forall j, Forall tame ev -> j_req j = None -> fold_left (hear id) ev j = j.
  Proof.
    induction ev as [|e ev IH]; intros j F Q; [reflexivity|]. inversion F as [|? ? Fe Fr]; subst. cbn [fold_left].
    assert (E : hear id j e = j).
    { destruct e; try (destruct Fe; fail); cbn [hear]; unfold own_request; rewrite ?Q; reflexivity. }
    rewrite E. apply IH; assumption.
  Qed.
  Lemma goes_wakes w j n s c : stands w j n -> j_req j = None -> j_pc j = IWait s (Some c) -> j_chan j = Some c -> j_busy j = false ->
    In fw fs -> self_contained fw -> report_of fw = [(b, RWakeUp)] ->
    exists w' j', goes b fs w w' /\ stands w' j' n /\ j_busy j' = false /\ j_pc j' = ISend s.
  Proof.
    intros [RE C M J N] Q PC CH BU IFS SC RO. destruct (wake_message SC RO) as (L & msg & cc & kk & MS & MD & MN).
    assert (X : exists s1, step (y_conn (w_sys w)) (LRead true fw 0) = Some (s1, [EvArrive true fw]) /\ c_mode s1 = RParsing /\ c_crashed s1 = false /\ els (c_buf s1) = fw).
    { unfold step. rewrite C, M. eexists. split; [reflexivity|]. conn_simpl. split; [reflexivity|]. split; [exact C|].
      unfold append_chunk. cbn [spare els List.length]. destruct (Nat.leb_spec (List.length fw) 0); [lia|]. reflexivity. }
    destruct X as (s1 & S1 & M1 & C1 & E1).
    destruct (lift_step _ _ _ _ S1) as (w1 & o1 & W1 & Y1 & N1 & J1); [repeat constructor|]. specialize (J1 _ _ J).
    change (fold_left (hear (address b)) [EvArrive true fw] j) with j in J1. rewrite <- Y1 in M1, C1, E1.
    assert (G1 : goes b fs w w1) by (apply (goes_one _ _ _ _ _ _ W1); constructor; [exact IFS|constructor]). pose proof (reached_goes _ _ RE G1) as RE1.
    destruct (iter_takes _ fw msg [] M1 C1 SC L E1 MS) as (s2 & e2 & S2 & C2 & M2 & E2 & _ & V2 & CB).
    rewrite MD, MN in CB.
    destruct (lift_step _ _ _ _ S2 (tame_no_callback _ V2)) as (w2 & o2 & W2 & Y2 & N2 & J2). rewrite <- Y2 in C2, M2, E2, CB.
    specialize (J2 _ _ J1). rewrite (hear_none _ _ _ V2 Q) in J2.
    pose proof (goes_one (b:=b) fs _ _ _ _ _ W2 (tame_only _ _ V2)) as G2. pose proof (reached_goes _ _ RE1 G2) as RE2.
    pose proof (step_iter_wait _ M2 C2 (or_introl E2)) as S3.
    destruct (lift_step _ _ _ _ S3) as (w3 & o3 & W3 & Y3 & N3 & J3); [constructor|]. specialize (J3 _ _ J2). cbn [fold_left] in J3.
    pose proof (goes_one (b:=b) fs _ _ _ _ _ W3 (Forall_nil _)) as G3. pose proof (reached_goes _ _ RE2 G3) as RE3.
    set (k := List.length (c_callbacks (y_conn (w_sys w1)))).
    assert (CB3 : nth_error (c_callbacks (y_conn (w_sys w3))) k = Some (b, RWakeUp)).
    { rewrite Y3. conn_simpl. rewrite CB, nth_error_app2 by (unfold k; lia). unfold k. rewrite Nat.sub_diag. reflexivity. }
    assert (NN : zlookup (address b) (c_nodes (y_ctl (w_sys w3))) = Some n) by (rewrite N3, N2, N1; exact N).
    assert (X : exists w4 ev o, wstep w3 (WSys (YConn (LCallback k))) = Some (Ok (w4, ev, o)) /\ Forall (only fs) ev /\
      c_crashed (y_conn (w_sys w4)) = false /\ c_mode (y_conn (w_sys w4)) = RReading /\
      zlookup (address b) (c_nodes (y_ctl (w_sys w4))) = Some n /\
      zlookup (address b) (w_jobs w4) = Some (mkJob (ISend s) None (j_fresh j) (j_req j) (j_busy j) (j_holds j) (j_ans j))).
    { cbn [wstep plain ystep]. unfold step. rewrite Y3. conn_simpl. rewrite C2. rewrite Y3 in CB3. conn_simpl_in CB3. rewrite CB3.
      cbn [follow react cstep]. change (Z.of_N (b2N b)) with (address b). rewrite NN. cbn [process_event bind node_events follow].
      do 3 eexists. split; [reflexivity|]. split; [repeat constructor|]. cbn [w_sys y_conn y_ctl w_jobs]. conn_simpl.
      split; [exact C2|]. split; [reflexivity|]. split.
      - cbn [with_nodes c_nodes]. rewrite zlookup_set, Z.eqb_refl. reflexivity.
      - unfold hears. cbn [app started fold_left]. rewrite (zlookup_map (fun i0 j0 => hear i0 j0 (EvCallback b RWakeUp))), J3.
        cbn [hear]. change (Z.of_N (b2N b)) with (address b). rewrite Z.eqb_refl, PC, CH. cbn [istep i_pc i_chan i_fresh]. rewrite Nat.eqb_refl. reflexivity. }
    destruct X as (w4 & ev & o & S4 & F4 & C4 & M4 & N4 & J4). pose proof (goes_one (b:=b) fs _ _ _ _ _ S4 F4) as G4.
    exists w4. eexists. split; [exact (goes_trans _ _ _ _ G1 (goes_trans _ _ _ _ G2 (goes_trans _ _ _ _ G3 G4)))|]. split.
    { split; [exact (reached_goes _ _ RE3 G4)|exact C4|exact M4|exact J4|exact N4]. }
    split; [exact BU|reflexivity].
  Qed.
  Lemma enter w j n s : stands w j n -> j_busy j = false -> j_pc j = IEnter s -> rouse n ->
    exists w' j', goes b fs w w' /\ stands w' j' n /\ j_busy j' = false /\ j_pc j' = ISend s.
  Proof.
    intros SD BU PC RO. destruct (n_awake n) eqn:AW.
    - destruct (goes_quiet _ _ _ (WGo (address b)) IGo (mkI (ISend s) n (j_chan j) (j_fresh j)) [] SD) as (w' & G & SD').
      + left; reflexivity.
      + cbn [job_label]. rewrite BU. reflexivity.
      + rewrite PC. cbn [istep i_pc i_node]. rewrite AW. reflexivity.
      + reflexivity.
      + reflexivity.
      + exists w'. eexists. split; [exact G|]. split; [exact SD'|]. split; reflexivity.
    - destruct RO as [RO|(IFS & SC & RO)]; [congruence|].
      assert (X : exists c fr, istep (mkI (j_pc j) n (j_chan j) (j_fresh j)) IGo = Some (mkI (IFetch s) n (Some c) fr, [])).
      { rewrite PC. cbn [istep i_pc i_node i_chan i_fresh]. rewrite AW. destruct (j_chan j); do 2 eexists; reflexivity. }
      destruct X as (c & fr & IS).
      destruct (goes_quiet _ _ _ (WGo (address b)) IGo _ [] SD (or_introl eq_refl) ltac:(cbn [job_label]; rewrite BU; reflexivity) IS eq_refl eq_refl) as (w1 & G1 & SD1).
      cbn [i_pc i_node i_chan i_fresh] in SD1.
      destruct (goes_quiet _ _ _ (WGo (address b)) IGo (mkI (IWait s (Some c)) n (Some c) fr) [] SD1 (or_introl eq_refl) eq_refl eq_refl eq_refl eq_refl) as (w2 & G2 & SD2).
      cbn [i_pc i_node i_chan i_fresh] in SD2.
      destruct (goes_wakes _ _ _ s c SD2 eq_refl eq_refl eq_refl eq_refl IFS SC RO) as (w3 & j3 & G3 & SD3).
      exists w3, j3. split; [exact (goes_trans _ _ _ _ G1 (goes_trans _ _ _ _ G2 G3))|exact SD3].
  Qed.
  Lemma from_send_states w j n pi : stands w j n -> j_busy j = false -> j_pc j = ISend SSt -> n_info n = Some pi ->
    n_ms n <> None -> n_endpoints n <> None -> finished w n.
  Proof.
    intros SD BU PC IN MS EP.
    destruct (goes_quiet _ _ _ (WGo (address b)) IGo (mkI (IStates (match n_classes n with Some l => l | None => [] end)) n (j_chan j) (j_fresh j)) [] SD) as (w' & G & SD').
    - left; reflexivity.
    - cbn [job_label]. rewrite BU. reflexivity.
    - rewrite PC. reflexivity.
    - reflexivity.
    - reflexivity.
    - apply (finished_from _ _ _ _ G (known_same n)). apply (from_states (match n_classes n with Some l => l | None => [] end) pi _ _ _ SD'); try reflexivity; assumption.
  Qed.
  Lemma from_enter_states w j n pi : stands w j n -> j_busy j = false -> j_pc j = IEnter SSt -> rouse n -> n_info n = Some pi ->
    n_ms n <> None -> n_endpoints n <> None -> finished w n.
  Proof.
    intros SD BU PC AW IN MS EP. destruct (enter _ _ _ _ SD BU PC AW) as (w1 & j1 & G1 & SD1 & B1 & P1).
    apply (finished_from _ _ _ _ G1 (known_same n)). exact (from_send_states _ _ _ _ SD1 B1 P1 IN MS EP).
  Qed.
  Lemma from_top_endpoints w j n pi : stands w j n -> j_busy j = false -> j_pc j = ITop -> rouse n -> n_info n = Some pi ->
    n_ms n <> None -> n_endpoints n <> None -> finished w n.
  Proof.
    intros SD BU PC AW IN MS EP. destruct (n_states_ok n) eqn:ST; [exact (from_top _ _ _ _ SD BU PC IN MS EP ST)|].
    set (cc := get_mandatory definitions (pi_generic pi) (pi_specific pi)).
    destruct (goes_quiet _ _ _ (WGo (address b)) IGo (mkI (IEnter SSt) (set_classes n cc) (j_chan j) (j_fresh j)) [] SD) as (w' & G & SD').
    - left; reflexivity.
    - cbn [job_label]. rewrite BU. reflexivity.
    - rewrite PC. cbn [istep i_pc i_node]. rewrite IN. unfold after_info, after_ms. cbv zeta. cbn [set_classes n_ms n_endpoints n_states_ok n_id].
      destruct (n_ms n) eqn:E1; [|congruence]. destruct (n_endpoints n) eqn:E2; [|congruence]. rewrite ST. reflexivity.
    - reflexivity.
    - reflexivity.
    - apply (finished_from _ _ _ _ G (known_same n)). apply (from_enter_states _ _ _ pi SD'); try reflexivity; assumption.
  Qed.

  (** ** With the answers of the node *)
  Context (fm : list byte) (ma mt mp : string) (fe : list byte) (ex ey : bool) (count : N).
  Hypothesis IFM : In fm fs.
  Hypothesis IFE : In fe fs.
  Hypothesis SCM : self_contained fm.
  Hypothesis RM : report_of fm = [(b, RManufacturer ma mt mp)].
  Hypothesis SCE : self_contained fe.
  Hypothesis RP : report_of fe = [(b, REndpoints ex ey count)].
  (** The endpoints that the answer announces; a type without known classes is
      not asked for them. *)
  Definition answered_endpoints (pi : protocol_info) (eps : list endpoint) : Prop :=
    if match get_mandatory definitions (pi_generic pi) (pi_specific pi) with Some _ => true | None => false end
    then map e_id eps = map Z.of_nat (seq 1 (N.to_nat count - 1)) else True.
  Definition completes (n n' : node) : Prop := exists pi,
    n_info n = Some pi /\ n_info n' = Some pi /\
    n_ms n' = Some (match n_ms n with Some m => m | None => mkMS ma mt mp end) /\
    (n_endpoints n' = n_endpoints n /\ n_endpoints n <> None \/ n_endpoints n = None /\ exists eps, n_endpoints n' = Some eps /\ answered_endpoints pi eps).
  Definition complete (w : whole) (n : node) : Prop :=
    exists w' j' n', goes b fs w w' /\ stands w' j' n' /\ j_pc j' = IDone /\ n_identified n' = true /\ completes n n'.
  Lemma complete_from w n w' : goes b fs w w' -> complete w' n -> complete w n.
  Proof. intros G (w2 & j2 & n2 & G2 & SD). exists w2, j2, n2. split; [exact (goes_trans _ _ _ _ G G2)|exact SD]. Qed.
  Lemma finished_complete w n pi : finished w n -> n_info n = Some pi -> n_ms n <> None -> n_endpoints n <> None -> complete w n.
  Proof.
    intros (w' & j' & n' & G & SD & P & I & (K1 & K2 & K3 & K4)) IN MS EP. exists w', j', n'. repeat (split; [assumption|]).
    exists pi. split; [exact IN|]. split; [congruence|]. split; [rewrite K2; destruct (n_ms n); congruence|]. left. auto.
  Qed.
  Lemma from_send_endpoints w j n : stands w j n -> j_busy j = false -> j_pc j = ISend SEp -> rouse n ->
    n_ms n <> None -> n_endpoints n = None -> typed n -> complete w n.
  Proof using IFE SCE RP.
    intros SD BU PC AW MS EP0 (pi & IN & CL).
    assert (FIN : forall w' j' eps, stands w' j' (set_endpoints n eps) -> j_busy j' = false -> j_pc j' = ITop -> answered_endpoints pi eps -> complete w' n).
    { intros w' j' eps SD' B' P' AE.
      assert (FN : finished w' (set_endpoints n eps)) by (apply (from_top_endpoints _ _ _ pi SD' B' P'); try assumption; discriminate).
      destruct FN as (w2 & j2 & n2 & G & SD2 & P & I & (K1 & K2 & K3 & K4)). exists w2, j2, n2. repeat (split; [assumption|]).
      exists pi. split; [exact IN|]. split; [rewrite K1; exact IN|]. split; [rewrite K2; cbn [set_endpoints n_ms]; destruct (n_ms n); congruence|].
      right. split; [exact EP0|]. exists eps. split; [rewrite K3; reflexivity|exact AE]. }
    destruct (n_classes n) as [l|] eqn:CN.
    - destruct (goes_sends _ _ _ (mkI (IAwait SEp) n (j_chan j) (j_fresh j)) [OWrite (endpoints_request n)] (endpoints_request n) [] SD BU)
        as (w2 & j2 & G2 & SD2 & P2 & B2 & A2 & H2).
      { rewrite PC. cbn [istep i_pc i_node]. rewrite CN. reflexivity. }
      { reflexivity. }
      apply (complete_from _ _ _ G2). cbn [i_pc] in P2, H2. specialize (H2 ltac:(discriminate)).
      destruct (endpoints_bytes _ _ _ _ _ SCE RP) as (L & X3 & X5 & X7 & X8 & msg & MG & c & k & MD).
      destruct (goes_answered _ _ _ 2 fe msg (AReport (Some (REndpoints ex ey count))) SD2 H2 A2) as (w3 & j3 & G3 & SD3 & P3 & A3); try assumption.
      { rewrite P2. reflexivity. }
      { intros data wt t0 er RS RN RK. destruct (asked_stage12 _ _ _ RS RN (or_intror eq_refl)) as (u & cc & g & r & -> & ->).
        rewrite P2 in RK. injection RK as _ _ <-. unfold answered_by. cbn [nth List.length Nat.ltb Nat.leb].
        split; [right; split; [reflexivity|exact X3]|right]. split; [right; exact X5|]. split; right; [exact X7|exact X8]. }
      { rewrite P2, MG. unfold taken. cbn [is_info]. rewrite MD. reflexivity. }
      apply (complete_from _ _ _ G3).
      destruct (goes_quiet _ _ _ (WAnswer (address b)) (IGotReport (Some (REndpoints ex ey count)))
        (mkI ITop (set_endpoints n (made_endpoints n count)) (j_chan j3) (j_fresh j3)) [OEvent (n_id n)] SD3) as (w4 & G4 & SD4).
      { right; right; reflexivity. }
      { cbn [job_label]. rewrite A3. reflexivity. }
      { rewrite P3, P2. reflexivity. }
      { reflexivity. }
      { reflexivity. }
      apply (complete_from _ _ _ G4). apply (FIN _ _ _ SD4); try reflexivity. unfold answered_endpoints.
      destruct (get_mandatory _ _ _); [|exact I]. unfold made_endpoints. rewrite map_map. reflexivity.
    - destruct (goes_quiet _ _ _ (WGo (address b)) IGo (mkI IPause (set_endpoints n []) (j_chan j) (j_fresh j)) [] SD) as (w4 & G4 & SD4).
      { left; reflexivity. }
      { cbn [job_label]. rewrite BU. reflexivity. }
      { rewrite PC. cbn [istep i_pc i_node]. rewrite CN. reflexivity. }
      { reflexivity. }
      { reflexivity. }
      apply (complete_from _ _ _ G4). cbn [i_pc i_node i_chan i_fresh] in SD4.
      destruct (goes_quiet _ _ _ (WTimer (address b)) ITimer (mkI ITop (set_endpoints n []) (j_chan j) (j_fresh j)) [] SD4) as (w5 & G5 & SD5).
      { right; left; reflexivity. }
      { reflexivity. }
      { reflexivity. }
      { reflexivity. }
      { reflexivity. }
      apply (complete_from _ _ _ G5). apply (FIN _ _ _ SD5); try reflexivity. unfold answered_endpoints.
      rewrite (CL eq_refl). exact I.
  Qed.
  Lemma from_after_ms w j n : stands w j n -> j_busy j = false -> j_pc j = fst (after_ms n) -> rouse n ->
    n_ms n <> None -> typed n -> complete w n.
  Proof using IFE SCE RP.
    intros SD BU PC AW MS TY. pose proof TY as (pi & IN & CL). unfold after_ms in PC. destruct (n_endpoints n) eqn:EP.
    - apply (finished_complete _ _ pi); try assumption; [|congruence]. destruct (n_states_ok n); cbn [fst] in PC.
      + exact (from_final _ _ _ SD BU PC).
      + apply (from_enter_states _ _ _ pi SD BU PC AW IN MS). congruence.
    - destruct (enter _ _ _ _ SD BU PC AW) as (w1 & j1 & G1 & SD1 & B1 & P1). apply (complete_from _ _ _ G1).
      exact (from_send_endpoints _ _ _ SD1 B1 P1 AW MS EP TY).
  Qed.
  Lemma product_known n ms : n_ms n = None -> typed n -> rouse n ->
    n_id (set_manufacturer n ms) = n_id n /\ n_ms (set_manufacturer n ms) = Some ms /\ n_info (set_manufacturer n ms) = n_info n /\
    n_endpoints (set_manufacturer n ms) = n_endpoints n /\ rouse (set_manufacturer n ms) /\ typed (set_manufacturer n ms).
  Proof using.
    intros MS (pi & IN & CL) AW. unfold set_manufacturer. cbv zeta. cbn [n_id n_ms n_info n_endpoints]. repeat (split; [reflexivity|]).
    split; [exact AW|]. exists pi. split; [exact IN|]. cbn [n_classes].
    destruct (device_new _ _ _); [|exact CL]. unfold append_classes. destruct (d_classes d); [exact CL|discriminate].
  Qed.
  Lemma from_product w j n ms : stands w j (set_manufacturer n ms) -> j_busy j = false -> j_pc j = fst (after_ms (set_manufacturer n ms)) ->
    rouse n -> n_ms n = None -> typed n -> exists w' j' n', goes b fs w w' /\ stands w' j' n' /\ j_pc j' = IDone /\ n_identified n' = true /\
      n_ms n' = Some ms /\ exists pi, n_info n = Some pi /\ n_info n' = Some pi /\
      (n_endpoints n' = n_endpoints n /\ n_endpoints n <> None \/ n_endpoints n = None /\ exists eps, n_endpoints n' = Some eps /\ answered_endpoints pi eps).
  Proof using IFE SCE RP ma mt mp.
    intros SD BU PC AW MS TY. destruct (product_known n ms MS TY AW) as (NI & NM & NF & NE & NR & NT).
    destruct (from_after_ms _ _ _ SD BU PC NR ltac:(congruence) NT) as (w' & j' & n' & G & SD' & P & I & (pi & K0 & K1 & K2 & K3)).
    rewrite NM in K2. exists w', j', n'. do 5 (split; [assumption|]). exists pi.
    rewrite NF in K0. rewrite NE in K3. auto.
  Qed.
  Lemma from_send_product w j n : stands w j n -> j_busy j = false -> j_pc j = ISend SMs -> rouse n ->
    n_ms n = None -> typed n -> complete w n.
  Proof using IFM SCM RM IFE SCE RP.
    intros SD BU PC AW MS TY.
    destruct (goes_sends _ _ _ (mkI (IAwait SMs) n (j_chan j) (j_fresh j)) [OWrite (ms_request n)] (ms_request n) [] SD BU)
      as (w2 & j2 & G2 & SD2 & P2 & B2 & A2 & H2).
    { rewrite PC. reflexivity. }
    { reflexivity. }
    apply (complete_from _ _ _ G2). cbn [i_pc] in P2, H2. specialize (H2 ltac:(discriminate)).
    destruct (product_bytes _ _ _ _ _ SCM RM) as (L & X3 & X5 & X7 & X8 & msg & MG & c & k & MD).
    destruct (goes_answered _ _ _ 1 fm msg (AReport (Some (RManufacturer ma mt mp))) SD2 H2 A2) as (w3 & j3 & G3 & SD3 & P3 & A3); try assumption.
    { rewrite P2. reflexivity. }
    { intros data wt t0 er RS RN RK. destruct (asked_stage12 _ _ _ RS RN (or_introl eq_refl)) as (u & cc & g & r & -> & ->).
      rewrite P2 in RK. injection RK as _ _ <-. unfold answered_by. cbn [nth List.length Nat.ltb Nat.leb].
      split; [right; split; [reflexivity|exact X3]|right]. split; [right; exact X5|]. split; right; [exact X7|exact X8]. }
    { rewrite P2, MG. unfold taken. cbn [is_info]. rewrite MD. reflexivity. }
    apply (complete_from _ _ _ G3). set (n1 := set_manufacturer n (mkMS ma mt mp)).
    destruct (goes_quiet _ _ _ (WAnswer (address b)) (IGotReport (Some (RManufacturer ma mt mp)))
      (mkI (fst (after_ms n1)) n1 (j_chan j3) (j_fresh j3)) (OEvent (n_id n) :: snd (after_ms n1)) SD3) as (w4 & G4 & SD4).
    { right; right; reflexivity. }
    { cbn [job_label]. rewrite A3. reflexivity. }
    { rewrite P3, P2. cbn [istep i_pc i_node]. fold n1. destruct (after_ms n1). reflexivity. }
    { cbn [commands_of flat_map app]. unfold after_ms. destruct (n_endpoints n1); [destruct (n_states_ok n1)|]; reflexivity. }
    { exact (proj1 (product_known n (mkMS ma mt mp) MS TY AW)). }
    apply (complete_from _ _ _ G4). cbn [i_pc i_node i_chan i_fresh] in SD4.
    destruct (from_product _ _ n (mkMS ma mt mp) SD4 eq_refl eq_refl AW MS TY) as (w' & j' & n' & G & SD' & P & I & K2 & pi & K0 & K1 & K3).
    exists w', j', n'. repeat (split; [assumption|]). exists pi. rewrite MS. auto.
  Qed.
  (** The type is known. *)
  Lemma after_info_split n pi : exists io, after_info n pi =
    (match n_ms n with None => IEnter SMs | Some _ => fst (after_ms (set_classes n (get_mandatory definitions (pi_generic pi) (pi_specific pi)))) end,
     set_classes n (get_mandatory definitions (pi_generic pi) (pi_specific pi)), io) /\ commands_of io = [].
  Proof using.
    unfold after_info. cbv zeta. change (n_ms (set_classes n _)) with (n_ms n). destruct (n_ms n); [|eexists; split; reflexivity].
    unfold after_ms. destruct (n_endpoints _); [destruct (n_states_ok _)|]; eexists; split; reflexivity.
  Qed.
  Lemma from_after_info w j n pi : stands w j (set_classes n (get_mandatory definitions (pi_generic pi) (pi_specific pi))) -> j_busy j = false ->
    j_pc j = match n_ms n with None => IEnter SMs | Some _ => fst (after_ms (set_classes n (get_mandatory definitions (pi_generic pi) (pi_specific pi)))) end ->
    rouse n -> n_info n = Some pi -> complete w n.
  Proof using IFM SCM RM IFE SCE RP.
    intros SD BU PC AW IN. set (n1 := set_classes n (get_mandatory definitions (pi_generic pi) (pi_specific pi))) in *.
    assert (TY : typed n1) by (exists pi; split; [exact IN|]; intros X; exact X).
    assert (CM : complete w n1).
    { destruct (n_ms n) eqn:MS.
      - apply (from_after_ms _ _ _ SD BU PC AW); [change (n_ms n1) with (n_ms n); congruence|exact TY].
      - destruct (enter _ _ _ _ SD BU PC AW) as (w1 & j1 & G1 & SD1 & B1 & P1). apply (complete_from _ _ _ G1).
        exact (from_send_product _ _ _ SD1 B1 P1 AW MS TY). }
    exact CM.
  Qed.
  Context (fi : list byte) (pi : protocol_info).
  Hypothesis IFI : In fi fs.
  Hypothesis SCI : self_contained fi.
  Hypothesis RI : info_of fi = Some pi.
  Lemma from_type w j n : stands w j n -> j_holds j = true -> j_ans j = None -> j_pc j = IInfo ->
    (pi_listening pi = true \/ (In fw fs /\ self_contained fw /\ report_of fw = [(b, RWakeUp)])) -> complete w (set_info n pi).
  Proof using IFI SCI RI IFM SCM RM IFE SCE RP.
    intros SD H A PC LI. destruct (info_bytes _ _ SCI RI) as (L & X3 & msg & MG & MD).
    destruct (goes_answered _ _ _ 0 fi msg (AMessage (message_of fi)) SD H A) as (w3 & j3 & G3 & SD3 & P3 & A3); try assumption.
    { rewrite PC. reflexivity. }
    { intros data wt t er RS RN _. rewrite (asked_stage0 _ _ RS RN). unfold answered_by. cbn [nth]. split; [left; right; exact X3|left; reflexivity]. }
    { rewrite PC. reflexivity. }
    apply (complete_from _ _ _ G3). destruct (after_info_split (set_info n pi) pi) as (io & AI & CO).
    destruct (goes_quiet _ _ _ (WAnswer (address b)) (IGotInfo (message_of fi)) (mkI (match n_ms n with None => IEnter SMs
       | Some _ => fst (after_ms (set_classes (set_info n pi) (get_mandatory definitions (pi_generic pi) (pi_specific pi)))) end)
       (set_classes (set_info n pi) (get_mandatory definitions (pi_generic pi) (pi_specific pi))) (j_chan j3) (j_fresh j3)) (OEvent (n_id n) :: io) SD3) as (w4 & G4 & SD4).
    { right; right; reflexivity. }
    { cbn [job_label]. rewrite A3. reflexivity. }
    { rewrite P3, PC, MG. cbn [istep i_pc i_node i_chan i_fresh]. rewrite MD, AI. reflexivity. }
    { exact CO. }
    { reflexivity. }
    apply (complete_from _ _ _ G4). apply (from_after_info _ _ _ pi SD4); reflexivity || exact LI.
  Qed.
End Walk.

(** ** The theorem *)
Lemma listed_mandatory g s : listed_type g s -> get_mandatory definitions g s <> None.
Proof. intros (v & I) E. exact (ProofDatabase.get_mandatory_none _ _ _ _ E I). Qed.
Lemma identification_completes : forall file ns ls w tr o b n0,
  wrun (wstart file ns) ls = Some (Ok (w, tr, o)) -> c_crashed (y_conn (w_sys w)) = false -> c_mode (y_conn (w_sys w)) = RReading ->
  at_stage w b 0 -> node_of (w_sys w) b = Some n0 ->
  forall fi pi fm ma mt mp fe x y count fw,
  self_contained fi -> info_of fi = Some pi ->
  self_contained fm -> report_of fm = [(b, RManufacturer ma mt mp)] ->
  self_contained fe -> report_of fe = [(b, REndpoints x y count)] ->
  pi_listening pi = true \/ (self_contained fw /\ report_of fw = [(b, RWakeUp)]) ->
  exists ls' w' ev o' n, wrun w ls' = Some (Ok (w', ev, o')) /\
    Forall (only (if pi_listening pi then [fi; fm; fe] else [fi; fm; fe; fw])) ev /\ Forall (moves b) ls' /\
    returned w' b /\ node_of (w_sys w') b = Some n /\ n_identified n = true /\ n_info n = Some pi /\
    n_ms n = Some (match n_ms n0 with Some m => m | None => mkMS ma mt mp end) /\
    match n_endpoints n0 with
    | Some eps => n_endpoints n = Some eps
    | None => exists eps, n_endpoints n = Some eps /\
        (listed_type (pi_generic pi) (pi_specific pi) -> map e_id eps = map Z.of_nat (seq 1 (N.to_nat count - 1)))
    end.
Proof.
  intros file ns ls w tr o b n0 R C M (j & J & H & A & ST) N fi pi fm ma mt mp fe x y count fw SI II SM RM SE RP LI.
  set (fs := if pi_listening pi then [fi; fm; fe] else [fi; fm; fe; fw]).
  assert (PC : j_pc j = IInfo) by (destruct (j_pc j) as [| | |s|s|s c|s|[| |]|l|l| | |]; try discriminate; reflexivity).
  assert (I3 : In fi fs /\ In fm fs /\ In fe fs) by (unfold fs; destruct (pi_listening pi); repeat split; cbn; auto).
  destruct I3 as (IFI & IFM & IFE).
  assert (SD : stands file ns b w j n0) by (split; [exists ls, tr, o; exact R|exact C|exact M|exact J|exact N]).
  assert (LI' : pi_listening pi = true \/ (In fw fs /\ self_contained fw /\ report_of fw = [(b, RWakeUp)])).
  { destruct (pi_listening pi) eqn:L; [left; reflexivity|]. destruct LI as [X|(X1 & X2)]; [discriminate|]. right. split; [unfold fs; cbn; auto|auto]. }
  destruct (from_type file ns b fs fw fm ma mt mp fe x y count IFM IFE SM RM SE RP fi pi IFI SI II w j n0 SD H A PC LI')
    as (w' & j' & n' & (ls' & ev & o' & G & F & MV) & SD' & P' & ID & (pi' & K0 & K1 & K2 & K3)).
  cbn [set_info n_info] in K0. injection K0 as <-.
  exists ls', w', ev, o', n'. split; [exact G|]. split; [exact F|]. split; [exact MV|]. split; [exists j'; split; [exact (sd_job _ _ _ _ _ _ SD')|exact P']|].
  split; [exact (sd_node _ _ _ _ _ _ SD')|]. split; [exact ID|]. split; [exact K1|]. split; [exact K2|].
  cbn [set_info n_endpoints] in K3. destruct (n_endpoints n0) as [eps|] eqn:EP.
  - destruct K3 as [[K3 _]|[X _]]; [exact K3|discriminate].
  - destruct K3 as [[_ X]|[_ (eps & K3 & AE)]]; [congruence|]. exists eps. split; [exact K3|]. intros LT.
    unfold answered_endpoints in AE. pose proof (listed_mandatory _ _ LT). destruct (get_mandatory _ _ _); [exact AE|congruence].
Qed.
