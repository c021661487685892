(** Proofs about the node list on its way from the line to the nodes. *)
From Verif Require Import ModelBase ModelReports ModelSerial ModelNodes ModelList.
From Verif Require Import ModelController SpecController ProofController.
From Verif Require Import ModelConnection SpecFrame SpecDecode SpecMessage SpecReports SpecConnection.
From Verif Require Import ProofConnection ProofLink ProofReader ProofContent ProofWitness ModelSystem SpecSystem ProofSystem.
From Coq Require Import Lia.

(** ** A message is delivered only to an issuer that holds the channel *)
Lemma deliver_not_fetch buf m accepts ps : forall s s' ev i m',
  deliver buf m accepts ps s = (s', ev) -> In (EvDeliver i m') ev -> ~ In i (c_fetch s).
Proof.
  induction ps as [|p r IH]; intros s s' ev i m' H Hin; cbn [deliver] in H.
  - injection H as <- <-. destruct Hin.
  - destruct (pkg_match p buf) as [[|]|e|] eqn:PM.
    + destruct (close_pkg (p_id p) s) as [s1 ev1] eqn:E1.
      pose proof (close_pkg_events _ _ _ _ E1) as V1. pose proof (close_pkg_fields _ _ _ _ E1) as F1.
      assert (R1 : ~ In (EvDeliver i m') ev1) by (destruct V1 as [->| ->]; cbn; intuition discriminate).
      set (s2 := set_c_inflight (del_pkg (p_id p) (c_inflight s1)) s1) in *.
      assert (F2 : c_fetch s2 = c_fetch s) by (unfold s2; rewrite F1; reflexivity).
      destruct (deliver buf m accepts r s2) as [s3 ev3] eqn:E3.
      assert (R3 : In (EvDeliver i m') ev3 -> ~ In i (c_fetch s)).
      { intros X. rewrite <- F2. exact (IH _ _ _ _ _ E3 X). }
      destruct (mem (p_id p) (c_open s) && mem (p_id p) accepts && negb (mem (p_id p) (c_fetch s))) eqn:T.
      * apply andb_prop in T. destruct T as [_ T]. apply negb_true_iff, mem_not_In in T.
        assert (X : ev = [EvDeliver (p_id p) m; EvCrash] \/ ev = EvDeliver (p_id p) m :: ev1 ++ ev3).
        { destruct (p_want p), m; injection H as <- <-; auto. }
        assert (Y : EvDeliver (p_id p) m = EvDeliver i m' \/ In (EvDeliver i m') ev3).
        { destruct X as [->| ->].
          - destruct Hin as [E|[E|[]]]; [auto|discriminate].
          - destruct Hin as [E|Hin]; [auto|]. apply in_app_iff in Hin. tauto. }
        destruct Y as [E|Y]; [|now apply R3]. injection E as <- <-. exact T.
      * injection H as <- <-. apply in_app_iff in Hin. tauto.
    + exact (IH _ _ _ _ _ H Hin).
    + injection H as <- <-. destruct Hin as [E|[]]. discriminate.
    + injection H as <- <-. destruct Hin as [E|[]]. discriminate.
Qed.
Lemma step_deliver_fetch s l s' ev i m : step s l = Some (s', ev) -> In (EvDeliver i m) ev -> ~ In i (c_fetch s).
Proof.
  intros H Hin. destruct (deliver_label _ _ _ _ _ _ H Hin) as (o & a & ->). apply step_inv in H. inversion H; subst.
  match goal with X : iter_case _ _ _ _ _ |- _ => destruct X end; try (exfalso; cbn in Hin; intuition discriminate).
  - match goal with X : deliver _ _ _ _ _ = _ |- _ => exact (deliver_not_fetch _ _ _ _ _ _ _ _ _ X Hin) end.
  - apply in_app_iff in Hin. destruct Hin as [Hin|Hin].
    + match goal with X : deliver _ _ _ _ _ = _ |- _ => exact (deliver_not_fetch _ _ _ _ _ _ _ _ _ X Hin) end.
    + exfalso. apply in_app_iff in Hin. match goal with X : spawn_callback _ _ = _ |- _ => apply spawn_callback_fields in X; rename X into Y end.
      destruct Y as [_ [->|[n [rr ->]]]]; cbn in Hin; intuition discriminate.
Qed.

Definition handed (s : conn) (p : pkg) : Prop :=
  In p (c_inflight s) \/ In (p, true) (c_sendq s) \/ In p (map snd (c_loopvars s)).
Lemma handed_known s p : handed s p -> known s p.
Proof.
  intros [H|[H|H]]; [left; exact H| |right; right; exact H]. right. left. apply in_map_iff. exists (p, true). auto.
Qed.
Lemma step_handed s l s' ev p : step s l = Some (s', ev) -> handed s' p ->
  handed s p \/ p_want p = NoWait \/ In (p_id p) (c_fetch s').
Proof.
  intros H K. apply step_inv in H.
  destruct H; unfold handed in K |- *; conn_simpl_in K; try (left; exact K).
  - rewrite in_app_iff in K. cbn [In] in K. destruct K as [K|[[K|[K|[]]]|K]]; auto. discriminate.
  - rewrite put_pkg_In in K. rewrite H0. cbn [In]. conn_simpl. destruct K as [[->|[K _]]|[K|K]]; auto.
    destruct again; [auto|]. right. destruct (p_want p0); auto; right; left; reflexivity.
  - apply expire_fields in H0. destruct H0 as [F [I V]]. rewrite F in K. conn_simpl_in K.
    left. destruct K as [K|K]; [left; now apply I|now right].
  - left. rewrite in_app_iff in K. cbn [In] in K. destruct K as [K|[[K|[K|[]]]|K]]; auto.
    injection K as <-. right. right. apply in_map_iff. exists (loop, p0). split; [reflexivity|]. now apply assoc_In.
  - apply iter_fields in H0. destruct H0 as [F [I V]]. rewrite F in K. conn_simpl_in K.
    left. destruct K as [K|K]; [left; now apply I|now right].
  - apply visit_fields in H3. destruct H3 as [F [I V]]. rewrite F in K. conn_simpl_in K.
    left. destruct K as [K|[K|K]]; [left; now apply I|now right; left|].
    apply in_map_iff in K. destruct K as [[j q] [E Hq]]. cbn in E. subst q.
    apply set_loopvar_In in Hq. destruct Hq as [Hq|Hq].
    + injection Hq as _ ->. now left.
    + right. right. apply in_map_iff. exists (j, p). auto.
  - apply spawn_callback_fields in H1. destruct H1 as [-> _]. conn_simpl_in K. now left.
Qed.
Lemma step_fetch s l s' ev i : step s l = Some (s', ev) -> In i (c_fetch s) ->
  In i (c_fetch s') \/ In (EvGot i) ev \/ ~ In i (c_open s').
Proof.
  intros H K. apply step_inv in H. destruct H; conn_simpl; try (left; exact K).
  - destruct (Nat.eq_dec i i0) as [->|D].
    + right. destruct (mem i0 (c_open s)) eqn:O; [left; left; reflexivity|right]. apply mem_not_In. exact O.
    + left. unfold remove_id. apply filter_In. split; [exact K|]. apply negb_true_iff, Nat.eqb_neq. auto.
  - left. destruct (p_want p); [exact K| |]; destruct again; try exact K; right; exact K.
  - apply expire_fields in H0. destruct H0 as [F _]. rewrite F. left. exact K.
  - apply iter_fields in H0. destruct H0 as [F _]. rewrite F. left. exact K.
  - apply visit_fields in H3. destruct H3 as [F _]. rewrite F. left. exact K.
  - apply spawn_callback_fields in H1. destruct H1 as [-> _]. left. exact K.
Qed.
Lemma step_open s l s' ev i : step s l = Some (s', ev) -> In i (c_open s') -> In i (c_open s) \/ i = c_next s.
Proof.
  intros H K.
  assert (D : (exists data w timeout er, l = LCall data w timeout er) \/
              forall data w timeout er, l <> LCall data w timeout er).
  { destruct l; try (right; intros; discriminate). left. eauto 6. }
  destruct D as [[data [w [timeout [er ->]]]]|NL].
  - apply step_inv in H. inversion H; subst. conn_simpl_in K. destruct w; cbn in K; intuition.
  - destruct (step_chan _ _ _ _ H NL) as [_ [I _]]. left. exact (I _ K).
Qed.
Lemma known_below ls s tr p : run init ls = Some (s, tr) -> known s p -> (p_id p < c_next s)%nat.
Proof.
  intros R K. destruct (known_issued _ _ _ R p K) as [d [w [t [er [H _]]]]].
  assert (I : In (p_id p) (called tr)) by (apply in_flat_map; eexists; split; [exact H|left; reflexivity]).
  rewrite (called_fresh _ _ _ R) in I. apply in_seq in I. lia.
Qed.
Lemma got_invariant ls s tr : run init ls = Some (s, tr) -> forall p, handed s p -> p_want p <> NoWait ->
  In (p_id p) (c_open s) -> In (p_id p) (c_fetch s) \/ In (EvGot (p_id p)) tr.
Proof.
  revert ls s tr.
  apply (run_ind_from init (fun ls s tr => forall p, handed s p -> p_want p <> NoWait ->
    In (p_id p) (c_open s) -> In (p_id p) (c_fetch s) \/ In (EvGot (p_id p)) tr)).
  - intros p [[]|[[]|[]]].
  - intros ls s tr l s' ev R IH H p K W O.
    destruct (step_handed _ _ _ _ _ H K) as [K'|[K'|K']]; [|contradiction|left; exact K'].
    destruct (step_open _ _ _ _ _ H O) as [O'|O'].
    + destruct (IH p K' W O') as [F|G]; [|right; apply in_app_iff; left; exact G].
      destruct (step_fetch _ _ _ _ _ H F) as [A|[A|A]]; [left; exact A|right; apply in_app_iff; right; exact A|contradiction].
    + exfalso. pose proof (known_below _ _ _ _ R (handed_known _ _ K')). lia.
Qed.
Lemma deliver_got ls s tr l s' ev i m d t er : run init ls = Some (s, tr) -> step s l = Some (s', ev) ->
  In (EvDeliver i m) ev -> In (EvCall i d WaitMessage t er) tr -> In (EvGot i) tr.
Proof.
  intros R H D C. destruct (step_deliver _ _ _ _ _ _ H D) as (r & d' & _ & _ & _ & O & p & I & E & _).
  pose proof (step_deliver_fetch _ _ _ _ _ _ H D) as NF. subst i.
  destruct (got_invariant _ _ _ R p (or_introl I)) as [F|G]; [|exact O|contradiction|exact G].
  destruct (known_issued _ _ _ R p (or_introl I)) as [d2 [w2 [t2 [e2 [H2 E2]]]]].
  destruct (call_unique _ _ _ _ _ _ _ _ _ _ _ _ R C H2) as [_ [<- _]]. rewrite E2. discriminate.
Qed.

(** ** The answer reaches the controller *)
Lemma follow_split e1 : forall e2 ask c a c' o, follow ask c (e1 ++ e2) = Some (Ok (a, c', o)) ->
  exists a1 c1 o1 o2, follow ask c e1 = Some (Ok (a1, c1, o1)) /\ follow a1 c1 e2 = Some (Ok (a, c', o2)) /\ o = o1 ++ o2.
Proof.
  induction e1 as [|e e1 IH]; intros e2 ask c a c' o H.
  - exists ask, c, [], o. auto.
  - cbn [app follow] in *. destruct (react ask c e) as [l|]; [|exact (IH _ _ _ _ _ _ H)].
    destruct (cstep c l) as [[[c1 o1]| |]|]; try discriminate.
    destruct (follow (hold ask e) c1 (e1 ++ e2)) as [[[[a2 c2] o2]| |]|] eqn:F; try discriminate.
    injection H as <- <- <-. destruct (IH _ _ _ _ _ _ F) as (a3 & c3 & o3 & o4 & F1 & F2 & ->).
    rewrite F1. exists a3, c3, (o1 ++ o3), o4. rewrite app_assoc. auto.
Qed.
Lemma follow_hold ev : forall j h c a c' o, follow (Some (j, h)) c ev = Some (Ok (a, c', o)) ->
  exists h', a = Some (j, h') /\ (h = true -> h' = true) /\ (In (EvGot j) ev -> h' = true).
Proof.
  induction ev as [|e ev IH]; intros j h c a c' o H.
  - injection H as <- _ _. exists h. split; [reflexivity|]. split; [auto|intros []].
  - cbn [follow] in H.
    assert (X : exists c1 o1, follow (hold (Some (j, h)) e) c1 ev = Some (Ok (a, c', o1))).
    { destruct (react (Some (j, h)) c e) as [l|]; [|eauto].
      destruct (cstep c l) as [[[c1 o1]| |]|]; try discriminate.
      destruct (follow (hold (Some (j, h)) e) c1 ev) as [[[[a2 c2] o2]| |]|] eqn:F; try discriminate.
      injection H as <- <- <-. eauto. }
    destruct X as (c1 & o1 & X).
    assert (Y : exists h1, hold (Some (j, h)) e = Some (j, h1) /\ (h = true -> h1 = true) /\ (e = EvGot j -> h1 = true)).
    { unfold hold. destruct e; try (exists h; split; [reflexivity|]; split; [auto|discriminate]).
      destruct h; [exists true; auto|]. destruct (Nat.eqb_spec id j) as [->|N]; [exists true; auto|].
      exists false. split; [reflexivity|]. split; [auto|]. intros E. injection E as ->. contradiction. }
    destruct Y as (h1 & Y & Y1 & Y2). rewrite Y in X. destruct (IH _ _ _ _ _ _ X) as (h' & A & B & C).
    exists h'. split; [exact A|]. split; [auto|]. intros [E|I]; auto.
Qed.
Lemma disc_kept st l st' o : cstep st l = Some (Ok (st', o)) -> (forall m, l <> CAnswer m) ->
  c_disc st = DcAsked -> c_disc st' = DcAsked.
Proof.
  intros E NA D.
  assert (Ev : forall st1 i evs, node_events st1 i evs = Ok (st', o) -> c_disc st1 = c_disc st -> c_disc st' = DcAsked).
  { intros st1 i evs H D1. apply node_events_ok in H. destruct H as [-> _].
    destruct (pushes_frame (map EUpdated evs) st1) as (_ & _ & _ & _ & C & _). congruence. }
  destruct l as [| |m| |b r|i|i n ann| | | | |d]; cbn [cstep] in E; rewrite ?D in E; try discriminate.
  - injection E as <- <-. exact D.
  - exfalso. exact (NA m eq_refl).
  - destruct (zlookup (Z.of_N (b2N b)) (c_nodes st)) as [n|]; [|injection E as <- <-; exact D].
    destruct (process_event n r) as [[[n' evs] op]| |]; cbn [bind] in E; try discriminate.
    injection E as E. apply Ev in E; [exact E|]. destruct op; reflexivity.
  - destruct (existsb (Z.eqb i) (c_windows st)); [|discriminate].
    destruct (zlookup i (c_nodes st)) as [n|]; [|discriminate].
    destruct (alarm_window_end n) as [[n' evs]| |]; cbn [bind] in E; try discriminate.
    injection E as E. apply Ev in E; [exact E|reflexivity].
  - destruct (existsb (Z.eqb i) (c_ident st) && (n_id n =? i)%Z); [|discriminate].
    injection E as E. apply Ev in E; [exact E|reflexivity].
  - destruct (c_queue st); [discriminate|]. injection E as <- <-. exact D.
  - destruct (c_trig st); [discriminate|]. destruct (c_deb st); try discriminate; injection E as <- <-; exact D.
  - destruct (c_deb st); try discriminate. destruct (save_delay <=? age)%N; [|discriminate].
    destruct (c_file st); injection E as <- <-; exact D.
  - destruct (c_deb st); try discriminate. injection E as <- <-. exact D.
  - destruct (c_deb st); injection E as <- <-; exact D.
Qed.
Lemma disc_started st l st' o : cstep st l = Some (Ok (st', o)) -> c_disc st <> DcIdle -> c_disc st' <> DcIdle.
Proof.
  intros E D.
  assert (Ev : forall st1 i evs, node_events st1 i evs = Ok (st', o) -> c_disc st1 = c_disc st -> c_disc st' <> DcIdle).
  { intros st1 i evs H D1. apply node_events_ok in H. destruct H as [-> _].
    destruct (pushes_frame (map EUpdated evs) st1) as (_ & _ & _ & _ & C & _). congruence. }
  destruct l as [| |m| |b r|i|i n ann| | | | |d]; cbn [cstep] in E.
  - destruct (c_disc st); try discriminate. contradiction.
  - destruct (c_disc st) eqn:X; try discriminate; injection E as <- <-; congruence.
  - destruct (c_disc st); try discriminate. destruct m as [m|]; [destruct (m_data m) as [[]|]|];
      injection E as <- <-; discriminate.
  - destruct (c_disc st) as [| |i [|a r]|i r|i r|]; try discriminate; try (injection E as <- <-; discriminate).
    destruct (negb a); [injection E as <- <-; discriminate|].
    destruct (Nat.eqb i 0); [injection E as <- <-; discriminate|].
    destruct (zlookup (Z.of_nat i + 1) (c_nodes st)); injection E as <- <-; discriminate.
  - destruct (zlookup (Z.of_N (b2N b)) (c_nodes st)) as [n|]; [|injection E as <- <-; exact D].
    destruct (process_event n r) as [[[n' evs] op]| |]; cbn [bind] in E; try discriminate.
    injection E as E. apply Ev in E; [exact E|]. destruct op; reflexivity.
  - destruct (existsb (Z.eqb i) (c_windows st)); [|discriminate].
    destruct (zlookup i (c_nodes st)) as [n|]; [|discriminate].
    destruct (alarm_window_end n) as [[n' evs]| |]; cbn [bind] in E; try discriminate.
    injection E as E. apply Ev in E; [exact E|reflexivity].
  - destruct (existsb (Z.eqb i) (c_ident st) && (n_id n =? i)%Z); [|discriminate].
    injection E as E. apply Ev in E; [exact E|reflexivity].
  - destruct (c_queue st); [discriminate|]. injection E as <- <-. exact D.
  - destruct (c_trig st); [discriminate|]. destruct (c_deb st); try discriminate; injection E as <- <-; exact D.
  - destruct (c_deb st); try discriminate. destruct (save_delay <=? age)%N; [|discriminate].
    destruct (c_file st); injection E as <- <-; exact D.
  - destruct (c_deb st); try discriminate. injection E as <- <-. exact D.
  - destruct (c_deb st); injection E as <- <-; exact D.
Qed.
Lemma disc_started_run ls : forall st st' o, crun st ls = Some (Ok (st', o)) -> c_disc st <> DcIdle -> c_disc st' <> DcIdle.
Proof.
  induction ls as [|l ls IH]; intros st st' o R D; [injection R as <- _; exact D|].
  apply crun_cons in R. destruct R as (s1 & o1 & o2 & S & R & _).
  exact (IH _ _ _ R (disc_started _ _ _ _ S D)).
Qed.
Lemma hold_same j h e : exists h1, hold (Some (j, h)) e = Some (j, h1).
Proof. unfold hold. destruct e; eauto. destruct h; eauto. destruct (id =? j)%nat; eauto. Qed.
Lemma react_silent j h c e l : react (Some (j, h)) c e = Some l -> replies j [e] = [] -> forall m, l <> CAnswer m.
Proof.
  unfold react, replies. cbn [flat_map]. destruct e as [| | | | | | |i m|i| | | | | | | |n r|]; try discriminate.
  - destruct h; [|discriminate]. destruct (c_disc c); try discriminate. destruct (i =? j)%nat; discriminate.
  - destruct h; [|discriminate]. destruct (c_disc c); try discriminate. destruct (i =? j)%nat; discriminate.
  - intros H _ m. injection H as <-. discriminate.
Qed.
Lemma follow_kept ev : forall j h c a c' o, follow (Some (j, h)) c ev = Some (Ok (a, c', o)) ->
  replies j ev = [] -> c_disc c = DcAsked -> c_disc c' = DcAsked.
Proof.
  induction ev as [|e ev IH]; intros j h c a c' o H N D.
  - injection H as _ <- _. exact D.
  - change (e :: ev) with ([e] ++ ev) in N. rewrite replies_app in N. apply app_eq_nil in N. destruct N as [N1 N2].
    cbn [follow] in H. destruct (hold_same j h e) as [h1 Hh]. rewrite Hh in H.
    destruct (react (Some (j, h)) c e) as [l|] eqn:X; [|exact (IH _ _ _ _ _ _ H N2 D)].
    destruct (cstep c l) as [[[c1 o1]| |]|] eqn:S; try discriminate.
    destruct (follow (Some (j, h1)) c1 ev) as [[[[a2 c2] o2]| |]|] eqn:F; try discriminate.
    injection H as <- <- <-. apply (IH _ _ _ _ _ _ F N2). exact (disc_kept _ _ _ _ S (react_silent _ _ _ _ _ X N1) D).
Qed.

Lemma follow_answer j c m pre post a c' o :
  follow (Some (j, true)) c (pre ++ EvDeliver j (Some m) :: post) = Some (Ok (a, c', o)) ->
  replies j pre = [] -> c_disc c = DcAsked ->
  exists cl1 c1 o1 c2 o2 cl2 o3, crun c cl1 = Some (Ok (c1, o1)) /\ cstep c1 (CAnswer (Some m)) = Some (Ok (c2, o2)) /\
    crun c2 cl2 = Some (Ok (c', o3)) /\ o = o1 ++ o2 ++ o3.
Proof.
  intros H N D. destruct (follow_split _ _ _ _ _ _ _ H) as (a1 & c1 & o1 & o2 & F1 & F2 & ->).
  destruct (follow_hold _ _ _ _ _ _ _ F1) as (h' & -> & HT & _). specialize (HT eq_refl). subst h'.
  pose proof (follow_kept _ _ _ _ _ _ _ F1 N D) as D1.
  destruct (follow_spec _ _ _ _ _ _ F1) as (cl1 & C1 & _).
  cbn [follow react] in F2. rewrite D1, Nat.eqb_refl in F2.
  destruct (cstep c1 (CAnswer (Some m))) as [[[c2 o3]| |]|] eqn:S; try discriminate.
  destruct (follow (hold (Some (j, true)) (EvDeliver j (Some m))) c2 post) as [[[[a4 c4] o4]| |]|] eqn:F; try discriminate.
  injection F2 as <- <- <-. destruct (follow_spec _ _ _ _ _ _ F) as (cl2 & C2 & _).
  exists cl1, c1, o1, c2, o3, cl2, o4. auto.
Qed.

(** ** The request of getNodes in a run *)
Lemma yrun_snoc ls l : forall y y' tr o, yrun y (ls ++ [l]) = Some (Ok (y', tr, o)) ->
  exists y1 t1 o1 t2 o2, yrun y ls = Some (Ok (y1, t1, o1)) /\ ystep y1 l = Some (Ok (y', t2, o2)) /\
    tr = t1 ++ t2 /\ o = o1 ++ o2.
Proof.
  induction ls as [|l0 ls IH]; intros y y' tr o H; cbn [app yrun] in H.
  - destruct (ystep y l) as [[[[y1 e1] o1]| |]|] eqn:S; try discriminate. injection H as <- <- <-.
    exists y, [], [], e1, o1. rewrite !app_nil_r. auto.
  - destruct (ystep y l0) as [[[[y1 e1] o1]| |]|] eqn:S; try discriminate.
    destruct (yrun y1 (ls ++ [l])) as [[[[y2 e2] o2]| |]|] eqn:R; try discriminate. injection H as <- <- <-.
    destruct (IH _ _ _ _ R) as (y3 & t3 & o3 & t4 & o4 & R3 & S3 & -> & ->).
    exists y3, (e1 ++ t3), (o1 ++ o3), t4, o4. cbn [yrun]. rewrite S, R3, !app_assoc. auto.
Qed.

Lemma follow_none ev : forall c a c' o, follow None c ev = Some (Ok (a, c', o)) -> a = None.
Proof.
  induction ev as [|e ev IH]; intros c a c' o F; [injection F as <- _ _; reflexivity|].
  cbn [follow] in F. assert (HN : hold None e = None) by (destruct e; reflexivity). rewrite HN in F.
  destruct (react None c e) as [l|]; [|exact (IH _ _ _ _ F)].
  destruct (cstep c l) as [[[c2 o2]| |]|]; try discriminate.
  destruct (follow None c2 ev) as [[[[a2 c3] o4]| |]|] eqn:F2; try discriminate.
  injection F as -> <- <-. exact (IH _ _ _ _ F2).
Qed.

Definition asking (y : sys) (tr : list event) : Prop :=
  forall j h, y_ask y = Some (j, h) ->
    In (EvCall j [x02] WaitMessage true x00) tr /\ c_disc (y_ctl y) <> DcIdle /\
    (In (EvGot j) tr -> h = true) /\ (replies j tr = [] -> c_disc (y_ctl y) = DcAsked).

Lemma got_called ls s tr i : run init ls = Some (s, tr) -> In (EvGot i) tr -> (i < c_next s)%nat.
Proof.
  intros R I.
  cut (In i (called tr)); [rewrite (called_fresh _ _ _ R); intros X; apply in_seq in X; lia|].
  revert ls s tr R I. apply (run_ind_from init (fun ls s tr => In (EvGot i) tr -> In i (called tr))); [intros []|].
  intros ls s tr l s' ev R IH H I. unfold called. rewrite flat_map_app. apply in_app_iff. apply in_app_iff in I.
  destruct I as [I|I]; [left; apply IH; exact I|]. left. fold (called tr).
  assert (F : In i (c_fetch s)).
  { apply step_inv in H.
    assert (G : forall P ev, Forall P ev -> (P (EvGot i) -> False) -> In (EvGot i) ev -> False).
    { intros P e0 V NP X. rewrite Forall_forall in V. exact (NP (V _ X)). }
    destruct H; try (exfalso; cbn in I; intuition discriminate).
    - destruct (mem i0 (c_open s)); cbn in I; destruct I as [I|[]]; [injection I as ->; assumption|discriminate].
    - exfalso. apply expire_fields in H0. destruct H0 as (_ & _ & V). exact (G _ _ V (fun x => x) I).
    - exfalso. apply iter_fields in H0. destruct H0 as (_ & _ & V). exact (G _ _ V (fun x => x) I).
    - exfalso. apply visit_fields in H3. destruct H3 as (_ & _ & V). exact (G _ _ V (fun x => x) I).
    - exfalso. apply spawn_callback_fields in H1. apply in_app_iff in I.
      destruct H1 as [_ [->|[n [rr ->]]]]; cbn in I; intuition discriminate. }
  destruct (fetch_called _ _ _ R i F) as (d & w & t & er & C & _).
  apply in_flat_map. eexists. split; [exact C|left; reflexivity].
Qed.

Lemma asking_run ls : forall file ns y tr o, yrun (ystart file ns) ls = Some (Ok (y, tr, o)) -> asking y tr.
Proof.
  induction ls as [|l ls IH] using rev_ind; intros file ns y tr o R; [injection R as <- <- <-; intros j h E; discriminate|].
  apply yrun_snoc in R. destruct R as (y1 & t1 & o1 & t2 & o2 & R1 & S & -> & ->).
  pose proof (IH _ _ _ _ _ R1) as A. destruct (yrun_spec _ _ _ _ _ R1) as [C1 _]. cbn [ystart y_conn] in C1.
  destruct l as [l| |l]; cbn [ystep] in S.
  - destruct (step (y_conn y1) l) as [[s e]|] eqn:E; [|discriminate].
    destruct (follow (y_ask y1) (y_ctl y1) e) as [[[[a c] o3]| |]|] eqn:F; try discriminate.
    injection S as <- <- <-. intros j h. cbn [y_ask y_ctl]. intros ->.
    assert (X : exists h0, y_ask y1 = Some (j, h0)).
    { destruct (y_ask y1) as [[j0 h0]|] eqn:Q.
      - destruct (follow_hold _ _ _ _ _ _ _ F) as (h' & X & _). injection X as -> ->. eauto.
      - apply follow_none in F. discriminate. }
    destruct X as [h0 Q]. destruct (A _ _ Q) as (A1 & A2 & A3 & A4). rewrite Q in F.
    destruct (follow_hold _ _ _ _ _ _ _ F) as (h' & X & H1 & H2). injection X as <-.
    split; [apply in_app_iff; left; exact A1|]. split.
    { destruct (follow_spec _ _ _ _ _ _ F) as (cls & CR & _). exact (disc_started_run _ _ _ _ CR A2). }
    split.
    { intros I. apply in_app_iff in I. destruct I as [I|I]; [apply H1, A3, I|apply H2, I]. }
    intros N. rewrite replies_app in N. apply app_eq_nil in N. destruct N as [N1 N2].
    exact (follow_kept _ _ _ _ _ _ _ F N2 (A4 N1)).
  - destruct (step (y_conn y1) (LCall [x02] WaitMessage true x00)) as [[s e]|] eqn:E; [|discriminate].
    destruct (cstep (y_ctl y1) CConnected) as [[[c o3]| |]|] eqn:F; try discriminate.
    injection S as <- <- <-. intros j h. cbn [y_ask y_ctl]. intros X. injection X as <- <-.
    unfold step in E. destruct (c_crashed (y_conn y1)); [discriminate|]. injection E as <- <-.
    cbn [cstep] in F. destruct (c_disc (y_ctl y1)) eqn:D; try discriminate. injection F as <- <-.
    split; [apply in_app_iff; right; left; reflexivity|]. split; [discriminate|]. split; [|reflexivity].
    intros I. apply in_app_iff in I. destruct I as [I|I].
    + exfalso. pose proof (got_called _ _ _ _ C1 I). lia.
    + exfalso. cbn in I. intuition discriminate.
  - destruct (own_step l) eqn:W; [|discriminate].
    destruct (cstep (y_ctl y1) l) as [[[c o3]| |]|] eqn:F; try discriminate.
    injection S as <- <- <-. rewrite app_nil_r. intros j h. cbn [y_ask y_ctl]. intros Q.
    destruct (A _ _ Q) as (A1 & A2 & A3 & A4). split; [exact A1|]. split; [exact (disc_started _ _ _ _ F A2)|].
    split; [exact A3|]. intros N. apply (disc_kept _ _ _ _ F); [|exact (A4 N)]. intros m ->. discriminate.
Qed.

Lemma message_first a b c : In (a ++ b ++ [Message] ++ c) [[]; [Message]; [Closed]; [Message; Closed]] -> a = [] /\ b = [].
Proof.
  destruct a as [|x1 [|x2 [|x3 r1]]], b as [|z1 [|z2 r2]]; cbn; intros H;
    repeat match goal with H : _ \/ _ |- _ => destruct H | H : False |- _ => destruct H end; try discriminate; auto;
    match goal with H : _ = _ |- _ => injection H; intros; try discriminate; subst; try discriminate end;
    match goal with H : [] = ?r ++ _ |- _ => destruct r; discriminate | _ => idtac end.
Qed.
(** The controller got the answer as soon as the request did. *)
Lemma answer_reaches ls : forall file ns y tr o j h m, yrun (ystart file ns) ls = Some (Ok (y, tr, o)) ->
  y_ask y = Some (j, h) -> In (EvDeliver j (Some m)) tr ->
  exists cl1 c1 o1 c2 o2 cl2 o3, crun (loaded file ns) cl1 = Some (Ok (c1, o1)) /\
    cstep c1 (CAnswer (Some m)) = Some (Ok (c2, o2)) /\ crun c2 cl2 = Some (Ok (y_ctl y, o3)) /\ o = o1 ++ o2 ++ o3.
Proof.
  induction ls as [|l ls IH] using rev_ind; intros file ns y tr o j h m R Q I; [injection R as <- <- <-; discriminate|].
  apply yrun_snoc in R. destruct R as (y1 & t1 & o1 & t2 & o2 & R1 & S & -> & ->).
  pose proof (asking_run _ _ _ _ _ _ R1) as A. destruct (yrun_spec _ _ _ _ _ R1) as [C1 (clA & KA & _)]. cbn [ystart y_conn] in C1.
  destruct (ystep_spec _ _ _ _ _ S) as [C2 (clB & KB & _)].
  assert (OLD : forall h0, y_ask y1 = Some (j, h0) -> In (EvDeliver j (Some m)) t1 ->
    exists cl1 c1 o3 c2 o4 cl2 o5, crun (loaded file ns) cl1 = Some (Ok (c1, o3)) /\
      cstep c1 (CAnswer (Some m)) = Some (Ok (c2, o4)) /\ crun c2 cl2 = Some (Ok (y_ctl y, o5)) /\ o1 ++ o2 = o3 ++ o4 ++ o5).
  { intros h0 Q0 I0. destruct (IH _ _ _ _ _ _ _ _ R1 Q0 I0) as (cl1 & c1 & o3 & c2 & o4 & cl2 & o5 & X1 & X2 & X3 & ->).
    exists cl1, c1, o3, c2, o4, (cl2 ++ clB), (o5 ++ o2). split; [exact X1|]. split; [exact X2|].
    split; [exact (crun_two _ _ _ _ _ _ _ X3 KB)|]. rewrite !app_assoc. reflexivity. }
  assert (NotYet : In (EvDeliver j (Some m)) t1 -> (j < c_next (y_conn y1))%nat).
  { intros X. destruct (replied_once _ _ _ j C1) as [Y _].
    - intros Z. apply in_split in X. destruct X as (a & b & ->). rewrite replies_app in Z. apply app_eq_nil in Z.
      destruct Z as [_ Z]. cbn in Z. rewrite Nat.eqb_refl in Z. discriminate.
    - rewrite (called_fresh _ _ _ C1) in Y. apply in_seq in Y. lia. }
  destruct l as [l| |l]; cbn [ystep] in S.
  - destruct (step (y_conn y1) l) as [[s e]|] eqn:E; [|discriminate].
    destruct (follow (y_ask y1) (y_ctl y1) e) as [[[[a c] o3]| |]|] eqn:F; try discriminate.
    injection S as <- <- <-. cbn [y_ask y_ctl y_conn] in *. subst a.
    destruct (y_ask y1) as [[j0 h0]|] eqn:Q0.
    2:{ apply follow_none in F. discriminate. }
    destruct (follow_hold _ _ _ _ _ _ _ F) as (h' & X & H1 & H2). injection X as <- <-.
    apply in_app_iff in I. destruct I as [I|I]; [exact (OLD h0 eq_refl I)|].
    destruct (A _ _ Q0) as (A1 & A2 & A3 & A4).
    assert (h0 = true) as -> by (apply A3; exact (deliver_got _ _ _ _ _ _ _ _ _ _ _ C1 E I A1)).
    apply in_split in I. destruct I as (pre & post & ->).
    assert (RS : run init (conn_labels ls ++ [l]) = Some (s, t1 ++ pre ++ EvDeliver j (Some m) :: post)).
    { rewrite run_app, C1. cbn [run]. rewrite E, app_nil_r. reflexivity. }
    destruct (one_reply _ _ _ j RS) as [OR _]. rewrite !replies_app in OR.
    change (EvDeliver j (Some m) :: post) with ([EvDeliver j (Some m)] ++ post) in OR. rewrite replies_app in OR.
    replace (replies j [EvDeliver j (Some m)]) with [Message] in OR
      by (unfold replies; cbn [flat_map]; rewrite Nat.eqb_refl; reflexivity).
    assert (N : replies j t1 = [] /\ replies j pre = []).
    { exact (message_first _ _ _ OR). }
    destruct N as [N1 N2].
    destruct (follow_answer _ _ _ _ _ _ _ _ F N2 (A4 N1)) as (cl1 & c1 & o4 & c2 & o5 & cl2 & o6 & X1 & X2 & X3 & ->).
    exists (clA ++ cl1), c1, (o1 ++ o4), c2, o5, cl2, o6. split; [exact (crun_two _ _ _ _ _ _ _ KA X1)|].
    split; [exact X2|]. split; [exact X3|]. rewrite !app_assoc. reflexivity.
  - destruct (step (y_conn y1) (LCall [x02] WaitMessage true x00)) as [[s e]|] eqn:E; [|discriminate].
    destruct (cstep (y_ctl y1) CConnected) as [[[c o3]| |]|] eqn:F; try discriminate.
    injection S as <- <- <-. cbn [y_ask y_ctl] in *. injection Q as <- <-.
    unfold step in E. destruct (c_crashed (y_conn y1)); [discriminate|]. injection E as <- <-.
    apply in_app_iff in I. destruct I as [I|I].
    + exfalso. specialize (NotYet I). lia.
    + exfalso. cbn in I. intuition discriminate.
  - destruct (own_step l) eqn:W; [|discriminate].
    destruct (cstep (y_ctl y1) l) as [[[c o3]| |]|] eqn:F; try discriminate.
    injection S as <- <- <-. cbn [y_ask y_ctl] in *. rewrite app_nil_r in I. exact (OLD h Q I).
Qed.

(** ** The nodes of an answer *)
Lemma deliver_nodes ls s tr l s' ev i m : run init ls = Some (s, tr) -> step s l = Some (s', ev) ->
  c_crashed s' = false -> In (EvDeliver i m) ev -> Forall self_contained (frames_taken ev) ->
  In (EvCall i [x02] WaitMessage true x00) tr ->
  exists f, In f (frames_taken ev) /\ m = message_of f /\ byte_at f 3 = 2%N.
Proof.
  intros R H C I SC CA. destruct (delivery_answers _ _ _ _ _ _ _ _ R H I) as (data & w & t & er & r & d & CL & DD & M & AB & _).
  destruct (call_unique _ _ _ _ _ _ _ _ _ _ _ _ R CA CL) as [<- _].
  destruct (deliver_label _ _ _ _ _ _ H I) as (o & a & ->).
  pose proof (step_reader _ _ _ _ H C) as RC. inversion RC; subst; try discriminate; try contradiction.
  - destruct I as [I|[]]. discriminate.
  - match goal with X : decode (c_buf s) = Ok (_, d0) |- _ => rewrite DD in X; injection X as <- <- end. exists f.
    rewrite !frames_taken_app in *.
    assert (If : In f (frames_taken ev2 ++ frames_taken ev3 ++ frames_taken [EvFrame f (d_msg r); EvAck]))
      by (apply in_or_app; right; apply in_or_app; right; left; reflexivity).
    split; [exact If|]. rewrite Forall_forall in SC. specialize (SC f If).
    match goal with X : els (c_buf s) = f ++ _ |- _ => rename X into BF end.
    destruct (c_buf s) as [e sp]. cbn [els] in BF. subst e. rewrite (decode_content f _ sp SC) in DD.
    injection DD as <- <-. split; [reflexivity|]. cbn [els] in AB. destruct AB as [[AB|[AB _]] _]; [|discriminate].
    destruct AB as [AB|AB]; [discriminate|]. destruct SC as (_ & L & _).
    rewrite nth_error_app1 in AB by (unfold cleared; rewrite clear_at_length; lia).
    unfold cleared in AB. rewrite clear_at_other in AB by lia. unfold byte_at.
    rewrite (nth_error_nth f 3 x00 AB). reflexivity.
Qed.
Lemma deliver_nodes_run ls : forall s tr i m, run init ls = Some (s, tr) -> c_crashed s = false ->
  In (EvDeliver i m) tr -> Forall self_contained (frames_taken tr) -> In (EvCall i [x02] WaitMessage true x00) tr ->
  exists f, In f (frames_taken tr) /\ m = message_of f /\ byte_at f 3 = 2%N.
Proof.
  induction ls as [|l ls IH] using rev_ind; intros s tr i m R C I SC CA; [injection R as _ <-; destruct I|].
  rewrite run_app in R. destruct (run init ls) as [[s1 t1]|] eqn:R1; [|discriminate].
  cbn [run] in R. destruct (step s1 l) as [[s2 e]|] eqn:S; [|discriminate]. injection R as <- <-.
  rewrite app_nil_r in *. rewrite frames_taken_app in *. apply Forall_app in SC. destruct SC as [SC1 SC2].
  assert (LT : In (EvDeliver i m) t1 \/ In (EvDeliver i m) e -> In (EvCall i [x02] WaitMessage true x00) t1).
  { intros X. apply in_app_or in CA. destruct CA as [CA|CA]; [exact CA|exfalso].
    assert (NX : i = c_next s1).
    { revert CA. pose proof S as S'. apply step_inv in S'.
      assert (G : forall (P : event -> Prop) ev x, Forall P ev -> (P x -> False) -> In x ev -> False).
      { intros P e0 x V NP Y. rewrite Forall_forall in V. exact (NP (V _ Y)). }
      destruct S'; intros CA; try (exfalso; cbn in CA; intuition discriminate).
      - cbn in CA. destruct CA as [CA|[CA|[]]]; [injection CA as <-; reflexivity|discriminate].
      - exfalso. destruct (mem i0 (c_open s1)); cbn in CA; intuition discriminate.
      - exfalso. apply expire_fields in H0. destruct H0 as (_ & _ & V). exact (G _ _ (EvCall i [x02] WaitMessage true x00) V (fun x => x) CA).
      - exfalso. apply iter_fields in H0. destruct H0 as (_ & _ & V). exact (G _ _ (EvCall i [x02] WaitMessage true x00) V (fun x => x) CA).
      - exfalso. apply visit_fields in H3. destruct H3 as (_ & _ & V). exact (G _ _ (EvCall i [x02] WaitMessage true x00) V (fun x => x) CA).
      - exfalso. apply spawn_callback_fields in H1. apply in_app_iff in CA.
        destruct H1 as [_ [->|[n [rr ->]]]]; cbn in CA; intuition discriminate. }
    destruct X as [X|X].
    - destruct (replied_once _ _ _ i R1) as [Y _].
      + intros Z. apply in_split in X. destruct X as (a & b & ->). rewrite replies_app in Z. apply app_eq_nil in Z.
        destruct Z as [_ Z]. cbn in Z. rewrite Nat.eqb_refl in Z. discriminate.
      + rewrite (called_fresh _ _ _ R1) in Y. apply in_seq in Y. lia.
    - destruct (step_deliver _ _ _ _ _ _ S X) as (r & d & _ & _ & _ & O & _).
      destruct (replies_invariant _ _ _ R1) as [B _]. specialize (B _ O). lia. }
  apply in_app_or in I. specialize (LT I). destruct I as [I|I].
  - assert (C1 : c_crashed s1 = false) by (unfold step in S; destruct (c_crashed s1); [discriminate|reflexivity]).
    destruct (IH _ _ _ _ eq_refl C1 I SC1 LT) as (f & F & X). exists f. split; [apply in_or_app; left; exact F|exact X].
  - destruct (deliver_nodes _ _ _ _ _ _ _ _ R1 S C I SC2 LT) as (f & F & X).
    exists f. split; [apply in_or_app; right; exact F|exact X].
Qed.

Lemma listed_known file ns ls y tr o j h m :
  yrun (ystart file ns) ls = Some (Ok (y, tr, o)) -> c_crashed (y_conn y) = false ->
  Forall self_contained (frames_taken tr) ->
  y_ask y = Some (j, h) -> In (EvDeliver j (Some m)) tr -> c_disc (y_ctl y) = DcDone ->
  exists f, In f (frames_taken tr) /\ message_of f = Some m /\
    forall id, (2 <= id)%Z -> lists_node f id -> knows (y_ctl y) id /\ In id (identifies o).
Proof.
  intros R C SC Q I D. destruct (yrun_spec _ _ _ _ _ R) as [RC _]. cbn [ystart y_conn] in RC.
  destruct (asking_run _ _ _ _ _ _ R _ _ Q) as (CA & _).
  destruct (deliver_nodes_run _ _ _ _ _ RC C I SC CA) as (f & F & M & B). exists f. split; [exact F|].
  split; [symmetry; exact M|].
  assert (N : exists bm, m_data m = Some (PNodes bm)).
  { symmetry in M. unfold message_of, content in M. rewrite B in M. cbn [N.eqb Pos.eqb] in M.
    destruct (new_discovered_nodes (SpecMessage.announced f)); try discriminate. injection M as <-. cbn. eauto. }
  destruct N as [bm N]. rewrite Forall_forall in SC. specialize (SC f F).
  destruct (answer_reaches _ _ _ _ _ _ _ _ _ R Q I) as (cl1 & c1 & o1 & c2 & o2 & cl2 & o3 & X1 & X2 & X3 & ->).
  destruct (discovery_result _ _ _ _ _ _ _ _ _ _ _ _ X1 N X2 X3 D) as (K & _ & ID & _).
  intros id L A. apply (nodes_message f m bm id SC (eq_sym M) N) in A. split; [apply K; right; auto|].
  unfold identifies. rewrite !flat_map_app, !in_app_iff. right. right. apply ID. auto.
Qed.

(** ** Concrete runs *)
Definition off_frame : list byte := [x01; x09; x00; x04; x00; x05; x03; x25; x03; x00; xd2].
(** Nodes 1 and 5. *)
Definition list_frame : list byte := [x01; x25; x01; x02; x05; x00; x1d; x11] ++ repeat x00 28 ++ [x03; x01; xd2].
Definition ask_labels : list ylabel := [YConn LConnect; YStart; YConn (LTake 0); YConn (LFetch 0)].
Definition ack_labels : list ylabel :=
  [YConn (LRead false [x06] 64); YConn (LIter [] []); YConn (LVisit 0 (Some 0)); YConn LControlEnd;
   YConn (LIter [] []); YConn (LFinish 0)].
Definition receive (f : list byte) : list ylabel := [YConn (LRead false f 64); YConn (LIter [] [0])].

Lemma self_contained_more : self_contained off_frame /\ self_contained list_frame /\ self_contained switch_frame.
Proof.
  assert (L : forall f, frame f -> (10 <= List.length f)%nat -> byte_at f 3 = 4%N ->
    (2 <= byte_at f 6 <= 248)%N -> (7 + byte_at f 6 <= N.of_nat (List.length f))%N -> self_contained f).
  { intros f F H1 H2 H3 H4. split; [exact F|]. rewrite H2. repeat split; try lia; try discriminate. }
  assert (L2 : forall f, frame f -> (10 <= List.length f)%nat -> byte_at f 3 = 2%N ->
    (byte_at f 6 <= 29)%N -> (7 + byte_at f 6 <= N.of_nat (List.length f))%N -> self_contained f).
  { intros f F H1 H2 H3 H4. split; [exact F|]. rewrite H2. repeat split; try lia; try discriminate. }
  split; [apply L|split; [apply L2|apply L]]; try (eapply frame_compute; reflexivity); clear;
    vm_compute; try lia; try reflexivity; try (split; discriminate); discriminate.
Qed.

Lemma yrun_witness y0 (P : list ylabel -> sys -> list event -> list cobs -> Prop) ls :
  match yrun y0 ls with Some (Ok (y, tr, o)) => P ls y tr o | _ => False end ->
  exists ls y tr o, yrun y0 ls = Some (Ok (y, tr, o)) /\ P ls y tr o.
Proof.
  destruct (yrun y0 ls) as [[[[y tr] o]| |]|] eqn:E; try (intros []). intros H. exists ls, y, tr, o. auto.
Qed.

Lemma reports_swapped : exists ls y tr o, yrun (ystart false [new_node 5]) ls = Some (Ok (y, tr, o)) /\
  (controls_alone (conn_labels ls) /\ Forall self_contained (frames_taken tr) /\ c_callbacks (y_conn y) = [] /\
   left_alone x05 ls /\
   reports_from x05 (frames_taken tr) = [RSwitchBinary1 true true; RSwitchBinary1 false true] /\
   exists n, node_of y x05 = Some n /\ n_bool n = Some [("on"%string, true)]).
Proof.
  set (w := [YConn LConnect; YConn (LRead false (switch_frame ++ off_frame) 64); YConn (LIter [] []); YConn (LIter [] []);
    YConn (LCallback 1); YConn (LCallback 0)]).
  apply (yrun_witness _ (fun ls y tr o => controls_alone (conn_labels ls) /\ Forall self_contained (frames_taken tr) /\
   c_callbacks (y_conn y) = [] /\ left_alone x05 ls /\
   reports_from x05 (frames_taken tr) = [RSwitchBinary1 true true; RSwitchBinary1 false true] /\
   exists n, node_of y x05 = Some n /\ n_bool n = Some [("on"%string, true)]) w).
  destruct (yrun (ystart false [new_node 5]) w) as [[[[y tr] o]| |]|] eqn:E; try (vm_compute in E; discriminate).
  assert (FT : frames_taken tr = [switch_frame; off_frame]) by (vm_compute in E; injection E as <- <- <-; reflexivity).
  destruct self_contained_more as (S1 & _ & S2).
  split; [apply check_alone; vm_compute; reflexivity|]. split; [rewrite FT; repeat (apply Forall_cons; [assumption|]); apply Forall_nil|].
  split; [vm_compute in E; injection E as <- <- <-; reflexivity|].
  split; [intros l I; cbn in I; intuition discriminate|]. split; [rewrite FT; vm_compute; reflexivity|].
  vm_compute in E; injection E as <- <- <-. eexists. split; vm_compute; reflexivity.
Qed.

Lemma one_report_run : exists ls y tr o, yrun (ystart false [new_node 5]) ls = Some (Ok (y, tr, o)) /\
  (controls_alone (conn_labels ls) /\ Forall self_contained (frames_taken tr) /\ c_callbacks (y_conn y) = [] /\
   left_alone x05 ls /\ reports_from x05 (frames_taken tr) = [RSwitchBinary1 true true] /\
   updates_of x05 o = [EUpdated 5] /\
   exists n, node_of y x05 = Some n /\ n_bool n = Some [("on"%string, true)]).
Proof.
  set (w := [YConn LConnect; YConn (LRead false switch_frame 64); YConn (LIter [] []); YConn (LCallback 0)]).
  apply (yrun_witness _ (fun ls y tr o => controls_alone (conn_labels ls) /\ Forall self_contained (frames_taken tr) /\
   c_callbacks (y_conn y) = [] /\ left_alone x05 ls /\ reports_from x05 (frames_taken tr) = [RSwitchBinary1 true true] /\
   updates_of x05 o = [EUpdated 5] /\ exists n, node_of y x05 = Some n /\ n_bool n = Some [("on"%string, true)]) w).
  destruct (yrun (ystart false [new_node 5]) w) as [[[[y tr] o]| |]|] eqn:E; try (vm_compute in E; discriminate).
  assert (FT : frames_taken tr = [switch_frame]) by (vm_compute in E; injection E as <- <- <-; reflexivity).
  destruct self_contained_more as (_ & _ & S2).
  split; [apply check_alone; vm_compute; reflexivity|]. split; [rewrite FT; repeat (apply Forall_cons; [assumption|]); apply Forall_nil|].
  split; [vm_compute in E; injection E as <- <- <-; reflexivity|].
  split; [intros l I; cbn in I; intuition discriminate|]. split; [rewrite FT; vm_compute; reflexivity|].
  vm_compute in E; injection E as <- <- <-. split; [reflexivity|]. eexists. split; vm_compute; reflexivity.
Qed.

Lemma list_names : lists_node list_frame 5 /\ lists_node list_frame 1 /\ ~ lists_node list_frame 4.
Proof.
  unfold lists_node. repeat split; try (vm_compute; reflexivity); try lia.
  intros (_ & _ & H). vm_compute in H. discriminate.
Qed.

Lemma list_too_late : exists ls y tr o, yrun (ystart false []) ls = Some (Ok (y, tr, o)) /\
  (c_crashed (y_conn y) = false /\ Forall self_contained (frames_taken tr) /\ In list_frame (frames_taken tr) /\
   lists_node list_frame 5 /\ c_disc (y_ctl y) = DcDone /\ ~ knows (y_ctl y) 5).
Proof.
  set (w := ask_labels ++ [YConn (LTimer 0)] ++ receive list_frame).
  apply (yrun_witness _ (fun ls y tr o => c_crashed (y_conn y) = false /\ Forall self_contained (frames_taken tr) /\
    In list_frame (frames_taken tr) /\ lists_node list_frame 5 /\ c_disc (y_ctl y) = DcDone /\ ~ knows (y_ctl y) 5) w).
  destruct (yrun (ystart false []) w) as [[[[y tr] o]| |]|] eqn:E; try (vm_compute in E; discriminate).
  assert (FT : frames_taken tr = [list_frame]) by (vm_compute in E; injection E as <- <- <-; reflexivity).
  assert (X : c_crashed (y_conn y) = false /\ c_disc (y_ctl y) = DcDone /\ ~ knows (y_ctl y) 5)
    by (vm_compute in E; injection E as <- <- <-; split; [reflexivity|split; [reflexivity|vm_compute; intros []]]).
  destruct X as (X1 & X2 & X3). destruct self_contained_more as (_ & S & _). rewrite FT.
  split; [exact X1|]. split; [repeat (apply Forall_cons; [assumption|]); apply Forall_nil|]. split; [left; reflexivity|].
  split; [apply list_names|]. split; assumption.
Qed.

Lemma list_answers : exists ls y tr o, yrun (ystart false []) ls = Some (Ok (y, tr, o)) /\
  (c_crashed (y_conn y) = false /\ frames_taken tr = [list_frame] /\ Forall self_contained (frames_taken tr) /\
   y_ask y = Some (0, true) /\ (exists m, In (EvDeliver 0 (Some m)) tr) /\
   c_disc (y_ctl y) = DcDone /\ map fst (c_nodes (y_ctl y)) = [5%Z] /\
   o = [COPush (EDiscovered 5); COIdentify 5]).
Proof.
  set (w := ask_labels ++ ack_labels ++ receive list_frame ++ repeat (YCtl CDisc) 235).
  apply (yrun_witness _ (fun ls y tr o => c_crashed (y_conn y) = false /\ frames_taken tr = [list_frame] /\
    Forall self_contained (frames_taken tr) /\
   y_ask y = Some (0, true) /\ (exists m, In (EvDeliver 0 (Some m)) tr) /\
   c_disc (y_ctl y) = DcDone /\ map fst (c_nodes (y_ctl y)) = [5%Z] /\
   o = [COPush (EDiscovered 5); COIdentify 5]) w).
  destruct (yrun (ystart false []) w) as [[[[y tr] o]| |]|] eqn:E; try (vm_compute in E; discriminate).
  assert (FT : frames_taken tr = [list_frame]) by (vm_compute in E; injection E as <- <- <-; reflexivity).
  destruct self_contained_more as (_ & S & _).
  assert (X : c_crashed (y_conn y) = false /\ y_ask y = Some (0, true) /\ c_disc (y_ctl y) = DcDone /\
    map fst (c_nodes (y_ctl y)) = [5%Z] /\ o = [COPush (EDiscovered 5); COIdentify 5])
    by (vm_compute in E; injection E as <- <- <-; repeat split).
  destruct X as (X1 & X2 & X3 & X4 & X5). rewrite FT.
  split; [exact X1|]. split; [reflexivity|]. split; [repeat (apply Forall_cons; [assumption|]); apply Forall_nil|]. split; [exact X2|].
  split; [|auto]. vm_compute in E; injection E as <- <- <-. eexists.
  do 9 (right; try (left; reflexivity)).
Qed.
