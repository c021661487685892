(** Proofs about the controller on top of its connection. *)
From Verif Require Import ModelBase ModelReports ModelSerial ModelNodes ModelList.
From Verif Require Import ModelController SpecController ProofController.
From Verif Require Import ModelConnection SpecFrame SpecDecode SpecMessage SpecReports SpecConnection.
From Verif Require Import ProofConnection ProofLink ProofReader ProofReports ProofContent ProofWitness SpecNodes ProofNodes ModelSystem SpecSystem.
From Coq Require Import Lia Permutation.

(** ** A run of the whole is a run of each part *)
Definition reports_in (cls : list clabel) : list (byte * report) :=
  flat_map (fun l => match l with CReport n r => [(n, r)] | _ => [] end) cls.
Lemma reports_in_app a b : reports_in (a ++ b) = reports_in a ++ reports_in b.
Proof. apply flat_map_app. Qed.

Definition led (ev : list event) (cls : list clabel) : Prop :=
  reports_in cls = called_back ev /\
  (forall m, In (CAnswer (Some m)) cls -> exists i, In (EvDeliver i (Some m)) ev).

Lemma led_app e1 c1 e2 c2 : led e1 c1 -> led e2 c2 -> led (e1 ++ e2) (c1 ++ c2).
Proof.
  intros [A1 B1] [A2 B2]. split; [rewrite reports_in_app, called_back_app, A1, A2; reflexivity|].
  intros m H. apply in_app_or in H. destruct H as [H|H].
  - destruct (B1 m H) as [i X]. exists i. apply in_or_app. left. exact X.
  - destruct (B2 m H) as [i X]. exists i. apply in_or_app. right. exact X.
Qed.

Lemma react_led ask c e l : react ask c e = Some l -> led [e] [l] /\ own_step l = false.
Proof.
  unfold react. destruct e as [| | | | | | |i m|i| | | | | | | |n r|]; try discriminate.
  - destruct ask as [[j []]|]; try discriminate. destruct (c_disc c); try discriminate.
    destruct (i =? j)%nat; [|discriminate]. intros H. injection H as <-. split; [|reflexivity].
    split; [reflexivity|]. intros m' [H|[]]. injection H as ->. exists i. left. reflexivity.
  - destruct ask as [[j []]|]; try discriminate. destruct (c_disc c); try discriminate.
    destruct (i =? j)%nat; [|discriminate]. intros H. injection H as <-. split; [|reflexivity].
    split; [reflexivity|]. intros m' [H|[]]. discriminate.
  - intros H. injection H as <-. split; [|reflexivity]. split; [reflexivity|]. intros m [H|[]]. discriminate.
Qed.
Lemma react_none ask c e : react ask c e = None -> called_back [e] = [].
Proof. unfold react. destruct e; try reflexivity. discriminate. Qed.

Lemma follow_spec ev : forall ask c ask' c' o, follow ask c ev = Some (Ok (ask', c', o)) ->
  exists cls, crun c cls = Some (Ok (c', o)) /\ led ev cls /\ Forall (fun l => own_step l = false) cls.
Proof.
  induction ev as [|e ev IH]; intros ask c ask' c' o H; cbn [follow] in H.
  - injection H as <- <- <-. exists []. split; [reflexivity|]. split; [split; [reflexivity|intros m []]|constructor].
  - destruct (react ask c e) as [l|] eqn:R.
    + destruct (cstep c l) as [[[c1 o1]| |]|] eqn:S; try discriminate.
      destruct (follow (hold ask e) c1 ev) as [[[[a2 c2] o2]| |]|] eqn:F; try discriminate.
      injection H as <- <- <-. destruct (IH _ _ _ _ _ F) as (cls & C & L & O).
      apply react_led in R. destruct R as [R1 R2].
      exists (l :: cls). split; [cbn [crun]; rewrite S, C; reflexivity|]. split.
      * exact (led_app [e] [l] ev cls R1 L).
      * constructor; assumption.
    + destruct (IH _ _ _ _ _ H) as (cls & C & L & O). exists cls. split; [exact C|]. split; [|exact O].
      apply react_none in R. apply (led_app [e] [] ev cls); [|exact L].
      split; [symmetry; exact R|intros m []].
Qed.

Lemma crun_two c l1 c1 o1 l2 c2 o2 : crun c l1 = Some (Ok (c1, o1)) -> crun c1 l2 = Some (Ok (c2, o2)) ->
  crun c (l1 ++ l2) = Some (Ok (c2, o1 ++ o2)).
Proof. intros A B. apply crun_app. exists c1, o1, o2. auto. Qed.

Lemma ystep_spec y l y' ev o : ystep y l = Some (Ok (y', ev, o)) ->
  run (y_conn y) (conn_labels [l]) = Some (y_conn y', ev) /\
  exists cls, crun (y_ctl y) cls = Some (Ok (y_ctl y', o)) /\ led ev cls /\
    forall c, In c cls -> own_step c = true -> In (YCtl c) [l].
Proof.
  destruct l as [l| |l]; cbn [ystep conn_labels flat_map app].
  - destruct (step (y_conn y) l) as [[s e]|] eqn:S; [|discriminate].
    destruct (follow (y_ask y) (y_ctl y) e) as [[[[a c] o1]| |]|] eqn:F; try discriminate.
    intros H. injection H as <- <- <-. cbn [y_conn y_ctl]. split.
    + cbn [run]. rewrite S, app_nil_r. reflexivity.
    + destruct (follow_spec _ _ _ _ _ _ F) as (cls & C & L & O). exists cls. split; [exact C|]. split; [exact L|].
      intros c1 I X. rewrite Forall_forall in O. rewrite (O c1 I) in X. discriminate.
  - destruct (step (y_conn y) (LCall [x02] WaitMessage true x00)) as [[s e]|] eqn:S; [|discriminate].
    destruct (cstep (y_ctl y) CConnected) as [[[c o1]| |]|] eqn:C; try discriminate.
    intros H. injection H as <- <- <-. cbn [y_conn y_ctl]. split.
    + cbn [run]. rewrite S, app_nil_r. reflexivity.
    + exists [CConnected]. split; [cbn [crun]; rewrite C, app_nil_r; reflexivity|]. split.
      * unfold step in S. destruct (c_crashed (y_conn y)); [discriminate|]. injection S as <- <-.
        split; [reflexivity|]. intros m [H|[]]. discriminate.
      * intros c1 [<-|[]] X. discriminate.
  - destruct (own_step l) eqn:W; [|discriminate].
    destruct (cstep (y_ctl y) l) as [[[c o1]| |]|] eqn:C; try discriminate.
    intros H. injection H as <- <- <-. cbn [y_conn y_ctl run]. split; [reflexivity|].
    exists [l]. split; [cbn [crun]; rewrite C, app_nil_r; reflexivity|]. split.
    + destruct l; try discriminate W; (split; [reflexivity|intros m [H|[]]; discriminate]).
    + intros c1 [<-|[]] _. left. reflexivity.
Qed.

Lemma yrun_spec ls : forall y y' tr o, yrun y ls = Some (Ok (y', tr, o)) ->
  run (y_conn y) (conn_labels ls) = Some (y_conn y', tr) /\
  exists cls, crun (y_ctl y) cls = Some (Ok (y_ctl y', o)) /\ led tr cls /\
    forall c, In c cls -> own_step c = true -> In (YCtl c) ls.
Proof.
  induction ls as [|l ls IH]; intros y y' tr o H; cbn [yrun] in H.
  - injection H as <- <- <-. split; [reflexivity|]. exists []. split; [reflexivity|]. split.
    + split; [reflexivity|intros m []].
    + intros c [].
  - destruct (ystep y l) as [[[[y1 e1] o1]| |]|] eqn:S; try discriminate.
    destruct (yrun y1 ls) as [[[[y2 e2] o2]| |]|] eqn:R; try discriminate.
    injection H as <- <- <-. destruct (ystep_spec _ _ _ _ _ S) as [A (c1 & B & C & D)].
    destruct (IH _ _ _ _ R) as [A' (c2 & B' & C' & D')]. split.
    + change (conn_labels (l :: ls)) with (conn_labels ([l] ++ ls)). unfold conn_labels.
      rewrite flat_map_app. fold (conn_labels [l]). fold (conn_labels ls). rewrite run_app, A, A'. reflexivity.
    + exists (c1 ++ c2). split; [exact (crun_two _ _ _ _ _ _ _ B B')|]. split; [exact (led_app _ _ _ _ C C')|].
      intros c I X. apply in_app_or in I. destruct I as [I|I].
      * destruct (D c I X) as [->|[]]. left. reflexivity.
      * right. exact (D' c I X).
Qed.
Lemma yrun_app l1 : forall y y1 t1 o1 l2 y2 t2 o2, yrun y l1 = Some (Ok (y1, t1, o1)) ->
  yrun y1 l2 = Some (Ok (y2, t2, o2)) -> yrun y (l1 ++ l2) = Some (Ok (y2, t1 ++ t2, o1 ++ o2)).
Proof.
  induction l1 as [|l l1 IH]; intros y y1 t1 o1 l2 y2 t2 o2 H1 H2; cbn [yrun app] in *.
  - injection H1 as <- <- <-. exact H2.
  - destruct (ystep y l) as [[[[ya ea] oa]| |]|]; try discriminate.
    destruct (yrun ya l1) as [[[[yb eb] ob]| |]|] eqn:R; try discriminate.
    injection H1 as <- <- <-. rewrite (IH _ _ _ _ _ _ _ _ R H2), !app_assoc. reflexivity.
Qed.
Lemma conn_labels_app a b : conn_labels (a ++ b) = conn_labels a ++ conn_labels b.
Proof. apply flat_map_app. Qed.

(** ** Keys are ids *)
Definition keyed (st : cst) : Prop := forall id n, zlookup id (c_nodes st) = Some n -> n_id n = id.
Lemma keyed_set st id n ns : keyed st -> n_id n = id -> ns = zset id n (c_nodes st) ->
  forall id' n', zlookup id' ns = Some n' -> n_id n' = id'.
Proof.
  intros K E -> id' n'. rewrite zlookup_set. destruct (Z.eqb_spec id' id) as [->|_]; [|apply K].
  intros H. injection H as <-. exact E.
Qed.
Lemma keyed_load ns : forall st, keyed st -> keyed (load_nodes st ns).
Proof.
  induction ns as [|n ns IH]; intros st K; [exact K|]. cbn [load_nodes]. apply IH.
  unfold keyed. match goal with |- context [push ?x ?e] => destruct (pushes_frame [e] x) as (_&G&_) end.
  cbn [pushes] in G. rewrite G. cbn. intros id' n'. rewrite zlookup_set.
  destruct (Z.eqb_spec id' (n_id n)) as [->|_]; [|apply K]. intros H. injection H as <-. reflexivity.
Qed.
Definition ups (id : Z) (o : list cobs) : list ModelController.event :=
  filter (fun e => match e with EUpdated a => (a =? id)%Z | _ => false end) (pushed o).
Lemma ups_app id a b : ups id (a ++ b) = ups id a ++ ups id b.
Proof. unfold ups. rewrite pushed_app, filter_app. reflexivity. Qed.
Lemma ups_events id l : ups id (map (fun a => COPush (EUpdated a)) l) = map EUpdated (filter (fun a => (a =? id)%Z) l).
Proof.
  unfold ups. rewrite pushed_events. induction l as [|a l IH]; [reflexivity|]. cbn [map filter].
  destruct (a =? id)%Z; cbn [map]; rewrite IH; reflexivity.
Qed.
Lemma window_end_events n n' evs : alarm_window_end n = Ok (n', evs) -> evs = [n_id n] /\ n_id n' = n_id n.
Proof.
  unfold alarm_window_end.
  destruct (set_bool n "alarm" false) as [n1| |] eqn:E1; cbn [bind]; try discriminate.
  destruct (set_float n1 "alarm" (f64_of_Z 0)) as [n2| |] eqn:E2; cbn [bind]; try discriminate.
  intros [= <- <-]. apply set_bool_id in E1. apply set_float_id in E2. split; [reflexivity|congruence].
Qed.

Lemma keyed_node_events st1 st' o id evs : node_events st1 id evs = Ok (st', o) ->
  c_nodes st' = c_nodes st1 /\ o = map (fun a => COPush (EUpdated a)) evs.
Proof.
  intros H. apply node_events_ok in H. destruct H as [-> ->]. split; [apply pushes_frame|reflexivity].
Qed.

Lemma keyed_step st l st' o : keyed st -> cstep st l = Some (Ok (st', o)) ->
  keyed st' /\ forall id, ~ touches id l -> ups id o = [].
Proof.
  intros K E. destruct l as [| |m| |b r|i|i n ann| | | | |d]; cbn [cstep] in E.
  - destruct (c_disc st); try discriminate. injection E as <- <-. split; [exact K|reflexivity].
  - destruct (c_disc st); try discriminate; injection E as <- <-; (split; [exact K|reflexivity]).
  - destruct (c_disc st); try discriminate. destruct m as [m|]; [destruct (m_data m) as [[]|]|];
      injection E as <- <-; (split; [exact K|reflexivity]).
  - destruct (c_disc st) as [| |i [|a r]|i r|i r|]; try discriminate.
    + injection E as <- <-. split; [exact K|reflexivity].
    + destruct (negb a); [injection E as <- <-; split; [exact K|reflexivity]|].
      destruct (Nat.eqb i 0); [injection E as <- <-; split; [exact K|reflexivity]|].
      destruct (zlookup (Z.of_nat i + 1) (c_nodes st)); injection E as <- <-; (split; [|reflexivity]); [exact K|].
      intros id' n'. cbn. rewrite zlookup_set. destruct (Z.eqb_spec id' (Z.of_nat i + 1)) as [->|_]; [|apply K].
      intros H. injection H as <-. reflexivity.
    + injection E as <- <-. split; [exact K|reflexivity].
    + injection E as <- <-. split; [exact K|reflexivity].
  - destruct (zlookup (Z.of_N (b2N b)) (c_nodes st)) as [n|] eqn:Z; [|injection E as <- <-; split; [exact K|reflexivity]].
    destruct (process_event n r) as [[[n' evs] op]| |] eqn:P; cbn [bind] in E; try discriminate.
    injection E as E. apply keyed_node_events in E. destruct E as [N ->].
    apply process_event_events in P. destruct P as [-> I]. pose proof (K _ _ Z) as KI. split.
    + unfold keyed. rewrite N. intros id' x. destruct op; cbn; rewrite zlookup_set;
        (destruct (Z.eqb_spec id' (Z.of_N (b2N b))) as [->|_]; [intros H; injection H as <-; congruence|apply K]).
    + intros id T. cbn [touches] in T. rewrite ups_events. destruct (reported (NReport r)); [|reflexivity].
      cbn [filter map]. destruct (Z.eqb_spec (n_id n) id); [congruence|reflexivity].
  - destruct (existsb (Z.eqb i) (c_windows st)); [|discriminate].
    destruct (zlookup i (c_nodes st)) as [n|] eqn:Z; [|discriminate].
    destruct (alarm_window_end n) as [[n' evs]| |] eqn:P; cbn [bind] in E; try discriminate.
    injection E as E. apply keyed_node_events in E. destruct E as [N ->].
    apply window_end_events in P. destruct P as [-> I]. pose proof (K _ _ Z) as KI. split.
    + unfold keyed. rewrite N. intros id' x. cbn. rewrite zlookup_set.
      destruct (Z.eqb_spec id' i) as [->|_]; [intros H; injection H as <-; congruence|apply K].
    + intros id T. cbn [touches] in T. rewrite ups_events. cbn [filter map].
      destruct (Z.eqb_spec (n_id n) id); [congruence|reflexivity].
  - destruct (existsb (Z.eqb i) (c_ident st)); [|discriminate]. cbn [andb] in E.
    destruct (Z.eqb_spec (n_id n) i) as [I|]; [|discriminate]. injection E as E.
    apply keyed_node_events in E. destruct E as [N ->]. split.
    + unfold keyed. rewrite N. intros id' x. cbn. rewrite zlookup_set.
      destruct (Z.eqb_spec id' i) as [->|_]; [intros H; injection H as <-; congruence|apply K].
    + intros id T. cbn [touches] in T. rewrite ups_events. destruct ann; [|reflexivity]. cbn [filter map].
      destruct (Z.eqb_spec i id); [congruence|reflexivity].
  - destruct (c_queue st); [discriminate|]. injection E as <- <-. split; [exact K|reflexivity].
  - destruct (c_trig st); [discriminate|]. destruct (c_deb st); try discriminate;
      injection E as <- <-; (split; [exact K|reflexivity]).
  - destruct (c_deb st); try discriminate. destruct (save_delay <=? age)%N; [|discriminate].
    destruct (c_file st); injection E as <- <-; (split; [exact K|reflexivity]).
  - destruct (c_deb st); try discriminate. injection E as <- <-. split; [exact K|reflexivity].
  - destruct (c_deb st); injection E as <- <-; (split; [exact K|reflexivity]).
Qed.
Lemma crun_cons st l ls st' o : crun st (l :: ls) = Some (Ok (st', o)) ->
  exists st1 o1 o2, cstep st l = Some (Ok (st1, o1)) /\ crun st1 ls = Some (Ok (st', o2)) /\ o = o1 ++ o2.
Proof.
  cbn [crun]. destruct (cstep st l) as [[[s1 a]| |]|]; try discriminate.
  destruct (crun s1 ls) as [[[s2 b]| |]|] eqn:R; try discriminate. intros H. injection H as <- <-.
  exists s1, a, b. auto.
Qed.
Lemma keyed_run ls : forall st st' o, keyed st -> crun st ls = Some (Ok (st', o)) -> keyed st'.
Proof.
  induction ls as [|l ls IH]; intros st st' o K R; [injection R as <- _; exact K|].
  apply crun_cons in R. destruct R as (s1 & o1 & o2 & S & R & _).
  exact (IH _ _ _ (proj1 (keyed_step _ _ _ _ K S)) R).
Qed.
Lemma keyed_start file ns : keyed (y_ctl (ystart file ns)).
Proof. apply keyed_load. intros id n. discriminate. Qed.

(** ** What happens to one node *)
Definition mine (b : byte) (l : list (byte * report)) : list report :=
  map snd (filter (fun x => Byte.eqb (fst x) b) l).
Lemma mine_app b x y : mine b (x ++ y) = mine b x ++ mine b y.
Proof. unfold mine. rewrite filter_app, map_app. reflexivity. Qed.
Lemma address_inj a b : address a = address b -> a = b.
Proof.
  unfold address. intros H. apply N2Z.inj in H.
  assert (X : Byte.of_N (Byte.to_N a) = Byte.of_N (Byte.to_N b)) by congruence.
  rewrite !Byte.of_to_N in X. congruence.
Qed.

Lemma node_history b cls : forall st st' o n k w,
  crun st cls = Some (Ok (st', o)) -> keyed st -> zlookup (address b) (c_nodes st) = Some n ->
  (forall l, In l cls -> touches (address b) l -> exists r, l = CReport b r) ->
  exists m evs, nrun (mkNM n k w) (map NReport (mine b (reports_in cls))) = Some (Ok (m, evs)) /\
    zlookup (address b) (c_nodes st') = Some (m_node m) /\ ups (address b) o = map EUpdated evs.
Proof.
  induction cls as [|l cls IH]; intros st st' o n k w R K N T.
  - injection R as <- <-. exists (mkNM n k w), []. split; [reflexivity|]. split; [exact N|reflexivity].
  - apply crun_cons in R. destruct R as (s1 & o1 & o2 & S & R & ->).
    destruct (keyed_step _ _ _ _ K S) as [K1 U1].
    assert (T2 : forall l, In l cls -> touches (address b) l -> exists r, l = CReport b r)
      by (intros l' I; apply T; right; exact I).
    assert (D : (exists r, l = CReport b r) \/ ~ touches (address b) l).
    { destruct l as [| |m| |b' r|i|i n' ann| | | | |d]; try (right; intros X; exact X).
      - destruct (Byte.byte_eq_dec b b') as [->|D]; [left; eauto|]. right. cbn. intros X. apply D.
        apply address_inj. symmetry. exact X.
      - right. intros X. destruct (T _ (or_introl eq_refl) X) as [r E]. discriminate.
      - right. intros X. destruct (T _ (or_introl eq_refl) X) as [r E]. discriminate. }
    destruct D as [[r ->]|D].
    + cbn [cstep] in S. change (Z.of_N (b2N b)) with (address b) in S. rewrite N in S.
      destruct (process_event n r) as [[[n' evs] op]| |] eqn:P; cbn [bind] in S; try discriminate.
      injection S as S. apply keyed_node_events in S. destruct S as [NN ->].
      assert (N1 : zlookup (address b) (c_nodes s1) = Some n')
        by (rewrite NN; destruct op; cbn; rewrite zlookup_set, Z.eqb_refl; reflexivity).
      destruct (IH _ _ _ _ (S k) (if op then k :: w else w) R K1 N1 T2) as (m & e2 & R2 & Z2 & E2).
      exists m, (evs ++ e2). unfold reports_in. cbn [flat_map]. rewrite mine_app. unfold mine at 1.
      cbn [filter fst map snd app]. assert (BB : Byte.eqb b b = true) by (apply Byte.byte_dec_lb; reflexivity).
      rewrite BB. cbn [map snd app nrun nstep m_node m_next m_open]. rewrite P. cbn [bind].
      fold (reports_in cls). rewrite R2. split; [reflexivity|]. split; [exact Z2|].
      rewrite ups_app, E2, ups_events, map_app. f_equal. apply process_event_events in P. destruct P as [-> _].
      destruct (reported (NReport r)); [|reflexivity]. cbn [filter map]. rewrite (K _ _ N), Z.eqb_refl. reflexivity.
    + assert (KN : knows st (address b)) by (unfold knows; rewrite zlookup_key, N; discriminate).
      destruct (step_node _ _ _ _ _ S D KN) as [N1 _]. rewrite N in N1.
      destruct (IH _ _ _ _ k w R K1 N1 T2) as (m & e2 & R2 & Z2 & E2).
      exists m, e2. split; [|split; [exact Z2|rewrite ups_app, (U1 _ D), E2; reflexivity]].
      assert (X : mine b (reports_in (l :: cls)) = mine b (reports_in cls)).
      { unfold reports_in. cbn [flat_map]. rewrite mine_app. fold (reports_in cls).
        replace (mine b match l with CReport n0 r => [(n0, r)] | _ => [] end) with (@nil report); [reflexivity|].
        destruct l as [| |m0| |b' r|i|i n' ann| | | | |d]; try reflexivity. cbn [mine filter fst map].
        unfold mine. cbn [filter fst map]. destruct (Byte.eqb b' b) eqn:X; [|reflexivity].
        apply Byte.byte_dec_bl in X. subst b'. exfalso. apply D. reflexivity. }
      rewrite X. exact R2.
Qed.

(** ** Reports *)
Lemma controls_alone_app a b : controls_alone (a ++ b) -> controls_alone a.
Proof.
  intros H l1 o x l2 s tr c tl E R B I. subst a. apply (H l1 o x (l2 ++ b) s tr c tl); try assumption.
  rewrite <- app_assoc. reflexivity.
Qed.
Lemma mine_perm b x y : Permutation x y -> Permutation (mine b x) (mine b y).
Proof.
  intros P. unfold mine. apply Permutation_map. induction P; cbn [filter].
  - constructor.
  - destruct (Byte.eqb (fst x) b); [constructor; exact IHP|exact IHP].
  - destruct (Byte.eqb (fst x) b), (Byte.eqb (fst y) b); try apply Permutation_refl. constructor.
  - eapply Permutation_trans; eassumption.
Qed.
Lemma mine_none b l : (forall r, ~ In (b, r) l) -> mine b l = [].
Proof.
  intros H. unfold mine. induction l as [|[c r] l IH]; [reflexivity|]. cbn [filter fst].
  destruct (Byte.eqb c b) eqn:E.
  - apply Byte.byte_dec_bl in E. subst c. exfalso. apply (H r). left. reflexivity.
  - apply IH. intros r' I. apply (H r'). right. exact I.
Qed.

Lemma reports_processed file ns l1 y1 t1 o1 l2 y2 t2 o2 b n1 :
  yrun (ystart file ns) l1 = Some (Ok (y1, t1, o1)) -> yrun y1 l2 = Some (Ok (y2, t2, o2)) ->
  controls_alone (conn_labels (l1 ++ l2)) -> Forall self_contained (frames_taken (t1 ++ t2)) ->
  caught_up y1 b -> caught_up y2 b -> left_alone b l2 -> node_of y1 b = Some n1 ->
  exists rs m evs, Permutation rs (reports_from b (frames_taken t2)) /\
    nrun (mkNM n1 0 []) (map NReport rs) = Some (Ok (m, evs)) /\
    node_of y2 b = Some (m_node m) /\ updates_of b o2 = map EUpdated evs.
Proof.
  intros R1 R2 CA SC Q1 Q2 LA N.
  pose proof (yrun_app _ _ _ _ _ _ _ _ _ R1 R2) as R12.
  destruct (yrun_spec _ _ _ _ _ R1) as [C1 (cl1 & K1 & _)].
  destruct (yrun_spec _ _ _ _ _ R12) as [C12 _].
  destruct (yrun_spec _ _ _ _ _ R2) as [_ (cl2 & K2 & [L2 _] & O2)].
  cbn [ystart y_conn] in C1, C12.
  rewrite frames_taken_app in SC. pose proof SC as SC'. apply Forall_app in SC'. destruct SC' as [SC1 _].
  rewrite <- frames_taken_app in SC.
  rewrite conn_labels_app in CA. pose proof (controls_alone_app _ _ CA) as CA1. rewrite <- conn_labels_app in CA.
  pose proof (reports_spawned _ _ _ C1 CA1 SC1) as S1.
  pose proof (reports_spawned _ _ _ C12 CA SC) as S12.
  rewrite spawned_app, frames_taken_app, flat_map_app, S1 in S12. apply app_inv_head in S12.
  pose proof (callbacks_of_spawned _ _ _ C1) as P1.
  pose proof (callbacks_of_spawned _ _ _ C12) as P12.
  apply (mine_perm b) in P1. apply (mine_perm b) in P12.
  rewrite spawned_app in P12. rewrite called_back_app in P12. rewrite !mine_app in P1, P12.
  rewrite (mine_none b _ Q1), app_nil_r in P1. rewrite (mine_none b _ Q2), app_nil_r in P12.
  rewrite ?mine_app in P12.
  assert (P : Permutation (mine b (called_back t2)) (reports_from b (frames_taken t2))).
  { unfold reports_from. rewrite <- S12. fold (mine b (spawned t2)).
    apply (Permutation_app_inv_l (mine b (spawned t1))).
    eapply Permutation_trans; [|exact P12]. apply Permutation_app_tail. apply Permutation_sym. exact P1. }
  pose proof (keyed_run _ _ _ _ (keyed_start file ns) K1) as KY.
  destruct (node_history b cl2 _ _ _ n1 0 [] K2 KY N) as (m & evs & H1 & H2 & H3).
  { intros l I T. destruct (own_step l) eqn:W; [exfalso; exact (LA l (O2 l I W) T)|].
    destruct l; try discriminate W; try contradiction. cbn in T.
    assert (id = b) as -> by (apply address_inj; exact T). eauto. }
  rewrite L2 in H1. exists (mine b (called_back t2)), m, evs. auto.
Qed.

Lemma report_of_new f b r : report_of f = [(b, r)] -> exists c k d, reports_new c k d = Ok r.
Proof.
  unfold report_of, content. destruct (byte_at f 3 =? 4)%N.
  - destruct (SpecMessage.announced f) as [|c [|k d]]; try discriminate.
    destruct (reports_new c k d) eqn:E; try discriminate. intros H. injection H as _ <-. eauto.
  - destruct (byte_at f 3 =? 2)%N; [destruct (new_discovered_nodes (SpecMessage.announced f)); discriminate|].
    destruct (byte_at f 3 =? 65)%N; [destruct (new_protocol_info (skipn 4 (cleared f))); discriminate|discriminate].
Qed.
Lemma report_of_one f : report_of f = [] \/ exists b r, report_of f = [(b, r)].
Proof. unfold report_of. destruct (content f) as [[]| |]; eauto. Qed.
Lemma reports_from_new b fs r : In r (reports_from b fs) -> exists c k d, reports_new c k d = Ok r.
Proof.
  unfold reports_from. rewrite in_map_iff. intros ((c & r') & E & I). cbn in E. subst r'.
  apply filter_In in I. destruct I as [I _]. apply in_flat_map in I. destruct I as (f & _ & I).
  destruct (report_of_one f) as [E|(b' & r' & E)]; rewrite E in I; [destruct I|].
  destruct I as [I|[]]. injection I as -> ->. exact (report_of_new _ _ _ E).
Qed.

Lemma one_report file ns l1 y1 t1 o1 l2 y2 t2 o2 b n1 r :
  yrun (ystart file ns) l1 = Some (Ok (y1, t1, o1)) -> yrun y1 l2 = Some (Ok (y2, t2, o2)) ->
  controls_alone (conn_labels (l1 ++ l2)) -> Forall self_contained (frames_taken (t1 ++ t2)) ->
  caught_up y1 b -> caught_up y2 b -> left_alone b l2 -> node_of y1 b = Some n1 -> has_maps n1 ->
  reports_from b (frames_taken t2) = [r] -> state_report r ->
  exists n2, node_of y2 b = Some n2 /\ report_effect n1 n2 r /\ same_but_state n1 n2 /\
    updates_of b o2 = [EUpdated (address b)].
Proof.
  intros R1 R2 CA SC Q1 Q2 LA N M F S.
  destruct (reports_processed _ _ _ _ _ _ _ _ _ _ _ _ R1 R2 CA SC Q1 Q2 LA N) as (rs & m & evs & P & H & Z & E).
  rewrite F in P. apply Permutation_sym, Permutation_length_1_inv in P. subst rs.
  destruct (reports_from_new b (frames_taken t2) r) as (c & k & d & X); [rewrite F; left; reflexivity|].
  destruct (state_report_effect n1 c k d r X M S) as (n' & PE & A & B & _).
  cbn [map nrun nstep m_node m_next m_open] in H. rewrite PE in H. cbn [bind] in H. injection H as <- <-.
  cbn [m_node] in Z. exists n'. split; [exact Z|]. split; [exact A|]. split; [exact B|].
  rewrite E. cbn [map]. destruct (yrun_spec _ _ _ _ _ R1) as [_ (cl1 & K1 & _)].
  rewrite (keyed_run _ _ _ _ (keyed_start file ns) K1 _ _ N). reflexivity.
Qed.

(** ** Which nodes are known *)
Definition traced (P : list bool -> Prop) (K : Z -> Prop) (st : cst) : Prop :=
  (forall id, knows st id -> K id \/ exists bm, P bm /\ (2 <= id)%Z /\ active_in bm id) /\
  match c_disc st with
  | DcLoop i rest => exists bm, P bm /\ rest = skipn i bm
  | DcAdded i rest | DcPushed i rest => exists bm, P bm /\ rest = skipn (S i) bm
  | _ => True
  end.

Lemma skipn_cons_nth {A} (l : list A) i a r : skipn i l = a :: r -> nth_error l i = Some a /\ r = skipn (S i) l.
Proof.
  revert l. induction i as [|i IH]; intros [|x l] H; try discriminate.
  - cbn in H. injection H as -> ->. split; reflexivity.
  - cbn [skipn] in H. destruct (IH l H) as [A1 A2]. split; [exact A1|]. rewrite A2. reflexivity.
Qed.

Lemma traced_step P K st l st' o : cinv st -> traced P K st -> cstep st l = Some (Ok (st', o)) ->
  (forall m bm, l = CAnswer (Some m) -> m_data m = Some (PNodes bm) -> P bm) -> traced P K st'.
Proof.
  intros CI [T D] E A.
  assert (Same : forall st1, (forall id, knows st1 id -> knows st id) -> c_disc st1 = c_disc st -> traced P K st1).
  { intros st1 N1 D1. split; [intros id X; apply T, N1, X|rewrite D1; exact D]. }
  assert (Ev : forall st1 i evs, node_events st1 i evs = Ok (st', o) -> knows st i ->
    (exists x, c_nodes st1 = zset i x (c_nodes st)) -> c_disc st1 = c_disc st -> traced P K st').
  { intros st1 i evs H KN [x N1] D1. apply node_events_ok in H. destruct H as [-> _].
    destruct (pushes_frame (map EUpdated evs) st1) as (_ & N & _ & _ & C & _). apply Same; [|congruence].
    intros id. unfold knows. rewrite N, N1, zset_keys. intros [->|X]; [exact KN|exact X]. }
  assert (Kn : forall id n, zlookup id (c_nodes st) = Some n -> knows st id)
    by (intros id n Z; unfold knows; rewrite zlookup_key, Z; discriminate).
  destruct l as [| |m| |b r|i|i n ann| | | | |d]; cbn [cstep] in E.
  - destruct (c_disc st) eqn:C; try discriminate. injection E as <- <-. split; [exact T|exact I].
  - destruct (c_disc st) eqn:C; try discriminate; injection E as <- <-; (split; [exact T|rewrite C; exact D]).
  - destruct (c_disc st) eqn:C; try discriminate.
    destruct m as [m|]; [destruct (m_data m) as [[]|] eqn:M|]; injection E as <- <-; (split; [exact T|]); try exact I.
    cbn. eexists. split; [eapply A; [reflexivity|exact M]|reflexivity].
  - destruct (c_disc st) as [| |i [|a r]|i r|i r|] eqn:C; try discriminate.
    + injection E as <- <-. split; [exact T|exact I].
    + destruct D as (bm & PB & D). symmetry in D. apply skipn_cons_nth in D. destruct D as [DN DR].
      assert (L : exists bm, P bm /\ r = skipn (S i) bm) by eauto.
      destruct a; cbn [negb] in E; [|injection E as <- <-; split; [exact T|exact L]].
      destruct (Nat.eqb_spec i 0) as [->|I0]; [injection E as <- <-; split; [exact T|exact L]|].
      destruct (zlookup (Z.of_nat i + 1) (c_nodes st)) eqn:Z; injection E as <- <-; (split; [|exact L]); [exact T|].
      intros id. unfold knows. cbn. rewrite zset_keys. intros [->|H]; [|exact (T id H)].
      right. exists bm. split; [exact PB|]. split; [lia|]. split; [lia|].
      replace (Z.to_nat (Z.of_nat i + 1 - 1)) with i by lia. exact DN.
    + injection E as <- <-. split; [exact T|exact D].
    + injection E as <- <-. split; [exact T|exact D].
  - destruct (zlookup (Z.of_N (b2N b)) (c_nodes st)) as [n|] eqn:Z; [|injection E as <- <-; split; assumption].
    destruct (process_event n r) as [[[n' evs] op]| |] eqn:Q; cbn [bind] in E; try discriminate.
    injection E as E. apply Ev in E; [exact E|eapply Kn; exact Z| |]; destruct op; cbn; eauto.
  - destruct (existsb (Z.eqb i) (c_windows st)); [|discriminate].
    destruct (zlookup i (c_nodes st)) as [n|] eqn:Z; [|discriminate].
    destruct (alarm_window_end n) as [[n' evs]| |]; cbn [bind] in E; try discriminate.
    injection E as E. apply Ev in E; [exact E|eapply Kn; exact Z| |]; cbn; eauto.
  - destruct (existsb (Z.eqb i) (c_ident st)) eqn:X; [|discriminate]. cbn [andb] in E.
    destruct (n_id n =? i)%Z; [|discriminate]. injection E as E.
    apply existsb_exists in X. destruct X as (i' & X & Y). apply Z.eqb_eq in Y. subst i'.
    apply Ev in E; [exact E| | |]; cbn; eauto. apply (ci_setup _ CI), (ci_ident _ CI), X.
  - destruct (c_queue st); [discriminate|]. injection E as <- <-. apply Same; [intros id X; exact X|reflexivity].
  - destruct (c_trig st); [discriminate|]. destruct (c_deb st); try discriminate;
      injection E as <- <-; (apply Same; [intros id X; exact X|reflexivity]).
  - destruct (c_deb st); try discriminate. destruct (save_delay <=? age)%N; [|discriminate].
    destruct (c_file st); injection E as <- <-; (apply Same; [intros id X; exact X|reflexivity]).
  - destruct (c_deb st); try discriminate. injection E as <- <-. apply Same; [intros id X; exact X|reflexivity].
  - destruct (c_deb st); injection E as <- <-; (apply Same; [intros id X; exact X|reflexivity]).
Qed.
Lemma traced_run P K ls : forall st st' o, cinv st -> traced P K st -> crun st ls = Some (Ok (st', o)) ->
  (forall m bm, In (CAnswer (Some m)) ls -> m_data m = Some (PNodes bm) -> P bm) -> traced P K st'.
Proof.
  induction ls as [|l ls IH]; intros st st' o C T R A; [injection R as <- _; exact T|].
  apply crun_cons in R. destruct R as (s1 & o1 & o2 & S & R & _).
  apply (IH _ _ _ (cinv_step _ _ _ _ C S)) in R; [exact R| |].
  - apply (traced_step _ _ _ _ _ _ C T S). intros m bm -> M. apply (A m bm); [left; reflexivity|exact M].
  - intros m bm I. apply A. right. exact I.
Qed.

(** A delivered message is that of a frame taken in the same step. *)
Lemma deliver_label s l s' ev i m : step s l = Some (s', ev) -> In (EvDeliver i m) ev -> exists o a, l = LIter o a.
Proof.
  intros H Hin. apply step_inv in H.
  assert (NV : forall ev, Forall visit_event ev -> ~ In (EvDeliver i m) ev).
  { intros e0 V X. rewrite Forall_forall in V. now apply V in X. }
  destruct H; try (exfalso; cbn in Hin; intuition discriminate); eauto.
  - exfalso. destruct (mem i0 (c_open s)); cbn in Hin; intuition discriminate.
  - exfalso. unfold expire in H0. conn_simpl_in H0. destruct (find_pkg i0 (c_inflight s)).
    + apply close_pkg_events in H0. destruct H0 as [->| ->]; cbn in Hin; intuition discriminate.
    + injection H0 as <- <-. destruct Hin.
  - exfalso. apply visit_fields in H3. destruct H3 as [_ [_ V]]. eapply NV; eassumption.
  - exfalso. apply spawn_callback_fields in H1. apply in_app_iff in Hin.
    destruct H1 as [_ [->|[n [rr ->]]]]; cbn in Hin; intuition discriminate.
Qed.
Lemma deliver_frame s l s' ev i m : step s l = Some (s', ev) -> c_crashed s' = false ->
  In (EvDeliver i m) ev -> Forall self_contained (frames_taken ev) ->
  exists f, In f (frames_taken ev) /\ m = message_of f.
Proof.
  intros H C I SC. destruct (step_deliver _ _ _ _ _ _ H I) as (r & d & DD & M & _).
  destruct (deliver_label _ _ _ _ _ _ H I) as (o & a & ->).
  pose proof (step_reader _ _ _ _ H C) as RC. inversion RC; subst; try discriminate; try contradiction.
  - destruct I as [I|[]]. discriminate.
  - match goal with X : decode (c_buf s) = Ok (_, d0) |- _ => rewrite DD in X; injection X as <- <- end. exists f. rewrite !frames_taken_app in *.
    assert (If : In f (frames_taken ev2 ++ frames_taken ev3 ++ frames_taken [EvFrame f (d_msg r); EvAck]))
      by (apply in_or_app; right; apply in_or_app; right; left; reflexivity).
    split; [exact If|]. rewrite Forall_forall in SC. specialize (SC f If).
    match goal with X : els (c_buf s) = f ++ _ |- _ => rename X into BF end.
    destruct (c_buf s) as [e sp]. cbn [els] in BF. subst e. exact (self_contained_message _ _ _ _ _ SC DD).
Qed.
Lemma crashed_stays s ls : forall s' tr, run s ls = Some (s', tr) -> c_crashed s' = false -> c_crashed s = false.
Proof.
  induction ls as [|l ls IH]; intros s' tr R C; [injection R as <- _; exact C|]. cbn [run] in R.
  destruct (step s l) as [[s1 e]|] eqn:S; [|discriminate]. revert S. unfold step.
  destruct (c_crashed s); [discriminate|reflexivity].
Qed.
Lemma deliver_frames ls : forall s s' tr i m, run s ls = Some (s', tr) -> c_crashed s' = false ->
  In (EvDeliver i m) tr -> Forall self_contained (frames_taken tr) ->
  exists f, In f (frames_taken tr) /\ m = message_of f.
Proof.
  induction ls as [|l ls IH]; intros s s' tr i m R C I SC; cbn [run] in R; [injection R as _ <-; destruct I|].
  destruct (step s l) as [[s1 e]|] eqn:S; [|discriminate].
  destruct (run s1 ls) as [[s2 t2]|] eqn:R2; [|discriminate]. injection R as <- <-.
  rewrite frames_taken_app in *. apply Forall_app in SC. destruct SC as [SC1 SC2].
  apply in_app_or in I. destruct I as [I|I].
  - destruct (deliver_frame _ _ _ _ _ _ S (crashed_stays _ _ _ _ R2 C) I SC1) as (f & X & Y).
    exists f. split; [apply in_or_app; left; exact X|exact Y].
  - destruct (IH _ _ _ _ _ R2 C I SC2) as (f & X & Y). exists f. split; [apply in_or_app; right; exact X|exact Y].
Qed.

Lemma nodes_message f m bm id : self_contained f -> message_of f = Some m -> m_data m = Some (PNodes bm) ->
  active_in bm id <-> lists_node f id.
Proof.
  intros SC M D. unfold message_of in M. destruct (content f) as [pl| |] eqn:C; try discriminate.
  injection M as <-. cbn in D. injection D as ->. unfold content in C.
  destruct (byte_at f 3 =? 4)%N; [destruct (SpecMessage.announced f) as [|c [|k d]]; try discriminate;
    destruct (reports_new c k d); discriminate|].
  destruct (N.eqb_spec (byte_at f 3) 2) as [E3|]; [|destruct (byte_at f 3 =? 65)%N;
    [destruct (new_protocol_info (skipn 4 (cleared f))); discriminate|discriminate]].
  destruct (new_discovered_nodes (SpecMessage.announced f)) as [a| |] eqn:ND; try discriminate. injection C as ->.
  assert (L : (6 <= List.length (SpecMessage.announced f) <= 29)%nat).
  { split.
    - destruct (Nat.le_gt_cases 6 (List.length (SpecMessage.announced f))) as [X|X]; [exact X|].
      revert ND. unfold new_discovered_nodes. apply Nat.ltb_lt in X. rewrite X. discriminate.
    - destruct SC as (_ & _ & _ & X & _). destruct (X E3) as (_ & B & _).
      unfold SpecMessage.announced. rewrite firstn_length. lia. }
  destruct (discovered_nodes_bits _ L) as (arr & A & LA & B). rewrite ND in A. injection A as ->.
  unfold active_in, lists_node. split.
  - intros [I NE]. assert (J : (Z.to_nat (id - 1) < 232)%nat).
    { rewrite <- LA. apply nth_error_Some. rewrite NE. discriminate. }
    split; [exact E3|]. split; [lia|]. cbn zeta. rewrite <- B by exact J. exact (nth_error_nth _ _ false NE).
  - intros (_ & I & NB). cbn zeta in NB. assert (J : (Z.to_nat (id - 1) < 232)%nat) by lia. split; [lia|].
    rewrite <- B in NB by exact J. rewrite (nth_error_nth' arr false) by lia. rewrite NB. reflexivity.
Qed.

Lemma load_knows file ns id : knows (y_ctl (ystart file ns)) id <-> In id (map n_id ns).
Proof.
  cbn [ystart y_ctl]. fold (loaded file ns). unfold loaded. rewrite load_known. unfold knows. cbn. tauto.
Qed.

(** Only nodes of the file and nodes listed in a received frame are known. *)
Lemma known_origin file ns ls y tr o id :
  yrun (ystart file ns) ls = Some (Ok (y, tr, o)) -> c_crashed (y_conn y) = false ->
  Forall self_contained (frames_taken tr) -> knows (y_ctl y) id ->
  In id (map n_id ns) \/ (2 <= id)%Z /\ exists f, In f (frames_taken tr) /\ lists_node f id.
Proof.
  intros R C SC K. destruct (yrun_spec _ _ _ _ _ R) as [RC (cls & KR & [_ LD] & _)]. cbn [ystart y_conn] in RC.
  set (P := fun bm => exists f, In f (frames_taken tr) /\ forall id, active_in bm id <-> lists_node f id).
  assert (T0 : traced P (fun id => In id (map n_id ns)) (y_ctl (ystart file ns))).
  { split; [intros i X; left; apply load_knows in X; exact X|].
    cbn [ystart y_ctl]. destruct (load_trig file ns) as (_ & _ & Q & _). fold (loaded file ns). rewrite Q. exact I. }
  destruct (traced_run P _ cls _ _ _ (cinv_load file ns) T0 KR) as [T _].
  - intros m bm I M. destruct (LD m I) as [j J].
    destruct (deliver_frames _ _ _ _ _ _ RC C J SC) as (f & F & E). exists f. split; [exact F|].
    intros i. apply (nodes_message f m); [|symmetry; exact E|exact M]. rewrite Forall_forall in SC. exact (SC f F).
  - destruct (T id K) as [X|(bm & (f & F & A) & L & B)]; [left; exact X|right]. split; [exact L|].
    exists f. split; [exact F|apply A; exact B].
Qed.
